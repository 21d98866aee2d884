(** Construction of codebooks on a machine: the whole. *)
From Coq Require Import List Arith NArith Bool Lia Permutation.
From Coq Require Import ZifyBool ZifyNat ZifyN.
From Verif Require Import Base CodebookModel CodebookSpec ReleaseCbModel ReleaseCbSpec MachineModel MachineCbModel MachineCbSpec MachineCbProofs MachineCbProofs2.
Import ListNotations.
Local Open Scope N_scope.

(** ** No undefined behaviour *)
Lemma bind_safe {A B : Type} (x : outcome A) (k : A -> outcome B) : x <> UB -> (forall a, k a <> UB) -> obind x k <> UB.
Proof. intros H1 H2. destruct x; cbn [obind]; [apply H2|discriminate|destruct (H1 eq_refl)]. Qed.

Section Safe.
Variable chk : bool.
Notation P := plus0.
Notation C := cast0.

Lemma shl_safe a n : k_shl32 chk a n <> UB.
Proof. unfold k_shl32, shl32. destruct chk; [destruct (n <? 32)%nat|]; discriminate. Qed.
Lemma shr_safe a n : k_shr32 chk a n <> UB.
Proof. unfold k_shr32, shr32. destruct chk; [destruct (n <? 32)%nat|]; discriminate. Qed.
Lemma add_safe a n : k_add32 chk a n <> UB.
Proof. unfold k_add32, add32. destruct chk; [destruct (a + n <? W32)|]; discriminate. Qed.
Lemma sub_safe a n : k_sub32 chk a n <> UB.
Proof. unfold k_sub32, sub32. destruct chk; [destruct (n <=? a)|]; discriminate. Qed.
Lemma sub8_safe a n : k_sub8 chk a n <> UB.
Proof. unfold k_sub8, csub. destruct chk; [destruct (n <=? a)%nat|]; discriminate. Qed.
Lemma store_safe t i off v : k_store P C t i off v <> UB.
Proof. unfold k_store, plus0, store. cbn [obind]. destruct (_ <? _)%nat; discriminate. Qed.

Lemma fill_loop_safe : forall n t off idx v j, (forall j, idx j <> UB) -> k_fill_loop P C t off idx v j n <> UB.
Proof.
  induction n as [|n IH]; intros t off idx v j H; cbn [k_fill_loop]; [discriminate|].
  apply bind_safe; [apply H|]. intros i. apply bind_safe; [apply store_safe|]. intros t'. apply IH. exact H.
Qed.

Lemma fill_lut_safe t m off c b L s e : k_fill_lut chk P C t m off c b L s e <> UB.
Proof.
  destruct m; cbn [k_fill_lut]; unfold k_fill_lut_msb, k_fill_lut_lsb; destruct e; cbn [negb]; try apply store_safe.
  - apply bind_safe; [apply sub8_safe|]. intros x. apply bind_safe; [apply shl_safe|]. intros y. apply bind_safe; [apply shl_safe|]. intros z.
    apply fill_loop_safe. intros j. apply add_safe.
  - apply bind_safe; [apply sub8_safe|]. intros x. apply bind_safe; [apply shl_safe|]. intros y. apply bind_safe; [apply sub8_safe|]. intros z.
    apply fill_loop_safe. intros j. apply bind_safe; [apply shl_safe|]. intros q. apply add_safe.
Qed.

Lemma lut_part_safe c b L m : k_lut_part chk c b L m <> UB.
Proof.
  destruct m; cbn [k_lut_part].
  - apply bind_safe; [apply sub8_safe|]. intros d. apply shr_safe.
  - apply bind_safe; [apply shl_safe|]. intros d. apply bind_safe; [apply sub_safe|]. discriminate.
Qed.

Lemma long_safe cc m c : k_add_long_code chk cc m c <> UB.
Proof.
  unfold k_add_long_code. apply bind_safe; [apply lut_part_safe|]. intros k. apply bind_safe.
  - destruct m; cbn [k_esc_part]; [|apply shr_safe].
    apply bind_safe; [apply sub8_safe|]. intros d. apply bind_safe; [apply shl_safe|]. intros o. apply bind_safe; [apply sub_safe|]. discriminate.
  - intros v. apply bind_safe; [apply sub8_safe|]. discriminate.
Qed.

Lemma esc1_safe : forall codes t m off L cc, k_esc_pass1 chk P C t m off L codes cc <> UB.
Proof.
  induction codes as [|c codes IH]; intros t m off L cc; cbn [k_esc_pass1]; [discriminate|]. destruct (c_bits c <=? MAX_LUT_BITS)%nat.
  - apply bind_safe; [apply fill_lut_safe|]. intros t'. apply IH.
  - apply bind_safe; [apply long_safe|]. intros t'. apply IH.
Qed.

Lemma alloc_safe t m off key b : k_alloc_bucket chk P C yes t m off key b <> UB.
Proof.
  unfold k_alloc_bucket. apply bind_safe.
  - unfold k_resize_table. apply bind_safe; [apply shl_safe|]. discriminate.
  - intros [t1 o]. apply bind_safe; [apply fill_lut_safe|]. discriminate.
Qed.

Lemma esc2_safe : forall cc t m off, k_esc_pass2 chk P C yes t m off cc <> UB.
Proof.
  induction cc as [|[key b] cc IH]; intros t m off; cbn [k_esc_pass2]; [discriminate|].
  apply bind_safe; [apply alloc_safe|]. intros [t1 b1]. apply bind_safe; [apply IH|]. intros [t2 cc2]. discriminate.
Qed.

Lemma build_all_safe : forall cc f t, (forall t key b, f t key b <> UB) -> build_all f t cc <> UB.
Proof.
  induction cc as [|[key b] cc IH]; intros f t H; cbn [build_all]; [discriminate|]. apply bind_safe; [apply H|]. intros t'. apply IH. exact H.
Qed.

Lemma build_safe : forall fuel ord path t m b, k_build_esc_lut chk P C yes fuel ord path t m b <> UB.
Proof.
  induction fuel as [|fuel IH]; intros ord path t m b; cbn [k_build_esc_lut]; [discriminate|].
  apply bind_safe; [apply esc1_safe|]. intros [t1 cc1]. apply bind_safe; [apply esc2_safe|]. intros [t2 cc2].
  apply build_all_safe. intros. apply IH.
Qed.

Lemma pass2_safe {S : Type} : forall (ds : list (desc S)) t m L s cc, k_new_pass2 chk P C yes t m L ds s cc <> UB.
Proof.
  induction ds as [|d ds IH]; intros t m L s cc; cbn [k_new_pass2]; [discriminate|]. destruct (d_bits d =? 0)%nat; [apply IH|].
  apply bind_safe.
  - destruct (d_bits d <=? MAX_LUT_BITS)%nat.
    + apply bind_safe; [apply fill_lut_safe|]. discriminate.
    + apply bind_safe; [apply lut_part_safe|]. intros k. apply bind_safe; [unfold index_at; destruct (nth_error _ _); discriminate|].
      intros x. destruct (x =? TABLE_FILL_VALUE); [|discriminate]. destruct (find_bucket _ _); [|discriminate].
      apply bind_safe; [apply alloc_safe|]. intros [t1 b1]. discriminate.
  - intros [t1 cc1]. apply bind_safe; [apply add_safe|]. intros s1. apply IH.
Qed.
End Safe.

(** ** The whole *)
Lemma pass1_count {S : Type} chk m (ds : list (desc S)) L n cc : k_new_pass1 chk plus0 m ds 0 0 0 [] = Ret (L, n, cc) -> n = N.of_nat (nused ds).
Proof.
  destruct chk; [rewrite pass1_0|rewrite pass1_1].
  - destruct (new_pass1 _ _ _ _ _) as [[a b]| |]; cbn [obind]; [|discriminate..]. intros E. injection E as _ <- _. reflexivity.
  - destruct (rc_new_pass1 _ _ _ _ _) as [a b]. intros E. injection E as _ <- _. reflexivity.
Qed.

Lemma construct_ideal {S : Type} mc grants sym_grants ord m (ds : list (desc S)) : 32 <= bits mc -> honest mc grants -> permuting ord ->
  lengths_u8 ds -> codes_u32 ds -> N.of_nat (length ds) < 2 ^ bits mc ->
  mk_new_codebook mc grants sym_grants ord ds m = ideal (checked mc) ord ds m \/
  (mk_new_codebook mc grants sym_grants ord ds m = Panic /\
   exists cb, ideal (checked mc) ord ds m = Ret (Okay cb) /\ too_big grants sym_grants cb).
Proof.
  intros Hb Hg Hp Hl Hc Hn. unfold mk_new_codebook, ideal, k_new_codebook.
  destruct (pass1_same mc grants Hb Hg m ds 0 0 0 [] Hc Hl) as [E1 F1]; [exact Hn|exact Hn|constructor|]. rewrite E1.
  destruct (k_new_pass1 (checked mc) plus0 m ds 0 0 0 []) as [[[L n] cc]| |] eqn:E2; cbn [obind]; [|left; reflexivity..].
  specialize (F1 _ eq_refl). cbn [snd] in F1. apply pass1_count in E2. destruct (L =? 0)%nat; [left; reflexivity|].
  set (L' := if (MAX_LUT_BITS <? L)%nat then MAX_LUT_BITS else L).
  assert (HL : (L' <= 10)%nat) by (unfold L'; change MAX_LUT_BITS with 10%nat; destruct (Nat.ltb_spec 10 L); lia). clearbody L'.
  assert (H2 : 2 ^ N.of_nat L' <= 2 ^ 10) by (apply pow_le; lia). change (2 ^ 10) with 1024 in H2.
  assert (Hsh : mshl mc 1 (N.of_nat L') = shl0 1 (N.of_nat L')).
  { unfold mshl, shl0. destruct (N.ltb_spec (N.of_nat L') (bits mc)); [|lia]. f_equal. apply N.mod_small. rewrite N.shiftl_1_l.
    rewrite (modulus_room mc Hb). pose proof (room_big mc Hb) as R. change (2 ^ 31) with 2147483648 in R. lia. }
  rewrite Hsh. unfold shl0, yes at 1 2. cbn [obind]. fold yes. rewrite N.shiftl_1_l. set (t0 := repeat TABLE_FILL_VALUE (N.to_nat (2 ^ N.of_nat L'))).
  assert (H0 : N.of_nat (length t0) = 2 ^ N.of_nat L') by (unfold t0; rewrite repeat_length; lia).
  (* the part after the first allocations *)
  set (rest := fun (p : N -> N -> outcome N) (c : N -> N) g =>
    let! (table, cc') := k_new_pass2 (checked mc) p c g t0 m L' ds 0 cc in
    build_all (fun t key b => k_build_esc_lut (checked mc) p c g 26 ord [key] t m b) table (ord [] cc')).
  assert (Hre : forall p c g, (let! (table, cc') := k_new_pass2 (checked mc) p c g t0 m L' ds 0 cc in
     let! table' := build_all (fun t key b => k_build_esc_lut (checked mc) p c g 26 ord [key] t m b) table (ord [] cc') in
     Ret (Okay (mk_codebook table' (used_syms ds) L')) : outcome (result (codebook S) codebook_error)) =
    (let! table' := rest p c g in Ret (Okay (mk_codebook table' (used_syms ds) L')))).
  { intros p c g. unfold rest. destruct (k_new_pass2 _ _ _ _ _ _ _ _ _ _) as [[a b]| |]; cbn [obind]; [|reflexivity..]. reflexivity. }
  rewrite !Hre.
  assert (Safe : rest plus0 cast0 yes <> UB).
  { unfold rest. apply bind_safe; [apply pass2_safe|]. intros [a b]. apply build_all_safe. intros. apply build_safe. }
  assert (Len : forall t, rest plus0 cast0 yes = Ret t -> (length t0 <= length t)%nat).
  { intros t E. unfold rest in E. destruct (k_new_pass2 _ _ _ _ _ _ _ _ _ _) as [[a b]| |] eqn:E3; cbn [obind] in E; [|discriminate E..].
    apply pass2_len in E3. apply build_all_len in E; [lia|]. intros t1 k1 b1 t1' E4. apply build_len in E4. exact E4. }
  assert (Hlate : grants (2 ^ N.of_nat L') = true -> rel grants (@self) (fits mc) (rest (madd mc) (mcast mc) grants) (rest plus0 cast0 yes)).
  { intros G. apply Hg in G. assert (Ft : fits mc t0) by (unfold fits, off_ok, room; rewrite H0; exact G).
    unfold rest. eapply (rel_bind mc grants Hb Hg).
    - apply (pass2_rel mc grants Hb Hg m L' ds t0 0 cc Hc Ft F1).
    - intros [t1 cc1] [G1 G2] _. cbn [fst snd] in G1, G2. apply (build_all_rel mc grants Hb Hg (2 ^ 32) m); [exact G1|apply permuted; assumption| |].
      + intros t2 key b2 I1 [_ I2]. apply (build_rel mc grants Hb Hg); assumption.
      + intros t2 key b2 t' E. apply build_len in E. exact E.
    - intros [t1 cc1] r _ E. cbn [fst]. unfold self. apply build_all_len in E; [exact E|]. intros t2 key b2 t' E'. apply build_len in E'. exact E'. }
  destruct (rest plus0 cast0 yes) as [tf| |] eqn:Ef; cbn [obind]; [| |destruct (Safe eq_refl)].
  - (* a codebook, with unlimited memory *)
    specialize (Len tf eq_refl). destruct (grants (2 ^ N.of_nat L')) eqn:G.
    + destruct (sym_grants n) eqn:G2.
      * specialize (Hlate eq_refl). destruct Hlate as [[-> _]|[-> R]]; cbn [obind].
        -- left. reflexivity.
        -- right. split; [reflexivity|]. eexists. split; [reflexivity|]. left. cbn [cb_table]. apply (R tf eq_refl).
      * right. split; [reflexivity|]. eexists. split; [reflexivity|]. right. cbn [cb_syms]. rewrite <- G2, E2. reflexivity.
    + right. split; [reflexivity|]. eexists. split; [reflexivity|]. left. cbn [cb_table]. exists (2 ^ N.of_nat L'). split; [lia|exact G].
  - left. destruct (grants (2 ^ N.of_nat L')) eqn:G; [|reflexivity]. destruct (sym_grants n); [|reflexivity].
    specialize (Hlate eq_refl). destruct Hlate as [[-> _]|[-> _]]; reflexivity.
Qed.

Lemma construct_any {S : Type} mc grants sym_grants ord m (ds : list (desc S)) : 32 <= bits mc -> honest mc grants -> permuting ord ->
  lengths_u8 ds -> codes_u32 ds -> N.of_nat (length ds) < 2 ^ bits mc ->
  let y := if checked mc then new_codebook ord ds m else rc_new_codebook ord ds m in
  mk_new_codebook mc grants sym_grants ord ds m = y \/
  (mk_new_codebook mc grants sym_grants ord ds m = Panic /\ exists cb, y = Ret (Okay cb) /\ too_big grants sym_grants cb).
Proof.
  intros Hb Hg Hp Hl Hc Hn. pose proof (construct_ideal mc grants sym_grants ord m ds Hb Hg Hp Hl Hc Hn) as K.
  destruct (checked mc); [rewrite ideal_checked in K by exact Hc|rewrite ideal_unchecked in K by exact Hc]; exact K.
Qed.
