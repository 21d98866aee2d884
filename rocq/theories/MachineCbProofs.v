(** The construction of [MachineCbModel] with unlimited numbers and memory is that of
    [CodebookModel], or that of [ReleaseCbModel] without overflow checks. *)
From Coq Require Import List Arith NArith Bool Lia.
From Coq Require Import ZifyBool ZifyNat ZifyN.
From Verif Require Import Base CodebookModel CodebookSpec ReleaseCbModel ReleaseCbSpec MachineModel MachineCbModel MachineCbSpec.
Import ListNotations.
Local Open Scope N_scope.

Definition plus0 (a b : N) : outcome N := Ret (a + b).
Definition shl0 (a n : N) : outcome N := Ret (N.shiftl a n).
Definition cast0 (n : N) : N := n.
Definition yes (_ : N) : bool := true.

Lemma store0 t i off v : k_store plus0 cast0 t i off v = store t (N.to_nat i + off) v.
Proof. unfold k_store, plus0, cast0. cbn [obind]. f_equal. lia. Qed.

Lemma fill_loop0 : forall n t off idx v j, k_fill_loop plus0 cast0 t off idx v j n = fill_loop t off idx v j n.
Proof.
  induction n as [|n IH]; intros t off idx v j; [reflexivity|]. cbn [k_fill_loop fill_loop].
  destruct (idx j) as [i| |]; cbn [obind]; try reflexivity. rewrite store0.
  destruct (store t (N.to_nat i + off) v) as [t'| |]; cbn [obind]; try reflexivity. apply IH.
Qed.

Lemma fill_loop1 : forall n t off idx v j, k_fill_loop plus0 cast0 t off (fun j => Ret (idx j)) v j n = rc_fill_loop t off idx v j n.
Proof.
  induction n as [|n IH]; intros t off idx v j; [reflexivity|]. cbn [k_fill_loop rc_fill_loop obind]. rewrite store0.
  destruct (store t (N.to_nat (idx j) + off) v) as [t'| |]; cbn [obind]; try reflexivity. apply IH.
Qed.

Lemma fill_lut0 t m off c b L s e : k_fill_lut true plus0 cast0 t m off c b L s e = fill_lut t m off c b L s e.
Proof.
  destruct m; cbn [k_fill_lut fill_lut]; unfold k_fill_lut_msb, fill_lut_msb, k_fill_lut_lsb, fill_lut_lsb; destruct e; cbn [negb];
    try apply store0; cbn [k_sub8 k_shl32].
  - destruct (csub L b) as [x| |]; cbn [obind]; try reflexivity. destruct (shl32 1 x) as [y| |]; cbn [obind]; try reflexivity.
    destruct (shl32 c x) as [z| |]; cbn [obind]; try reflexivity. apply fill_loop0.
  - destruct (csub L b) as [x| |]; cbn [obind]; try reflexivity. destruct (shl32 1 x) as [y| |]; cbn [obind]; try reflexivity.
    destruct (csub L x) as [z| |]; cbn [obind]; try reflexivity. apply fill_loop0.
Qed.

Lemma fill_lut1 t m off c b L s e : k_fill_lut false plus0 cast0 t m off c b L s e = rc_fill_lut t m off c b L s e.
Proof.
  destruct m; cbn [k_fill_lut rc_fill_lut]; unfold k_fill_lut_msb, rc_fill_lut_msb, k_fill_lut_lsb, rc_fill_lut_lsb; destruct e; cbn [negb];
    try apply store0; cbn [k_sub8 k_shl32 obind]; apply fill_loop1.
Qed.

Lemma resize0 t b : k_resize_table true plus0 cast0 yes t b = resize_table t b.
Proof. unfold k_resize_table, resize_table. cbn [k_shl32]. destruct (shl32 1 b); reflexivity. Qed.

Lemma resize1 t b : k_resize_table false plus0 cast0 yes t b = Ret (rc_resize_table t b).
Proof. reflexivity. Qed.

Lemma long0 cc m c : k_add_long_code true cc m c = add_long_code cc m c.
Proof. destruct m; reflexivity. Qed.

Lemma long1 cc m c : k_add_long_code false cc m c = Ret (rc_add_long_code cc m c).
Proof. destruct m; reflexivity. Qed.

Lemma esc1_0 : forall codes t m off L cc, k_esc_pass1 true plus0 cast0 t m off L codes cc = esc_pass1 t m off L codes cc.
Proof.
  induction codes as [|c codes IH]; intros t m off L cc; [reflexivity|]. cbn [k_esc_pass1 esc_pass1]. destruct (c_bits c <=? MAX_LUT_BITS)%nat.
  - rewrite fill_lut0. destruct (fill_lut _ _ _ _ _ _ _ _); cbn [obind]; try reflexivity. apply IH.
  - rewrite long0. destruct (add_long_code cc m c); cbn [obind]; try reflexivity. apply IH.
Qed.

Lemma esc1_1 : forall codes t m off L cc, k_esc_pass1 false plus0 cast0 t m off L codes cc = rc_esc_pass1 t m off L codes cc.
Proof.
  induction codes as [|c codes IH]; intros t m off L cc; [reflexivity|]. cbn [k_esc_pass1 rc_esc_pass1]. destruct (c_bits c <=? MAX_LUT_BITS)%nat.
  - rewrite fill_lut1. destruct (rc_fill_lut _ _ _ _ _ _ _ _); cbn [obind]; try reflexivity. apply IH.
  - rewrite long1. cbn [obind]. apply IH.
Qed.

Lemma alloc0 t m off key b : k_alloc_bucket true plus0 cast0 yes t m off key b = alloc_bucket t m off key b.
Proof.
  unfold k_alloc_bucket, alloc_bucket. rewrite resize0. destruct (resize_table t _) as [[t1 o]| |]; cbn [obind]; try reflexivity.
  rewrite fill_lut0. reflexivity.
Qed.

Lemma alloc1 t m off key b : k_alloc_bucket false plus0 cast0 yes t m off key b = rc_alloc_bucket t m off key b.
Proof.
  unfold k_alloc_bucket, rc_alloc_bucket. rewrite resize1. cbn [obind]. destruct (rc_resize_table t _) as [t1 o].
  rewrite fill_lut1. reflexivity.
Qed.

Lemma esc2_0 : forall cc t m off, k_esc_pass2 true plus0 cast0 yes t m off cc = esc_pass2 t m off cc.
Proof.
  induction cc as [|[key b] cc IH]; intros t m off; [reflexivity|]. cbn [k_esc_pass2 esc_pass2]. rewrite alloc0.
  destruct (alloc_bucket t m off key b) as [[t1 b']| |]; cbn [obind]; try reflexivity. rewrite IH. reflexivity.
Qed.

Lemma esc2_1 : forall cc t m off, k_esc_pass2 false plus0 cast0 yes t m off cc = rc_esc_pass2 t m off cc.
Proof.
  induction cc as [|[key b] cc IH]; intros t m off; [reflexivity|]. cbn [k_esc_pass2 rc_esc_pass2]. rewrite alloc1.
  destruct (rc_alloc_bucket t m off key b) as [[t1 b']| |]; cbn [obind]; try reflexivity. rewrite IH. reflexivity.
Qed.

Lemma build_all_ext : forall cc f g t, (forall t key b, f t key b = g t key b) -> build_all f t cc = build_all g t cc.
Proof.
  induction cc as [|[key b] cc IH]; intros f g t H; [reflexivity|]. cbn [build_all]. rewrite H.
  destruct (g t key b); cbn [obind]; try reflexivity. apply IH. exact H.
Qed.

Lemma build0 : forall fuel ord path t m b, k_build_esc_lut true plus0 cast0 yes fuel ord path t m b = build_esc_lut fuel ord path t m b.
Proof.
  induction fuel as [|fuel IH]; intros ord path t m b; [reflexivity|]. cbn [k_build_esc_lut build_esc_lut]. rewrite esc1_0.
  destruct (esc_pass1 _ _ _ _ _ _) as [[t1 cc]| |]; cbn [obind]; try reflexivity. rewrite esc2_0.
  destruct (esc_pass2 _ _ _ _) as [[t2 cc2]| |]; cbn [obind]; try reflexivity. apply build_all_ext. intros. apply IH.
Qed.

Lemma build1 : forall fuel ord path t m b, k_build_esc_lut false plus0 cast0 yes fuel ord path t m b = rc_build_esc_lut fuel ord path t m b.
Proof.
  induction fuel as [|fuel IH]; intros ord path t m b; [reflexivity|]. cbn [k_build_esc_lut rc_build_esc_lut]. rewrite esc1_1.
  destruct (rc_esc_pass1 _ _ _ _ _ _) as [[t1 cc]| |]; cbn [obind]; try reflexivity. rewrite esc2_1.
  destruct (rc_esc_pass2 _ _ _ _) as [[t2 cc2]| |]; cbn [obind]; try reflexivity. apply build_all_ext. intros. apply IH.
Qed.

(** The number of entries that are used. *)
Definition nused {S : Type} (ds : list (desc S)) : nat := length (used_syms ds).

Lemma nused_cons {S : Type} (d : desc S) ds : nused (d :: ds) = ((if 0 <? d_bits d then 1 else 0) + nused ds)%nat.
Proof. unfold nused, used_syms. cbn [filter]. destruct (0 <? d_bits d)%nat; reflexivity. Qed.

Lemma pass1_0 {S : Type} : forall (ds : list (desc S)) m L nnz s cc,
  k_new_pass1 true plus0 m ds L nnz s cc =
  (let! (L', cc') := new_pass1 m ds L (N.to_nat s) cc in Ret (L', nnz + N.of_nat (nused ds), cc')).
Proof.
  induction ds as [|d ds IH]; intros m L nnz s cc.
  - cbn. do 2 f_equal. f_equal. lia.
  - cbn [k_new_pass1 new_pass1]. rewrite nused_cons. unfold plus0 at 1 2. rewrite long0.
    destruct (0 <? d_bits d)%nat; cbn [obind].
    + destruct (if (MAX_LUT_BITS <? d_bits d)%nat then _ else _) as [cc'| |]; cbn [obind]; try reflexivity. rewrite IH.
      replace (N.to_nat (s + 1)) with (N.to_nat s + 1)%nat by lia. destruct (new_pass1 _ _ _ _ _) as [[L' c2]| |]; cbn [obind]; try reflexivity.
      do 2 f_equal. f_equal. lia.
    + destruct (if (MAX_LUT_BITS <? d_bits d)%nat then _ else _) as [cc'| |]; cbn [obind]; try reflexivity. rewrite IH. reflexivity.
Qed.

Lemma pass1_1 {S : Type} : forall (ds : list (desc S)) m L nnz s cc,
  k_new_pass1 false plus0 m ds L nnz s cc =
  (let '(L', cc') := rc_new_pass1 m ds L (N.to_nat s) cc in Ret (L', nnz + N.of_nat (nused ds), cc')).
Proof.
  induction ds as [|d ds IH]; intros m L nnz s cc.
  - cbn. do 2 f_equal. f_equal. lia.
  - cbn [k_new_pass1 rc_new_pass1]. rewrite nused_cons. unfold plus0 at 1 2. rewrite long1.
    assert (E : (if (MAX_LUT_BITS <? d_bits d)%nat then Ret (rc_add_long_code cc m (mk_code (d_code d) (d_bits d) (N.to_nat s))) else Ret cc) =
      Ret (if (MAX_LUT_BITS <? d_bits d)%nat then rc_add_long_code cc m (mk_code (d_code d) (d_bits d) (N.to_nat s)) else cc)) by (destruct (MAX_LUT_BITS <? d_bits d)%nat; reflexivity).
    rewrite E. destruct (0 <? d_bits d)%nat; cbn [obind]; rewrite IH.
    + replace (N.to_nat (s + 1)) with (N.to_nat s + 1)%nat by lia. destruct (rc_new_pass1 _ _ _ _ _) as [L' c2].
      do 2 f_equal. f_equal. lia.
    + reflexivity.
Qed.


Lemma shr_le a n : N.shiftr a n <= a.
Proof.
  rewrite N.shiftr_div_pow2. apply N.div_le_upper_bound; [apply N.pow_nonzero; lia|].
  assert (0 < 2 ^ n) by (apply N.neq_0_lt_0, N.pow_nonzero; lia). nia.
Qed.

Lemma land_le a b : N.land a b <= a.
Proof.
  apply N.ldiff_le. apply N.bits_inj. intros i. rewrite N.ldiff_spec, N.land_spec, N.bits_0.
  destruct (N.testbit a i), (N.testbit b i); reflexivity.
Qed.

Lemma lut_part_le chk c bits L m k : k_lut_part chk c bits L m = Ret k -> k <= c.
Proof.
  unfold k_lut_part, k_sub8, k_shr32, k_shl32, k_sub32, shr32, shl32, sub32, csub, rshr32. destruct m, chk; cbn [obind].
  - destruct (L <=? bits)%nat; cbn [obind]; [|discriminate]. destruct (bits - L <? 32)%nat; [|discriminate]. intros E. injection E as <-. apply shr_le.
  - intros E. injection E as <-. apply shr_le.
  - destruct (L <? 32)%nat; cbn [obind]; [|discriminate]. destruct (1 <=? _); cbn [obind]; [|discriminate]. intros E. injection E as <-. apply land_le.
  - intros E. injection E as <-. apply land_le.
Qed.

Lemma lut_part0 c bits L m : k_lut_part true c bits L m = extract_lut_part c bits L m.
Proof. destruct m; reflexivity. Qed.

Lemma lut_part1 c bits L m : k_lut_part false c bits L m = Ret (rc_lut_part c bits L m).
Proof. destruct m; reflexivity. Qed.

Lemma pass2_0 {S : Type} : forall (ds : list (desc S)) m L t s cc, codes_u32 ds ->
  k_new_pass2 true plus0 cast0 yes t m L ds s cc = new_pass2 t m L ds s cc.
Proof.
  induction ds as [|d ds IH]; intros m L t s cc H; [reflexivity|]. apply Forall_cons_iff in H. destruct H as [Hd H].
  cbn [k_new_pass2 new_pass2 k_add32]. rewrite fill_lut0, lut_part0. destruct (d_bits d =? 0)%nat; [apply IH; exact H|].
  match goal with |- obind ?x _ = obind ?y _ => assert (E : x = y) end.
  { destruct (d_bits d <=? MAX_LUT_BITS)%nat; [reflexivity|].
    destruct (extract_lut_part (d_code d) (d_bits d) MAX_LUT_BITS m) as [k| |] eqn:Ek; cbn [obind]; try reflexivity.
    unfold cast0 at 1 2 3 4 5. rewrite <- lut_part0 in Ek. apply lut_part_le in Ek. rewrite (N.mod_small k) by (change W32 with (2 ^ 32); lia).
    destruct (index_at t (N.to_nat k)); cbn [obind]; try reflexivity. destruct (_ =? TABLE_FILL_VALUE); [|reflexivity].
    destruct (find_bucket cc k) as [b|]; [|reflexivity]. fold cast0. rewrite alloc0. reflexivity. }
  rewrite E. match goal with |- obind ?y _ = _ => destruct y as [[t' cc']| |] end; cbn [obind]; try reflexivity.
  destruct (add32 s 1); cbn [obind]; try reflexivity. apply IH. exact H.
Qed.

Lemma pass2_1 {S : Type} : forall (ds : list (desc S)) m L t s cc, codes_u32 ds ->
  k_new_pass2 false plus0 cast0 yes t m L ds s cc = rc_new_pass2 t m L ds s cc.
Proof.
  induction ds as [|d ds IH]; intros m L t s cc H; [reflexivity|]. apply Forall_cons_iff in H. destruct H as [Hd H].
  cbn [k_new_pass2 rc_new_pass2 k_add32]. rewrite fill_lut1, lut_part1. destruct (d_bits d =? 0)%nat; [apply IH; exact H|].
  match goal with |- obind ?x _ = obind ?y _ => assert (E : x = y) end.
  { destruct (d_bits d <=? MAX_LUT_BITS)%nat; [reflexivity|].
    pose proof (lut_part_le false _ _ _ _ _ (lut_part1 (d_code d) (d_bits d) MAX_LUT_BITS m)) as Ek. cbn [obind].
    set (k := rc_lut_part (d_code d) (d_bits d) MAX_LUT_BITS m) in *.
    change (cast0 k) with k. rewrite (N.mod_small k) by (change W32 with (2 ^ 32); lia).
    destruct (index_at t (N.to_nat k)); cbn [obind]; try reflexivity. destruct (_ =? TABLE_FILL_VALUE); [|reflexivity].
    destruct (find_bucket cc k) as [b|]; [|reflexivity]. rewrite alloc1. reflexivity. }
  rewrite E. match goal with |- obind ?y _ = _ => destruct y as [[t' cc']| |] end; cbn [obind]; try reflexivity.
  apply IH. exact H.
Qed.

Lemma tab_len0 L : (L <= 10)%nat -> shl32 1 L = Ret (N.shiftl 1 (N.of_nat L)).
Proof.
  intros H. unfold shl32. destruct (Nat.ltb_spec L 32); [|lia]. f_equal. apply N.mod_small. rewrite N.shiftl_1_l.
  apply N.le_lt_trans with (2 ^ 10); [apply N.pow_le_mono_r; lia|reflexivity].
Qed.

Lemma tab_len1 L : (L <= 10)%nat -> rshl32 1 L = N.shiftl 1 (N.of_nat L).
Proof.
  intros H. unfold rshl32. rewrite (N.mod_small (N.of_nat L)) by lia. apply N.mod_small. rewrite N.shiftl_1_l.
  apply N.le_lt_trans with (2 ^ 10); [apply N.pow_le_mono_r; lia|reflexivity].
Qed.

(** What the numbers without limits give. *)
Definition ideal {S : Type} (chk : bool) (ord : order) (ds : list (desc S)) (m : mode) : outcome (result (codebook S) codebook_error) :=
  k_new_codebook chk plus0 shl0 cast0 yes yes ord ds m.

Lemma ideal_checked {S : Type} ord (ds : list (desc S)) m : codes_u32 ds -> ideal true ord ds m = new_codebook ord ds m.
Proof.
  intros H. unfold ideal, k_new_codebook, new_codebook. rewrite pass1_0. change (N.to_nat 0) with 0%nat.
  destruct (new_pass1 m ds 0 0 []) as [[L cc]| |]; cbn [obind]; [|reflexivity..]. destruct (L =? 0)%nat; [reflexivity|].
  set (L' := if (MAX_LUT_BITS <? L)%nat then MAX_LUT_BITS else L).
  assert (HL : (L' <= 10)%nat) by (unfold L'; change MAX_LUT_BITS with 10%nat; destruct (Nat.ltb_spec 10 L); lia).
  rewrite (tab_len0 L' HL). unfold shl0 at 1, yes at 1 2. cbn [obind]. fold yes. rewrite pass2_0 by exact H.
  destruct (new_pass2 _ _ _ _ _ _) as [[t cc']| |]; cbn [obind]; [|reflexivity..].
  rewrite (build_all_ext (ord [] cc') _ (fun t key b => build_esc_lut 26 ord [key] t m b)); [reflexivity|]. intros. apply build0.
Qed.

Lemma ideal_unchecked {S : Type} ord (ds : list (desc S)) m : codes_u32 ds -> ideal false ord ds m = rc_new_codebook ord ds m.
Proof.
  intros H. unfold ideal, k_new_codebook, rc_new_codebook. rewrite pass1_1. change (N.to_nat 0) with 0%nat.
  destruct (rc_new_pass1 m ds 0 0 []) as [L cc]; cbn [obind]. destruct (L =? 0)%nat; [reflexivity|].
  set (L' := if (MAX_LUT_BITS <? L)%nat then MAX_LUT_BITS else L).
  assert (HL : (L' <= 10)%nat) by (unfold L'; change MAX_LUT_BITS with 10%nat; destruct (Nat.ltb_spec 10 L); lia).
  rewrite (tab_len1 L' HL). unfold shl0 at 1, yes at 1 2. cbn [obind]. fold yes. rewrite pass2_1 by exact H.
  destruct (rc_new_pass2 _ _ _ _ _ _) as [[t cc']| |]; cbn [obind]; [|reflexivity..].
  rewrite (build_all_ext (ord [] cc') _ (fun t key b => rc_build_esc_lut 26 ord [key] t m b)); [reflexivity|]. intros. apply build1.
Qed.
