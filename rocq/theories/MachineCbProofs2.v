(** Construction on a machine against construction with unlimited numbers and memory. *)
From Coq Require Import List Arith NArith Bool Lia Permutation.
From Coq Require Import ZifyBool ZifyNat ZifyN.
From Verif Require Import Base CodebookModel CodebookSpec ReleaseCbModel ReleaseCbSpec MachineModel MachineCbModel MachineCbSpec MachineCbProofs.
Import ListNotations.
Local Open Scope N_scope.

(** ** Tables do not shrink *)
Lemma build_all_len : forall cc f t t', (forall t key b t', f t key b = Ret t' -> (length t <= length t')%nat) ->
  build_all f t cc = Ret t' -> (length t <= length t')%nat.
Proof.
  induction cc as [|[key b] cc IH]; intros f t t' H; cbn [build_all]; [intros E; injection E as <-; lia|].
  destruct (f t key b) as [t1| |] eqn:E1; cbn [obind]; try discriminate. intros E. apply IH in E; [|exact H]. apply H in E1. lia.
Qed.

Section Grow.
Variable chk : bool.
Variable plus : N -> N -> outcome N.
Variable cast : N -> N.

Lemma store_len {A : Type} (t : list A) p v t' : store t p v = Ret t' -> length t' = length t.
Proof.
  unfold store. destruct (Nat.ltb_spec p (length t)); [|discriminate]. intros E. injection E as <-.
  clear H. revert p. induction t as [|x t IH]; intros [|p]; cbn [update length]; auto.
Qed.

Lemma kstore_len t i off v t' : k_store plus cast t i off v = Ret t' -> length t' = length t.
Proof. unfold k_store. destruct (plus _ _); cbn [obind]; try discriminate. apply store_len. Qed.

Lemma fill_loop_len : forall n t off idx v j t', k_fill_loop plus cast t off idx v j n = Ret t' -> length t' = length t.
Proof.
  induction n as [|n IH]; intros t off idx v j t'; cbn [k_fill_loop]; [intros E; injection E as <-; reflexivity|].
  destruct (idx j) as [i| |]; cbn [obind]; try discriminate. destruct (k_store plus cast t i off v) as [t1| |] eqn:E1; cbn [obind]; try discriminate.
  intros E. apply IH in E. apply kstore_len in E1. lia.
Qed.

Lemma fill_lut_len t m off c b L s e t' : k_fill_lut chk plus cast t m off c b L s e = Ret t' -> length t' = length t.
Proof.
  destruct m; cbn [k_fill_lut]; unfold k_fill_lut_msb, k_fill_lut_lsb; destruct e; cbn [negb]; try apply kstore_len.
  - destruct (k_sub8 chk L b) as [x| |]; cbn [obind]; try discriminate. destruct (k_shl32 chk 1 x) as [y| |]; cbn [obind]; try discriminate.
    destruct (k_shl32 chk c x) as [z| |]; cbn [obind]; try discriminate. apply fill_loop_len.
  - destruct (k_sub8 chk L b) as [x| |]; cbn [obind]; try discriminate. destruct (k_shl32 chk 1 x) as [y| |]; cbn [obind]; try discriminate.
    destruct (k_sub8 chk L x) as [z| |]; cbn [obind]; try discriminate. apply fill_loop_len.
Qed.

Lemma esc1_len : forall codes t m off L cc t' cc', k_esc_pass1 chk plus cast t m off L codes cc = Ret (t', cc') -> length t' = length t.
Proof.
  induction codes as [|c codes IH]; intros t m off L cc t' cc'; cbn [k_esc_pass1]; [intros E; injection E as <- _; reflexivity|].
  destruct (c_bits c <=? MAX_LUT_BITS)%nat.
  - destruct (k_fill_lut _ _ _ _ _ _ _ _ _ _ _) as [t1| |] eqn:E1; cbn [obind]; try discriminate. intros E. apply IH in E. apply fill_lut_len in E1. lia.
  - destruct (k_add_long_code _ _ _ _); cbn [obind]; try discriminate. apply IH.
Qed.

Variable grants : N -> bool.

Lemma alloc_len t m off key b t' b' : k_alloc_bucket chk plus cast grants t m off key b = Ret (t', b') -> (length t <= length t')%nat.
Proof.
  unfold k_alloc_bucket, k_resize_table. destruct (k_shl32 chk 1 _) as [a| |]; cbn [obind]; try discriminate.
  destruct (plus _ _) as [n| |]; cbn [obind]; try discriminate. destruct (grants n); cbn [obind]; try discriminate.
  destruct (k_fill_lut _ _ _ _ _ _ _ _ _ _ _) as [t2| |] eqn:E2; cbn [obind]; try discriminate. intros E. injection E as <- _.
  apply fill_lut_len in E2. rewrite E2, app_length. lia.
Qed.

Lemma esc2_len : forall cc t m off t' cc', k_esc_pass2 chk plus cast grants t m off cc = Ret (t', cc') -> (length t <= length t')%nat.
Proof.
  induction cc as [|[key b] cc IH]; intros t m off t' cc'; cbn [k_esc_pass2]; [intros E; injection E as <- _; lia|].
  destruct (k_alloc_bucket _ _ _ _ _ _ _ _ _) as [[t1 b1]| |] eqn:E1; cbn [obind]; try discriminate.
  destruct (k_esc_pass2 _ _ _ _ _ _ _ _) as [[t2 cc2]| |] eqn:E2; cbn [obind]; try discriminate.
  intros E. injection E as <- _. apply alloc_len in E1. apply IH in E2. lia.
Qed.

Lemma build_len : forall fuel ord path t m b t', k_build_esc_lut chk plus cast grants fuel ord path t m b = Ret t' -> (length t <= length t')%nat.
Proof.
  induction fuel as [|fuel IH]; intros ord path t m b t'; cbn [k_build_esc_lut]; [discriminate|].
  destruct (k_esc_pass1 _ _ _ _ _ _ _ _ _) as [[t1 cc1]| |] eqn:E1; cbn [obind]; try discriminate.
  destruct (k_esc_pass2 _ _ _ _ _ _ _ _) as [[t2 cc2]| |] eqn:E2; cbn [obind]; try discriminate.
  intros E. apply esc1_len in E1. apply esc2_len in E2. apply build_all_len in E; [lia|]. intros. apply IH in H. exact H.
Qed.

Lemma pass2_len {S : Type} : forall (ds : list (desc S)) t m L s cc t' cc', k_new_pass2 chk plus cast grants t m L ds s cc = Ret (t', cc') ->
  (length t <= length t')%nat.
Proof.
  induction ds as [|d ds IH]; intros t m L s cc t' cc'; cbn [k_new_pass2]; [intros E; injection E as <- _; lia|].
  destruct (d_bits d =? 0)%nat; [apply IH|].
  match goal with |- obind ?x _ = _ -> _ => destruct x as [[t1 cc1]| |] eqn:E1 end; cbn [obind]; try discriminate.
  destruct (k_add32 chk s 1); cbn [obind]; try discriminate. intros E. apply IH in E.
  assert (K : (length t <= length t1)%nat); [|lia]. clear E IH. destruct (d_bits d <=? MAX_LUT_BITS)%nat.
  - destruct (k_fill_lut _ _ _ _ _ _ _ _ _ _ _) as [t2| |] eqn:E2; cbn [obind] in E1; try discriminate E1. injection E1 as <- _.
    apply fill_lut_len in E2. lia.
  - destruct (k_lut_part _ _ _ _ _) as [k| |]; cbn [obind] in E1; try discriminate E1.
    destruct (index_at _ _) as [x| |]; cbn [obind] in E1; try discriminate E1.
    destruct (x =? TABLE_FILL_VALUE); [|injection E1 as <- _; lia].
    destruct (find_bucket _ _) as [b|]; [|injection E1 as <- _; lia].
    destruct (k_alloc_bucket _ _ _ _ _ _ _ _ _) as [[t2 b2]| |] eqn:E2; cbn [obind] in E1; try discriminate E1.
    injection E1 as <- _. apply alloc_len in E2. lia.
Qed.
End Grow.

(** ** Numbers *)

Lemma add32_le chk a b i : k_add32 chk a b = Ret i -> i <= a + b /\ i < 2 ^ 32.
Proof.
  unfold k_add32, add32, radd32. destruct chk.
  - destruct (N.ltb_spec (a + b) W32) as [H|H]; [|discriminate]. intros E. injection E as <-. change W32 with (2 ^ 32) in H. lia.
  - intros E. injection E as <-. change W32 with (2 ^ 32). split; [apply N.mod_le; lia|apply N.mod_lt; lia].
Qed.

Lemma shl32_le chk a n r : k_shl32 chk a n = Ret r -> (n < 32)%nat -> r <= a * 2 ^ N.of_nat n.
Proof.
  unfold k_shl32, shl32, rshl32. intros E H. rewrite <- N.shiftl_mul_pow2. destruct chk.
  - destruct (Nat.ltb_spec n 32); [|lia]. injection E as <-. apply N.mod_le. discriminate.
  - injection E as <-. rewrite (N.mod_small (N.of_nat n)) by lia. apply N.mod_le. discriminate.
Qed.

Lemma sub8_eq chk a b : (b <= a)%nat -> (a < 256)%nat -> k_sub8 chk a b = Ret (a - b)%nat.
Proof.
  intros H1 H2. unfold k_sub8, csub, rsub8. destruct chk.
  - destruct (Nat.leb_spec b a); [reflexivity|lia].
  - f_equal. rewrite (Nat.mod_small b) by lia. replace (a + (256 - b))%nat with (a - b + 1 * 256)%nat by lia.
    rewrite Nat.mod_add by lia. apply Nat.mod_small. lia.
Qed.

Lemma pow_le a b : a <= b -> 2 ^ a <= 2 ^ b.
Proof. intros H. apply N.pow_le_mono_r; [discriminate|exact H]. Qed.

(** ** Splitting a code *)
Definition cok (m : mode) (c : code) : Prop :=
  (c_bits c < 256)%nat /\
  match m with
  | MSB => c_code c < 2 ^ 31 /\ ((c_bits c <= 10)%nat -> c_code c < 2 ^ N.of_nat (c_bits c))
  | LSB => c_code c < 2 ^ 22
  end.

Lemma ret_eq {A : Type} (x y : A) : Ret x = Ret y -> x = y.
Proof. intros E. injection E as E. exact E. Qed.

Lemma land_ones_lt c n : N.land c (2 ^ n - 1) < 2 ^ n.
Proof. rewrite N.sub_1_r, <- N.ones_equiv, N.land_ones. apply N.mod_lt. apply N.pow_nonzero. discriminate. Qed.

Lemma esc_part_ok chk m c cval rest : c_code c < 2 ^ 32 -> (10 < c_bits c < 256)%nat ->
  k_esc_part chk (c_code c) (c_bits c) MAX_LUT_BITS m = Ret cval -> k_sub8 chk (c_bits c) MAX_LUT_BITS = Ret rest ->
  rest = (c_bits c - 10)%nat /\ cok m (mk_code cval rest (c_idx c)).
Proof.
  intros Hc Hb E Er. unfold MAX_LUT_BITS in *. rewrite sub8_eq in Er by lia. injection Er as <-. split; [reflexivity|].
  split; [cbn; lia|]. cbn [c_code c_bits]. unfold k_esc_part in E. destruct m.
  - rewrite sub8_eq in E by lia. cbn [obind] in E. set (d := (c_bits c - 10)%nat) in *.
    assert (K : exists k, k <= 31 /\ (d <= 10 -> k = N.of_nat d)%nat /\ cval = N.land (c_code c) (2 ^ k - 1)).
    { unfold k_shl32, k_sub32, shl32, sub32, rshl32, rsub32 in E. destruct chk.
      - destruct (Nat.ltb_spec d 32); cbn [obind] in E; [|discriminate E]. exists (N.of_nat d). split; [lia|]. split; [reflexivity|].
        rewrite N.shiftl_1_l in E. rewrite (N.mod_small (2 ^ N.of_nat d)) in E.
        + destruct (1 <=? 2 ^ N.of_nat d); cbn [obind] in E; [|discriminate E]. injection E as <-. reflexivity.
        + apply N.lt_le_trans with (2 ^ N.succ (N.of_nat d)); [rewrite N.pow_succ_r'; assert (2 ^ N.of_nat d <> 0) by (apply N.pow_nonzero; lia); lia|].
          change W32 with (2 ^ 32). apply pow_le. lia.
      - cbn [obind] in E. exists (N.of_nat d mod 32). pose proof (N.mod_lt (N.of_nat d) 32 ltac:(lia)) as L32. split; [lia|].
        split; [intros; apply N.mod_small; lia|]. apply ret_eq in E. rewrite <- E. f_equal. set (k := N.of_nat d mod 32) in *. rewrite N.shiftl_1_l.
        assert (B : 2 ^ k < 2 ^ 32) by (apply N.pow_lt_mono_r; lia). assert (2 ^ k <> 0) by (apply N.pow_nonzero; lia).
        change W32 with (2 ^ 32). rewrite (N.mod_small (2 ^ k)) by exact B. rewrite (N.mod_small 1) by reflexivity.
        replace (2 ^ k + (2 ^ 32 - 1)) with (2 ^ k - 1 + 1 * 2 ^ 32) by lia. rewrite N.mod_add by discriminate. apply N.mod_small. lia. }
    destruct K as (k & K1 & K2 & ->). split.
    + eapply N.lt_le_trans; [apply land_ones_lt|]. apply pow_le. exact K1.
    + intros Hd. rewrite (K2 Hd). apply land_ones_lt.
  - unfold k_shr32, shr32, rshr32 in E. assert (E' : cval = N.shiftr (c_code c) 10) by (destruct chk; cbn in E; injection E as <-; reflexivity).
    rewrite E', N.shiftr_div_pow2. apply N.div_lt_upper_bound; [discriminate|]. change (2 ^ 10 * 2 ^ 22) with (2 ^ 32). exact Hc.
Qed.

Section OnMachine.
Variable mc : machine.
Variables grants : N -> bool.
Hypothesis Hbits : 32 <= bits mc.
Hypothesis Hgr : forall n, grants n = true -> 4 * n < room mc.

Notation P := (madd mc).
Notation C := (mcast mc).
Notation chk := (checked mc).

Lemma modulus_room : modulus mc = 2 * room mc.
Proof. unfold modulus, room. rewrite <- N.pow_succ_r'. f_equal. lia. Qed.

Lemma room_big : 2 ^ 31 <= room mc.
Proof. unfold room. apply pow_le. lia. Qed.

Lemma cast_small n : n < 2 ^ 32 -> C n = n.
Proof. intros H. unfold mcast. apply N.mod_small. rewrite modulus_room. pose proof room_big. lia. Qed.

Lemma plus_small a b : a + b < modulus mc -> P a b = Ret (a + b).
Proof. intros H. unfold madd, ranged. destruct (N.ltb_spec (a + b) (modulus mc)); [reflexivity|lia]. Qed.

Definition idx_ok (i : N) (off : nat) : Prop := i < 2 ^ 32 /\ (off = 0%nat \/ i < 2 ^ 31).
Definition off_ok (off : nat) : Prop := 4 * N.of_nat off < room mc.
Definition fits (t : list N) : Prop := off_ok (length t).

Lemma off0 : off_ok 0.
Proof. unfold off_ok. pose proof room_big. lia. Qed.

Lemma store_same t i off v : idx_ok i off -> off_ok off -> k_store P C t i off v = k_store plus0 cast0 t i off v.
Proof.
  intros [H1 H2] Ho. unfold k_store. rewrite cast_small by exact H1. rewrite plus_small; [reflexivity|].
  unfold off_ok in Ho. rewrite modulus_room. pose proof room_big. destruct H2; [subst off|]; lia.
Qed.

Lemma fill_loop_same : forall n t off idx v j, off_ok off ->
  (forall j' i, j' < j + N.of_nat n -> idx j' = Ret i -> idx_ok i off) ->
  k_fill_loop P C t off idx v j n = k_fill_loop plus0 cast0 t off idx v j n.
Proof.
  induction n as [|n IH]; intros t off idx v j Ho H; [reflexivity|]. cbn [k_fill_loop].
  destruct (idx j) as [i| |] eqn:E; cbn [obind]; try reflexivity. rewrite store_same; [|apply (H j); [lia|exact E]|exact Ho].
  destruct (k_store plus0 cast0 t i off v); cbn [obind]; try reflexivity. apply IH; [exact Ho|]. intros j' i' Hj. apply H. lia.
Qed.

(** Codes whose entries are where they should be. *)
Definition fill_ok (m : mode) (off : nat) (c : N) (b L : nat) : Prop :=
  off = 0%nat \/
  ((b <= L <= 10)%nat /\ match m with MSB => c < 2 ^ N.of_nat b | LSB => c < 2 ^ 22 end).

Lemma fill_lut_same t m off c b L s : off_ok off -> fill_ok m off c b L ->
  k_fill_lut chk P C t m off c b L s false = k_fill_lut chk plus0 cast0 t m off c b L s false.
Proof.
  intros Ho [-> | [HL Hc]].
  - destruct m; cbn [k_fill_lut]; unfold k_fill_lut_msb, k_fill_lut_lsb; cbn [negb].
    + destruct (k_sub8 chk L b) as [x| |]; cbn [obind]; try reflexivity. destruct (k_shl32 chk 1 x) as [y| |]; cbn [obind]; try reflexivity.
      destruct (k_shl32 chk c x) as [z| |]; cbn [obind]; try reflexivity. apply fill_loop_same; [exact off0|].
      intros j' i _ E. apply add32_le in E. split; [apply E|left; reflexivity].
    + destruct (k_sub8 chk L b) as [x| |]; cbn [obind]; try reflexivity. destruct (k_shl32 chk 1 x) as [y| |]; cbn [obind]; try reflexivity.
      destruct (k_sub8 chk L x) as [z| |]; cbn [obind]; try reflexivity. apply fill_loop_same; [exact off0|].
      intros j' i _ E. destruct (k_shl32 chk j' z) as [q| |]; cbn [obind] in E; try discriminate E. apply add32_le in E. split; [apply E|left; reflexivity].
  - assert (HP : 2 ^ N.of_nat (L - b) <= 2 ^ 10) by (apply pow_le; lia). assert (HB : 2 ^ N.of_nat b <= 2 ^ 10) by (apply pow_le; lia).
    destruct m; cbn [k_fill_lut]; unfold k_fill_lut_msb, k_fill_lut_lsb; cbn [negb]; rewrite sub8_eq by lia; cbn [obind].
    + destruct (k_shl32 chk 1 (L - b)) as [y| |] eqn:Ey; cbn [obind]; try reflexivity. apply shl32_le in Ey; [|lia].
      destruct (k_shl32 chk c (L - b)) as [z| |] eqn:Ez; cbn [obind]; try reflexivity. apply shl32_le in Ez; [|lia].
      apply fill_loop_same; [exact Ho|]. intros j' i Hj E. apply add32_le in E. split; [apply E|right].
      assert (Q : c * 2 ^ N.of_nat (L - b) <= 2 ^ 10 * 2 ^ 10) by (apply N.mul_le_mono; [lia|exact HP]). change (2 ^ 10 * 2 ^ 10) with 1048576 in Q.
      change (2 ^ 10) with 1024 in HP. change (2 ^ 31) with 2147483648. lia.
    + destruct (k_shl32 chk 1 (L - b)) as [y| |] eqn:Ey; cbn [obind]; try reflexivity. apply shl32_le in Ey; [|lia].
      rewrite sub8_eq by lia. cbn [obind].
      apply fill_loop_same; [exact Ho|]. intros j' i Hj E.
      destruct (k_shl32 chk j' (L - (L - b))) as [q| |] eqn:Eq; cbn [obind] in E; try discriminate E. apply shl32_le in Eq; [|lia].
      replace (L - (L - b))%nat with b in Eq by lia. apply add32_le in E. split; [apply E|right].
      assert (Q : j' * 2 ^ N.of_nat b <= 2 ^ 10 * 2 ^ 10) by (apply N.mul_le_mono; [lia|exact HB]). change (2 ^ 10 * 2 ^ 10) with 1048576 in Q.
      change (2 ^ 22) with 4194304 in Hc. change (2 ^ 31) with 2147483648. lia.
Qed.

Lemma fill_esc_same t m off c b L s : off_ok off -> idx_ok c off ->
  k_fill_lut chk P C t m off c b L s true = k_fill_lut chk plus0 cast0 t m off c b L s true.
Proof. intros Ho Hc. destruct m; apply store_same; assumption. Qed.

(** ** Buckets *)
Definition bok (m : mode) (b : bucket) : Prop := Forall (fun c => cok m c /\ (c_bits c <= b_maxlen b)%nat) (b_codes b) /\ off_ok (b_offset b).
Definition eok (K : N) (m : mode) (e : N * bucket) : Prop := fst e < K /\ bok m (snd e).

Lemma add_code_ok m b c : bok m b -> cok m c -> bok m (add_code b c).
Proof.
  intros [H Ho] Hc. split; [|exact Ho]. unfold add_code. cbn [b_codes b_maxlen]. apply Forall_app. split.
  - eapply Forall_impl; [|exact H]. cbn beta. intros a [A1 A2]. split; [exact A1|]. destruct (Nat.ltb_spec (b_maxlen b) (c_bits c)); lia.
  - constructor; [|constructor]. split; [exact Hc|]. destruct (Nat.ltb_spec (b_maxlen b) (c_bits c)); lia.
Qed.

Lemma add_esc_ok K m key c : forall cc, key < K -> cok m c -> Forall (eok K m) cc -> Forall (eok K m) (add_esc_code cc key c).
Proof.
  induction cc as [|[k b] cc IH]; intros Hk Hc H; cbn [add_esc_code].
  - constructor; [|constructor]. split; [exact Hk|]. apply add_code_ok; [|exact Hc]. split; [constructor|exact off0].
  - apply Forall_cons_iff in H. destruct H as [H1 H]. destruct (k =? key).
    + constructor; [|exact H]. split; [apply H1|]. apply add_code_ok; [apply H1|exact Hc].
    + constructor; [exact H1|]. apply IH; assumption.
Qed.

Lemma long_ok K m c cc cc' : c_code c < 2 ^ 32 -> c_code c < K -> (10 < c_bits c < 256)%nat -> Forall (eok K m) cc ->
  k_add_long_code chk cc m c = Ret cc' -> Forall (eok K m) cc'.
Proof.
  intros H1 H2 H3 H. unfold k_add_long_code. destruct (k_lut_part _ _ _ _ _) as [k| |] eqn:Ek; cbn [obind]; try discriminate.
  apply lut_part_le in Ek. destruct (k_esc_part _ _ _ _ _) as [v| |] eqn:Ev; cbn [obind]; try discriminate.
  destruct (k_sub8 _ _ _) as [r| |] eqn:Er; cbn [obind]; try discriminate. intros E. injection E as <-.
  apply add_esc_ok; [lia| |exact H]. apply (esc_part_ok chk m c v r H1 H3 Ev Er).
Qed.

Lemma cok_31 m c : cok m c -> c_code c < 2 ^ 31.
Proof. intros [_ H]. destruct m; [apply H|]. change (2 ^ 22) with 4194304 in H. change (2 ^ 31) with 2147483648. lia. Qed.

Lemma esc1_same L : forall codes t m off ML cc, off_ok off -> L = Nat.min ML MAX_LUT_BITS ->
  Forall (fun c => cok m c /\ (c_bits c <= ML)%nat) codes -> Forall (eok (2 ^ 31) m) cc ->
  k_esc_pass1 chk P C t m off L codes cc = k_esc_pass1 chk plus0 cast0 t m off L codes cc /\
  forall t' cc', k_esc_pass1 chk plus0 cast0 t m off L codes cc = Ret (t', cc') -> Forall (eok (2 ^ 31) m) cc'.
Proof.
  induction codes as [|c codes IH]; intros t m off ML cc Ho HL H Hcc; cbn [k_esc_pass1].
  - split; [reflexivity|]. intros t' cc' E. injection E as _ <-. exact Hcc.
  - apply Forall_cons_iff in H. destruct H as [[Hc Hm] H]. unfold MAX_LUT_BITS in *. destruct (Nat.leb_spec (c_bits c) 10) as [Hb|Hb].
    + rewrite fill_lut_same; [|exact Ho|].
      * destruct (k_fill_lut _ plus0 _ _ _ _ _ _ _ _ _) as [t1| |]; cbn [obind]; [apply (IH t1 m off ML cc); assumption|split; [reflexivity|discriminate]..].
      * right. split; [lia|]. destruct Hc as [_ Hc]. destruct m; [apply Hc; exact Hb|exact Hc].
    + destruct (k_add_long_code chk cc m c) as [cc1| |] eqn:E1; cbn [obind]; [|split; [reflexivity|discriminate]..].
      apply (IH t m off ML cc1); try assumption.
      pose proof (cok_31 _ _ Hc). apply (long_ok _ m c cc cc1); try assumption; [change (2 ^ 31) with 2147483648 in *; change (2 ^ 32) with 4294967296; lia|].
      split; [lia|apply Hc].
Qed.

(** ** Refusals *)
Definition refused (t : list N) : Prop := exists n, n <= N.of_nat (length t) /\ grants n = false.
Definition rel {A : Type} (tab : A -> list N) (Q : A -> Prop) (x y : outcome A) : Prop :=
  (x = y /\ forall r, y = Ret r -> Q r) \/ (x = Panic /\ forall r, y = Ret r -> refused (tab r)).

Lemma refused_more t t' : refused t -> (length t <= length t')%nat -> refused t'.
Proof. intros (n & H1 & H2) H. exists n. split; [lia|exact H2]. Qed.

Lemma rel_bind {A B : Type} (tabA : A -> list N) QA (tabB : B -> list N) QB x y (k k' : A -> outcome B) :
  rel tabA QA x y -> (forall a, QA a -> y = Ret a -> rel tabB QB (k a) (k' a)) ->
  (forall a r, y = Ret a -> k' a = Ret r -> (length (tabA a) <= length (tabB r))%nat) ->
  rel tabB QB (obind x k) (obind y k').
Proof.
  intros [[-> H]|[-> H]] Hk Hg.
  - destruct y as [a| |]; cbn [obind].
    + apply Hk; [apply H; reflexivity|reflexivity].
    + left. split; [reflexivity|discriminate].
    + left. split; [reflexivity|discriminate].
  - right. split; [reflexivity|]. intros r E. destruct y as [a| |]; cbn [obind] in E; try discriminate E.
    apply (refused_more (tabA a)); [apply H; reflexivity|]. apply (Hg a r); [reflexivity|exact E].
Qed.

Lemma rel_eq {A : Type} (tab : A -> list N) (Q : A -> Prop) x y : x = y -> (forall r, y = Ret r -> Q r) -> rel tab Q x y.
Proof. intros H1 H2. left. split; assumption. Qed.

Lemma pow10_shl b : (b <= 10)%nat -> k_shl32 chk 1 b = Ret (2 ^ N.of_nat b).
Proof.
  intros H. unfold k_shl32. rewrite tab_len0, tab_len1 by exact H. rewrite N.shiftl_1_l. destruct chk; reflexivity.
Qed.

Lemma resize_rel t b : fits t -> (b <= 10)%nat ->
  rel fst (fun r => fits (fst r) /\ snd r < 2 ^ 32 /\ snd r <= N.of_nat (length t)) (k_resize_table chk P C grants t b) (k_resize_table chk plus0 cast0 yes t b).
Proof.
  intros Hf Hb. unfold k_resize_table. rewrite pow10_shl by exact Hb. cbn [obind].
  assert (HB : 2 ^ N.of_nat b <= 2 ^ 10) by (apply pow_le; lia). change (2 ^ 10) with 1024 in HB.
  rewrite cast_small by (change (2 ^ 32) with 4294967296; lia). unfold fits, off_ok in Hf. pose proof room_big as RB. change (2 ^ 31) with 2147483648 in RB.
  rewrite plus_small by (rewrite modulus_room; lia). unfold plus0, cast0, yes. cbn [obind].
  assert (Hlen : N.of_nat (length (t ++ repeat TABLE_FILL_VALUE (N.to_nat (2 ^ N.of_nat b)))) = N.of_nat (length t) + 2 ^ N.of_nat b).
  { rewrite app_length, repeat_length. lia. }
  destruct (grants (N.of_nat (length t) + 2 ^ N.of_nat b)) eqn:G.
  - apply rel_eq; [reflexivity|]. intros r E. injection E as <-. cbn [fst snd]. apply Hgr in G. split; [unfold fits, off_ok; rewrite Hlen; exact G|].
    change W32 with (2 ^ 32). split; [apply N.mod_lt; discriminate|apply N.mod_le; discriminate].
  - right. split; [reflexivity|]. intros r E. injection E as <-. cbn [fst]. exists (N.of_nat (length t) + 2 ^ N.of_nat b). split; [rewrite Hlen; lia|exact G].
Qed.

Lemma alloc_rel m t off key b : fits t -> off_ok off -> idx_ok key off -> bok m b ->
  rel fst (fun r => fits (fst r) /\ bok m (snd r)) (k_alloc_bucket chk P C grants t m off key b) (k_alloc_bucket chk plus0 cast0 yes t m off key b).
Proof.
  intros Hf Ho Hk Hb. unfold k_alloc_bucket. eapply rel_bind; [apply resize_rel; [exact Hf|unfold MAX_LUT_BITS; lia]| |].
  - intros [t1 o1] (F1 & F2 & F3) _. cbn [fst snd] in F1, F2, F3. rewrite fill_esc_same by assumption.
    destruct (k_fill_lut _ plus0 _ _ _ _ _ _ _ _ _) as [t2| |] eqn:E2; cbn [obind]; [|apply rel_eq; [reflexivity|discriminate]..].
    rewrite cast_small by exact F2. apply rel_eq; [reflexivity|]. intros r E. injection E as <-. cbn [fst snd]. apply fill_lut_len in E2.
    split; [unfold fits; rewrite E2; exact F1|]. split; [apply Hb|]. cbn [b_offset]. unfold cast0. unfold off_ok. unfold fits, off_ok in Hf. lia.
  - intros [t1 o1] [t2 b2] _ E. cbn [fst].
    destruct (k_fill_lut _ plus0 _ _ _ _ _ _ _ _ _) as [t3| |] eqn:E2; cbn [obind] in E; try discriminate E. injection E as <- _. apply fill_lut_len in E2. lia.
Qed.

Lemma esc2_rel m off : off_ok off -> forall cc t, fits t -> Forall (eok (2 ^ 31) m) cc ->
  rel fst (fun r => fits (fst r) /\ Forall (eok (2 ^ 31) m) (snd r)) (k_esc_pass2 chk P C grants t m off cc) (k_esc_pass2 chk plus0 cast0 yes t m off cc).
Proof.
  intros Ho. induction cc as [|[key b] cc IH]; intros t Hf H; cbn [k_esc_pass2].
  - apply rel_eq; [reflexivity|]. intros r E. injection E as <-. split; [exact Hf|constructor].
  - apply Forall_cons_iff in H. destruct H as [[Hk Hb] H]. cbn [fst snd] in Hk, Hb. eapply rel_bind.
    + apply alloc_rel; [exact Hf|exact Ho| |exact Hb]. split; [change (2 ^ 31) with 2147483648 in Hk; change (2 ^ 32) with 4294967296; lia|right; exact Hk].
    + intros [t1 b1] [F1 F2] _. cbn [fst snd] in F1, F2. eapply rel_bind.
      * apply IH; [exact F1|exact H].
      * intros [t2 cc2] [G1 G2] _. cbn [fst snd] in G1, G2. apply rel_eq; [reflexivity|]. intros r E. injection E as <-. cbn [fst snd].
        split; [exact G1|]. constructor; [split; [exact Hk|exact F2]|exact G2].
      * intros [t2 cc2] r _ E. injection E as <-. cbn [fst]. lia.
    + intros [t1 b1] r _ E. cbn [fst]. destruct (k_esc_pass2 _ _ _ _ _ _ _ _) as [[t2 cc2]| |] eqn:E2; cbn [obind] in E; try discriminate E.
      injection E as <-. cbn [fst]. apply esc2_len in E2. exact E2.
Qed.

Definition self (t : list N) : list N := t.

Lemma build_all_rel K m : forall cc f g t, fits t -> Forall (eok K m) cc ->
  (forall t key b, fits t -> eok K m (key, b) -> rel self fits (f t key b) (g t key b)) ->
  (forall t key b t', g t key b = Ret t' -> (length t <= length t')%nat) ->
  rel self fits (build_all f t cc) (build_all g t cc).
Proof.
  induction cc as [|[key b] cc IH]; intros f g t Hf H Hr Hg; cbn [build_all].
  - apply rel_eq; [reflexivity|]. intros r E. injection E as <-. exact Hf.
  - apply Forall_cons_iff in H. destruct H as [H1 H]. eapply rel_bind.
    + apply Hr; assumption.
    + intros t1 F1 _. apply IH; assumption.
    + intros t1 r _ E. unfold self. apply (build_all_len cc g t1 r); [|exact E]. intros t0 k0 b0 t'. apply Hg.
Qed.

Lemma permuted K m ord path cc : permuting ord -> Forall (eok K m) cc -> Forall (eok K m) (ord path cc).
Proof. intros Hp H. eapply Permutation_Forall; [apply Hp|exact H]. Qed.

Lemma build_rel m ord : permuting ord -> forall fuel path t b, fits t -> bok m b ->
  rel self fits (k_build_esc_lut chk P C grants fuel ord path t m b) (k_build_esc_lut chk plus0 cast0 yes fuel ord path t m b).
Proof.
  intros Hp. induction fuel as [|fuel IH]; intros path t b Hf [Hb Ho]; cbn [k_build_esc_lut].
  - apply rel_eq; [reflexivity|discriminate].
  - destruct (esc1_same (Nat.min (b_maxlen b) MAX_LUT_BITS) (b_codes b) t m (b_offset b) (b_maxlen b) [] Ho eq_refl Hb ltac:(constructor)) as [E1 P1].
    rewrite E1. destruct (k_esc_pass1 chk plus0 _ _ _ _ _ _ _) as [[t1 cc1]| |] eqn:F1; cbn [obind]; [|apply rel_eq; [reflexivity|discriminate]..].
    specialize (P1 t1 cc1 eq_refl). apply esc1_len in F1. assert (Ft : fits t1) by (unfold fits; rewrite F1; exact Hf).
    eapply rel_bind.
    + apply (esc2_rel m (b_offset b) Ho (ord path cc1) t1 Ft). apply permuted; assumption.
    + intros [t2 cc2] [G1 G2] _. cbn [fst snd] in G1, G2. apply (build_all_rel (2 ^ 31) m); [exact G1|exact G2| |].
      * intros t3 key b3 F3 [_ B3]. apply IH; assumption.
      * intros t3 key b3 t' E. apply build_len in E. exact E.
    + intros [t2 cc2] r _ E. cbn [fst]. unfold self. apply (build_all_len cc2 _ t2 r) in E; [exact E|].
      intros t3 key b3 t' E'. apply build_len in E'. exact E'.
Qed.

(** ** The passes of [new] *)
Lemma find_eok K m key : forall cc b, Forall (eok K m) cc -> find_bucket cc key = Some b -> bok m b.
Proof.
  induction cc as [|[k b0] cc IH]; intros b H; cbn [find_bucket]; [discriminate|]. apply Forall_cons_iff in H. destruct H as [H1 H].
  destruct (k =? key); [intros E; injection E as <-; apply H1|apply IH; exact H].
Qed.

Lemma set_eok K m key b : forall cc, bok m b -> Forall (eok K m) cc -> Forall (eok K m) (set_bucket cc key b).
Proof.
  induction cc as [|[k b0] cc IH]; intros Hb H; cbn [set_bucket]; [constructor|]. apply Forall_cons_iff in H. destruct H as [H1 H].
  destruct (k =? key); constructor; try assumption; [split; [apply H1|exact Hb]|apply IH; assumption].
Qed.

Lemma pass1_same {S : Type} m : forall (ds : list (desc S)) L nnz s cc, codes_u32 ds -> lengths_u8 ds ->
  nnz + N.of_nat (length ds) < modulus mc -> s + N.of_nat (length ds) < modulus mc -> Forall (eok (2 ^ 32) m) cc ->
  k_new_pass1 chk P m ds L nnz s cc = k_new_pass1 chk plus0 m ds L nnz s cc /\
  forall r, k_new_pass1 chk plus0 m ds L nnz s cc = Ret r -> Forall (eok (2 ^ 32) m) (snd r).
Proof.
  induction ds as [|d ds IH]; intros L nnz s cc Hc Hl Hn Hs H; cbn [k_new_pass1].
  - split; [reflexivity|]. intros r E. injection E as <-. exact H.
  - apply Forall_cons_iff in Hc. destruct Hc as [Hd Hc]. apply Forall_cons_iff in Hl. destruct Hl as [Hb Hl]. cbn [length] in Hn, Hs.
    assert (E1 : forall a, a + N.of_nat (Datatypes.S (length ds)) < modulus mc -> P a 1 = plus0 a 1) by (intros a Ha; apply plus_small; lia).
    rewrite (E1 nnz Hn), (E1 s Hs). unfold plus0 at 1 2 4 5.
    destruct (Nat.ltb_spec 0 (d_bits d)) as [Z|Z]; cbn [obind].
    + destruct (Nat.ltb_spec MAX_LUT_BITS (d_bits d)) as [M|M]; cbn [obind].
      * destruct (k_add_long_code _ _ _ _) as [cc1| |] eqn:E2; cbn [obind]; [|split; [reflexivity|discriminate]..].
        apply IH; try assumption; try lia. eapply long_ok; [| | |exact H|exact E2]; cbn [c_code c_bits]; try exact Hd. unfold MAX_LUT_BITS in M. lia.
      * apply IH; try assumption; lia.
    + destruct (Nat.ltb_spec MAX_LUT_BITS (d_bits d)) as [M|M]; [unfold MAX_LUT_BITS in M; lia|]. cbn [obind]. apply IH; try assumption; lia.
Qed.

Lemma pass2_rel {S : Type} m L : forall (ds : list (desc S)) t s cc, codes_u32 ds -> fits t -> Forall (eok (2 ^ 32) m) cc ->
  rel fst (fun r => fits (fst r) /\ Forall (eok (2 ^ 32) m) (snd r)) (k_new_pass2 chk P C grants t m L ds s cc) (k_new_pass2 chk plus0 cast0 yes t m L ds s cc).
Proof.
  induction ds as [|d ds IH]; intros t s cc Hc Hf H; cbn [k_new_pass2].
  - apply rel_eq; [reflexivity|]. intros r E. injection E as <-. split; assumption.
  - apply Forall_cons_iff in Hc. destruct Hc as [Hd Hc]. destruct (d_bits d =? 0)%nat; [apply IH; assumption|]. eapply rel_bind.
    + instantiate (1 := fun r => fits (fst r) /\ Forall (eok (2 ^ 32) m) (snd r)). instantiate (1 := fst).
      destruct (d_bits d <=? MAX_LUT_BITS)%nat.
      * rewrite fill_lut_same; [|exact off0|left; reflexivity].
        destruct (k_fill_lut _ plus0 _ _ _ _ _ _ _ _ _) as [t1| |] eqn:E1; cbn [obind]; [|apply rel_eq; [reflexivity|discriminate]..].
        apply rel_eq; [reflexivity|]. intros r E. injection E as <-. cbn [fst snd]. apply fill_lut_len in E1.
        split; [unfold fits; rewrite E1; exact Hf|exact H].
      * destruct (k_lut_part _ _ _ _ _) as [k| |] eqn:Ek; cbn [obind]; [|apply rel_eq; [reflexivity|discriminate]..].
        apply lut_part_le in Ek. assert (Hk : k < 2 ^ 32) by lia. rewrite cast_small by exact Hk. change (cast0 k) with k.
        change W32 with (2 ^ 32). rewrite (N.mod_small k) by exact Hk.
        destruct (index_at t (N.to_nat k)) as [x| |]; cbn [obind]; [|apply rel_eq; [reflexivity|discriminate]..].
        destruct (x =? TABLE_FILL_VALUE); [|apply rel_eq; [reflexivity|]; intros r E; injection E as <-; split; assumption].
        destruct (find_bucket cc k) as [b|] eqn:Eb; [|apply rel_eq; [reflexivity|]; intros r E; injection E as <-; split; assumption].
        eapply rel_bind.
        -- apply alloc_rel; [exact Hf|exact off0|split; [exact Hk|left; reflexivity]|exact (find_eok _ _ _ _ _ H Eb)].
        -- intros [t1 b1] [F1 F2] _. cbn [fst snd] in F1, F2. apply rel_eq; [reflexivity|]. intros r E. injection E as <-. cbn [fst snd].
           split; [exact F1|apply set_eok; assumption].
        -- intros [t1 b1] r _ E. injection E as <-. cbn [fst]. lia.
    + intros [t1 cc1] [F1 F2] _. cbn [fst snd] in F1, F2. destruct (k_add32 chk s 1) as [s1| |]; cbn [obind]; [|apply rel_eq; [reflexivity|discriminate]..].
      apply IH; assumption.
    + intros [t1 cc1] [t2 cc2] _ E. cbn [fst]. destruct (k_add32 chk s 1) as [s1| |]; cbn [obind] in E; try discriminate E.
      apply pass2_len in E. exact E.
Qed.
End OnMachine.
