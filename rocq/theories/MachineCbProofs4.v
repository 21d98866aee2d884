(** Legal histories over codebooks on a machine, from construction on. *)
From Coq Require Import List Arith NArith ZArith Bool Lia Permutation.
From Coq Require Import ZifyBool ZifyNat ZifyN.
From Verif Require Import Base BitModel BitSpec BitProofs CodebookModel CodebookSpec CodebookProofs CodebookProofs2 CodebookProofs5.
From Verif Require Import WordBitModel WordSpec WordBitProofs ReleaseBitModel ReleaseBitSpec ReleaseCbModel ReleaseCbSpec ReleaseCbProofs ReleaseCbProofs2.
From Verif Require Import MachineModel MachineBitModel MachineBitSpec MachineBitProofs MachineBitProofs2 MachineBitProofs3.
From Verif Require Import MachineCbModel MachineCbSpec MachineCbProofs MachineCbProofs2 MachineCbProofs3 CodebookLargeProofs.
Import ListNotations.
Local Open Scope N_scope.

Lemma inv_fine e r p : inv e r p -> fine r.
Proof. intros I. pose proof (inv_left _ _ _ I). pose proof (inv_pos _ _ _ I). split; lia. Qed.

Section Legal.
Variable mc : machine.
Hypothesis Hb : 32 <= bits mc.
Hypothesis Hk : checked mc = true \/ bits mc <= 64.

Lemma modulus_32 : 2 ^ 32 <= modulus mc.
Proof. unfold modulus. apply N.pow_le_mono_r; [discriminate|exact Hb]. Qed.

Lemma legal_op e r p op : inv e r p -> op_ok op -> (p + op_bits p op + 64 <= 8 * length (buffer r))%nat -> 8 * N.of_nat (length (buffer r)) + 6912 < 2 ^ 32 ->
  exists r', mb_run_op mc e (word_reader r) op = Ret (word_reader r', snd (spec_op e (bits_of e (buffer r)) p op)) /\
    inv e r' (fst (spec_op e (bits_of e (buffer r)) p op)) /\ buffer r' = buffer r.
Proof.
  intros I Hok Hp Hs. pose proof modulus_32 as M. change (2 ^ 32) with 4294967296 in *. pose proof (inv_fine _ _ _ I) as F. pose proof (inv_index _ _ _ I) as X.
  destruct (run_op_exact e r p op I Hok Hp) as [r' [E [I' B']]]. exists r'. split; [|split; assumption].
  assert (A : arg_on mc op) by (change (2 ^ bits mc) with (modulus mc); destruct op; cbn [arg_on op_bits] in *; try exact Logic.I; fold (modulus mc); lia).
  assert (Sk : op_skip op <= 8 * N.of_nat (length (buffer r))) by (destruct op; cbn [op_skip op_bits] in *; lia).
  assert (Sk' : reads op \/ op_skip op = 0) by (destruct op; cbn [op_skip reads]; auto).
  assert (Hb8 : 8 <= bits mc) by lia. destruct (checked mc) eqn:Hc.
  - rewrite (op_any mc Hc Hb8 e r op F); [rewrite E; reflexivity|unfold spare; lia|exact A|].
    destruct Sk' as [K|K]; [left; exact K|right]. unfold budget_m. rewrite K. lia.
  - destruct Hk as [K|Hw]; [discriminate K|]. destruct (op_both e r op r' (snd (spec_op e (bits_of e (buffer r)) p op)) F) as [G _]; [| |exact E|].
    + unfold budget. rewrite W64_eq. lia.
    + destruct op; cbn [arg_fits op_bits] in *; try exact Logic.I; change (2 ^ 64) with 18446744073709551616; lia.
    + rewrite (op_off mc Hc Hb8 Hw e (word_reader r) op); [rewrite G; cbn [omap]| |cbn [w_left word_reader]; pose proof (inv_left _ _ _ I); lia|exact A].
      * unfold shown. cbn [fst snd]. do 2 f_equal.
        assert (Nr : forall c, N.of_nat c < 4294967296 -> narrow mc (OutCount c) = OutCount c).
        { intros c Hn. cbn [narrow]. f_equal. rewrite N.mod_small by (fold (modulus mc); lia). lia. }
        destruct op; cbn [spec_op snd narrow]; try reflexivity; apply Nr; [lia|]. rewrite (bits_of_length e (buffer r)). lia.
      * unfold limit, w_len. cbn [w_index w_buffer word_reader]. pose proof (N.mul_div_le (op_skip op) 8 ltac:(discriminate)). lia.
Qed.

Variable S : Type.
Variable cb : codebook S.
Hypothesis Htable : N.of_nat (length (cb_table cb)) < 2 ^ bits mc.
Hypothesis Hlut : (cb_lut_bits cb < 256)%nat.
Hypothesis Htyped : typed_codebook cb.

Lemma legal_code e r p r' s : inv e r p -> 8 * N.of_nat (length (buffer r)) + 6912 < 2 ^ 32 -> read_cb e cb r = Ret (r', s) ->
  mb_read_cb mc e cb (word_reader r) = Ret (word_reader r', s).
Proof.
  intros I Hs E. pose proof modulus_32 as M. change (2 ^ 32) with 4294967296 in *. pose proof (inv_fine _ _ _ I) as F. pose proof (inv_index _ _ _ I) as X.
  unfold mb_read_cb. destruct (checked mc) eqn:Hc.
  - rewrite (loop_any mc Hc Hb S cb Htable Hlut); [|exact F|exact Hlut|unfold budget_m; lia]. unfold read_cb in E. rewrite E. reflexivity.
  - destruct Hk as [K|Hw]; [discriminate K|]. destruct Htyped as [_ Ht].
    destruct (loop_both S cb e Ht 27 r 0 (cb_lut_bits cb) (r', s) F Hlut) as [G _]; [unfold budget; rewrite W64_eq; lia|exact E|]. cbn [fst snd] in G.
    apply (loop_off mc Hc Hb Hw S cb Htable Hlut) in G; [apply G| |cbn [w_left word_reader]; pose proof (inv_left _ _ _ I); lia|exact Hlut].
    unfold stretch, w_len. cbn [w_index w_buffer word_reader]. lia.
Qed.

Lemma legal_mixed ord m (ds : list (desc S)) : permuting ord -> valid_description m ds -> new_codebook ord ds m = Ret (Okay cb) ->
  forall steps r p, inv (reader_for m) r p -> 8 * N.of_nat (length (buffer r)) + 6912 < 2 ^ 32 -> (8 <= length (buffer r))%nat ->
  steps_within m ds (bits_of (reader_for m) (buffer r)) (8 * length (buffer r) - 64) p steps ->
  exists r', mb_run_mixed mc (reader_for m) cb (word_reader r) steps = Ret (word_reader r', snd (spec_steps m (bits_of (reader_for m) (buffer r)) p steps)) /\
    inv (reader_for m) r' (fst (spec_steps m (bits_of (reader_for m) (buffer r)) p steps)).
Proof.
  intros Hord Hv Hcb. induction steps as [|[op|d] steps IH]; intros r p I Hs Hlen Hw.
  - exists r. split; [reflexivity|exact I].
  - cbn [steps_within] in Hw. destruct Hw as [Hok [Hp Hw]].
    destruct (legal_op (reader_for m) r p op I Hok ltac:(lia) Hs) as [r1 [E1 [I1 B1]]].
    cbn [mb_run_mixed spec_steps]. rewrite E1. cbn [obind].
    destruct (spec_op (reader_for m) (bits_of (reader_for m) (buffer r)) p op) as [p1 o1] eqn:Es. cbn [fst snd] in *.
    rewrite <- B1 in Hw, Hlen, Hs. destruct (IH r1 p1 I1 Hs Hlen Hw) as [r2 [E2 I2]].
    rewrite E2. cbn [obind]. rewrite B1 in *.
    destruct (spec_steps m (bits_of (reader_for m) (buffer r)) p1 steps) as [p2 os]. cbn [fst snd] in *.
    exists r2. split; [reflexivity|exact I2].
  - cbn [steps_within] in Hw. destruct Hw as [Hd [Hu [Hp [Hword Hw]]]].
    destruct (read_cb_hit S ord m ds cb r p d Hord Hv Hcb I Hd Hu Hword ltac:(lia) ltac:(rewrite W32_eq; change (2 ^ 32) with 4294967296 in Hs; lia)) as [r1 [E1 [I1 B1]]].
    cbn [mb_run_mixed spec_steps]. rewrite (legal_code _ _ _ _ _ I Hs E1). cbn [obind].
    rewrite <- B1 in Hw, Hlen, Hs. destruct (IH r1 _ I1 Hs Hlen Hw) as [r2 [E2 I2]].
    rewrite E2. cbn [obind]. rewrite B1 in *.
    destruct (spec_steps m (bits_of (reader_for m) (buffer r)) (p + d_bits d) steps) as [p2 os]. cbn [fst snd] in *.
    exists r2. split; [reflexivity|exact I2].
Qed.

Lemma legal_from_new ord m (ds : list (desc S)) buf steps : permuting ord -> valid_description m ds -> new_codebook ord ds m = Ret (Okay cb) ->
  bytes buf -> (8 <= length buf)%nat -> 8 * N.of_nat (length buf) + 6912 < 2 ^ 32 ->
  steps_within m ds (bits_of (reader_for m) buf) (8 * length buf - 64) 0 steps ->
  exists r, mb_mixed_from_new mc (reader_for m) cb buf steps = Ret (word_reader r, snd (spec_steps m (bits_of (reader_for m) buf) 0 steps)) /\
    consumed r = Ret (fst (spec_steps m (bits_of (reader_for m) buf) 0 steps)).
Proof.
  intros Hord Hv Hcb Hbytes Hlen Hs Hw. destruct (new_inv (reader_for m) buf Hbytes) as [r0 [E0 [I0 B0]]].
  assert (N0 : mb_new mc (reader_for m) buf = Ret (word_reader r0)).
  { pose proof modulus_32 as M. change (2 ^ 32) with 4294967296 in *. assert (Hb8 : 8 <= bits mc) by lia. destruct (checked mc) eqn:Hc.
    - rewrite (new_any mc Hb8) by lia. rewrite E0. reflexivity.
    - destruct Hk as [K|Hw']; [discriminate K|]. rewrite (new_off mc Hc Hb8 Hw') by lia.
      assert (H : rc_mixed_from_new (reader_for m) cb buf [] = Ret (word_reader r0, [])).
      { apply (release_histories S cb (reader_for m) buf [] r0 [] Htyped); [cbn [steps_skip]; change (2 ^ 64) with 18446744073709551616; lia|constructor|].
        unfold mixed_from_new. rewrite E0. reflexivity. }
      unfold rc_mixed_from_new in H. destruct (rb_new (reader_for m) buf) as [x| |]; cbn [obind rc_run_mixed] in H; [congruence|discriminate H..]. }
  unfold mb_mixed_from_new. rewrite N0. cbn [obind]. rewrite <- B0 in Hlen, Hs, Hw.
  destruct (legal_mixed ord m ds Hord Hv Hcb steps r0 0%nat I0 Hs Hlen Hw) as [r [E I]]. rewrite B0 in E, I.
  exists r. split; [exact E|]. apply (consumed_inv _ _ _ I).
Qed.
End Legal.

Lemma build_and_decode (S : Type) mc grants sym_grants ord m (ds : list (desc S)) : 32 <= bits mc -> checked mc = true \/ bits mc <= 64 -> honest mc grants ->
  permuting ord -> valid_description m ds -> codes_u32 ds -> N.of_nat (length ds) < 2 ^ bits mc -> (exists d, In d ds /\ used d) ->
  (forall n, n <= table_entries (words m ds) -> grants n = true) -> sym_grants (N.of_nat (length (words m ds))) = true ->
  exists cb, mk_new_codebook mc grants sym_grants ord ds m = Ret (Okay cb) /\
  forall buf steps, bytes buf -> (8 <= length buf)%nat -> 8 * N.of_nat (length buf) + 6912 < 2 ^ 32 ->
  steps_within m ds (bits_of (reader_for m) buf) (8 * length buf - 64) 0 steps ->
  exists r, mb_mixed_from_new mc (reader_for m) cb buf steps = Ret (r, snd (spec_steps m (bits_of (reader_for m) buf) 0 steps)).
Proof.
  intros Hb Hk Hg Hord Hv Hc Hn Hu Hgr Hsy.
  assert (Hl : lengths_u8 ds).
  { apply Forall_forall. intros d Hd. destruct (Nat.eq_0_gt_0_cases (d_bits d)) as [Z|Z]; [lia|]. destruct Hv as [Hv _].
    destruct (Hv d Hd Z) as [K _]. destruct m; cbn [longest] in K; lia. }
  destruct (proj1 (construction_total S ord m ds Hord Hv) Hu) as [cb Hcb]. exists cb.
  pose proof (table_length S ord m ds cb Hord Hv Hcb) as Ht. destruct (built S ord m ds cb Hord Hv Hcb) as [Hs [Hlb _]].
  assert (Hy : (if checked mc then new_codebook ord ds m else rc_new_codebook ord ds m) = Ret (Okay cb)).
  { destruct (checked mc); [exact Hcb|]. apply release_construction; [exact Hord|exact Hl|exact Hcb]. }
  assert (Hw : length (cb_syms cb) = length (words m ds)) by (rewrite Hs; unfold used_syms, words; rewrite !map_length; reflexivity).
  destruct (construct_any mc grants sym_grants ord m ds Hb Hg Hord Hl Hc Hn) as [E|[_ (cb' & E & T)]].
  - split; [rewrite E; exact Hy|]. intros buf steps Hbytes Hlen Hs' Hst.
    assert (Ht24 : N.of_nat (length (cb_table cb)) <= 2 ^ 24) by (rewrite Ht; apply Hv). change (2 ^ 24) with 16777216 in Ht24.
    assert (Hlut : (cb_lut_bits cb < 256)%nat) by (rewrite Hlb; unfold lbits; unfold MAX_LUT_BITS; lia).
    pose proof (modulus_32 mc Hb) as M. unfold modulus in M. change (2 ^ 32) with 4294967296 in M.
    destruct (legal_from_new mc Hb Hk S cb ltac:(lia) Hlut ltac:(split; [exact Hlut|change (2 ^ 64) with 18446744073709551616; lia]) ord m ds buf steps Hord Hv Hcb Hbytes Hlen Hs' Hst) as [r [R _]].
    exists (word_reader r). exact R.
  - exfalso. rewrite Hy in E. injection E as <-. destruct T as [(n & T1 & T2)|T].
    + rewrite Ht in T1. rewrite (Hgr n T1) in T2. discriminate T2.
    + rewrite Hw, Hsy in T. discriminate T.
Qed.
