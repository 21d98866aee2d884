(** Descriptions with any codewords for any width of [usize]. *)
From Coq Require Import List Arith NArith ZArith Bool Lia Permutation.
From Coq Require Import ZifyBool ZifyNat ZifyN.
From Verif Require Import Base BitModel BitSpec BitQueueSpec WordBitModel WordSpec WordBitProofs CodebookModel CodebookSpec CodebookProofs CodebookProofs2 CbQueueSpec
  ReleaseCbModel ReleaseCbSpec ReleaseCbProofs CbLevelSpec CbLevelProofs CbFullSpec CbFullProofs CbFullRelSpec CbFullRelProofs
  MachineModel MachineBitModel MachineBitSpec MachineBitProofs3 MachineBitProofs4 MachineCbModel MachineCbSpec MachineCbProofs3 MachineCbProofs4 CbFullMachSpec.
Import ListNotations.
Local Open Scope N_scope.

Lemma full_table_machine : forall (S : Type) mc m (ds : list (desc S)) ks cb, 32 <= bits mc -> checked mc = true \/ bits mc <= 64 ->
  full_table m ds ks cb -> N.of_nat (length (cb_table cb)) <= 2 ^ 24 -> machine_reads_like mc m ds ks cb.
Proof.
  intros S mc m ds ks cb Hb Hk Hcb Ht e buf steps Hbytes Hok Ha.
  assert (Hlut : (cb_lut_bits cb < 256)%nat) by (destruct Hcb as [_ [-> _]]; unfold lbits, MAX_LUT_BITS; lia).
  assert (Htab : N.of_nat (length (cb_table cb)) < 2 ^ bits mc).
  { apply N.le_lt_trans with (2 ^ 24); [exact Ht|]. apply N.pow_lt_mono_r; lia. }
  destruct (checked mc) eqn:Hc.
  - intros B. destruct (full_table_reads S m ds ks cb Hcb e buf steps Hbytes Hok) as [r0 [E0 H]].
    rewrite (histories_any mc Hc Hb S cb Htab Hlut e buf steps B Ha). unfold mixed_from_new. rewrite E0. cbn [obind].
    destruct (q_mixed_full ks e m ds buf steps) as [[q outs]|].
    + destruct H as [r [H1 [H2 _]]]. rewrite H1. cbn [obind]. exists (word_reader r). split; [reflexivity|]. cbn [w_left word_reader]. rewrite H2. reflexivity.
    + rewrite H. reflexivity.
  - intros B1 B2. destruct Hk as [Hk|Hw]; [discriminate Hk|].
    destruct (full_table_release S m ds ks cb Hcb e buf steps Hbytes Hok B2) as [r [E [L _]]]. exists r. split; [|exact L].
    exact (histories_off mc Hc Hb Hw S cb Htab Hlut e buf steps r _ B1 Ha E).
Qed.

Lemma machine_built : forall (S : Type) mc grants sym_grants ord m (ds : list (desc S)) cb, 32 <= bits mc ->
  honest mc grants -> permuting ord -> codes_fit m ds -> codes_u32 ds -> N.of_nat (length ds) < 2 ^ bits mc ->
  (forall n, n <= table_entries (words m ds) -> grants n = true) -> sym_grants (N.of_nat (length (words m ds))) = true ->
  new_codebook ord ds m = Ret (Okay cb) -> N.of_nat (length (cb_table cb)) <= table_entries (words m ds) -> cb_syms cb = used_syms ds ->
  mk_new_codebook mc grants sym_grants ord ds m = Ret (Okay cb).
Proof.
  intros S mc grants sym_grants ord m ds cb Hb Hg Hord Hf Hc Hn Hgr Hsy H1 H2 H4.
  assert (Hy : (if checked mc then new_codebook ord ds m else rc_new_codebook ord ds m) = Ret (Okay cb)).
  { destruct (checked mc); [exact H1|]. apply release_construction; [exact Hord|exact (fit_u8 S m ds Hf)|exact H1]. }
  assert (Hw : length (cb_syms cb) = length (words m ds)).
  { rewrite H4. unfold used_syms, words. rewrite !map_length. reflexivity. }
  destruct (construct_any mc grants sym_grants ord m ds Hb Hg Hord (fit_u8 S m ds Hf) Hc Hn) as [E|[_ (cb' & E & T)]]; [rewrite E; exact Hy|].
  exfalso. rewrite Hy in E. injection E as <-. destruct T as [(n & T1 & T2)|T].
  - rewrite (Hgr n ltac:(lia)) in T2. discriminate T2.
  - rewrite Hw, Hsy in T. discriminate T.
Qed.

Lemma machine_full_exact : forall (S : Type) mc grants sym_grants ord m (ds : list (desc S)), 32 <= bits mc -> checked mc = true \/ bits mc <= 64 ->
  honest mc grants -> permuting ord -> codes_fit m ds -> small_enough m ds -> codes_u32 ds -> N.of_nat (length ds) < 2 ^ bits mc ->
  (exists d, In d ds /\ used d) ->
  (forall n, n <= table_entries (words m ds) -> grants n = true) -> sym_grants (N.of_nat (length (words m ds))) = true ->
  exists cb ks, mk_new_codebook mc grants sym_grants ord ds m = Ret (Okay cb) /\ Permutation ks (blocked_keys m ds) /\ machine_reads_like mc m ds ks cb.
Proof.
  intros S mc grants sym_grants ord m ds Hb Hk Hg Hord Hf Hs Hc Hn Hu Hgr Hsy.
  destruct (full_exact_table S ord m ds Hord Hf Hs Hu) as [cb [ks [H1 [H2 [H3 H4]]]]]. exists cb, ks.
  assert (Ht : N.of_nat (length (cb_table cb)) <= 2 ^ 24) by (apply N.le_trans with (1 := H2); apply Hs).
  split; [|split; [exact H3|apply full_table_machine; assumption]].
  apply machine_built; try assumption. apply H4.
Qed.

Lemma machine_full_order : forall (S : Type) mc grants sym_grants m (ds : list (desc S)) ks, 32 <= bits mc -> checked mc = true \/ bits mc <= 64 ->
  honest mc grants -> codes_fit m ds -> small_enough m ds -> codes_u32 ds -> N.of_nat (length ds) < 2 ^ bits mc ->
  (exists d, In d ds /\ used d) ->
  (forall n, n <= table_entries (words m ds) -> grants n = true) -> sym_grants (N.of_nat (length (words m ds))) = true ->
  Permutation ks (blocked_keys m ds) ->
  exists ord cb, permuting ord /\ mk_new_codebook mc grants sym_grants ord ds m = Ret (Okay cb) /\ machine_reads_like mc m ds ks cb.
Proof.
  intros S mc grants sym_grants m ds ks Hb Hk Hg Hf Hs Hc Hn Hu Hgr Hsy Hp.
  destruct (full_order_table S m ds ks Hf Hs Hu Hp) as [ord [cb [Hord [H1 H4]]]]. exists ord, cb. split; [exact Hord|].
  destruct (full_exact_table S ord m ds Hord Hf Hs Hu) as [cb' [ks' [H1' [H2 _]]]].
  assert (cb' = cb) by congruence. subst cb'.
  assert (Ht : N.of_nat (length (cb_table cb)) <= 2 ^ 24) by (apply N.le_trans with (1 := H2); apply Hs).
  split; [|apply full_table_machine; assumption]. apply machine_built; try assumption. apply H4.
Qed.
