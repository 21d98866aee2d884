(** Codeword reads never panic, wherever the reader stands. *)
From Coq Require Import List Arith NArith ZArith Bool Lia Permutation.
From Coq Require Import ZifyBool ZifyNat ZifyN.
From Verif Require Import Base ByteModel ByteSpec ByteProofs BitModel BitSpec BitProofs BitProofs2 CodebookModel
  CodebookSpec CodebookProofs CodebookProofs2 CodebookProofs3 CodebookProofs4 CodebookProofs5.
Import ListNotations.
Local Open Scope nat_scope.
Ltac Zify.zify_post_hook ::= Z.div_mod_to_equations.

Lemma w_skip_small : forall e r n, winv r -> n <= 64 -> exists r', skip_bits e r n = Ret r' /\ wstep r r'.
Proof.
  intros e r n H Hn. unfold skip_bits. destruct (Nat.ltb_spec (left r) n).
  - destruct (Nat.ltb_spec 64 (n - left r)); [lia|].
    pose proof (wstep_skip_rem e r (n - left r) H) as S2.
    destruct (w_refill64 e _ (ws_inv _ _ S2)) as [r3 [E3 S3]]. rewrite E3. cbn [obind].
    eexists. split; [reflexivity|]. eapply wstep_trans; [exact S2|]. eapply wstep_trans; [exact S3|].
    apply wstep_skip_rem. apply (ws_inv _ _ S3).
  - eexists. split; [reflexivity|]. apply wstep_skip_rem. exact H.
Qed.

Lemma winv_cbound : forall r, winv r -> cbound r.
Proof. intros r H. split; apply H. Qed.

Lemma read_loop_total : forall (S : Type) (cb : codebook S) e et d fuel lo hi off B r, d <= fuel ->
  serves d et (cb_table cb) lo hi off B -> 
  (forall w i, In (w, i) B -> (N.of_nat i < 2 ^ 24)%N) ->
  (forall w i, In (w, i) B -> nth_error (cb_syms cb) i <> None) -> winv r ->
  exists r' s, read_loop fuel e cb r (N.of_nat off) (lbits B) = Ret (r', s) /\ wstep r r' /\
    (forall x, s = Okay x -> In x (cb_syms cb)).
Proof.
  intros S cb e et. induction d as [|d IH]; intros fuel lo hi off B r Hd Hs Hidx Hsym Hw; [destruct Hs|].
  destruct fuel as [|fuel]; [lia|]. cbn [read_loop].
  assert (HL : lbits B <= 10) by (unfold lbits; lia).
  destruct (w_get_bits_32 e r (lbits B) Hw ltac:(lia)) as [r0 [v [Eg _]]].
  assert (Ep : peek_bits_32 e r (lbits B) = Ret (r, v)) by (unfold peek_bits_32; rewrite Eg; reflexivity).
  rewrite Ep. cbn [obind].
  pose proof (peek_bound e r (lbits B) r v (winv_cbound r Hw) ltac:(lia) Ep) as Hv.
  destruct (value_surj et v (lbits B) Hv) as [u [Lu Eu]].
  replace (N.to_nat (v + N.of_nat off)) with (slot et off u) by (unfold slot; lia).
  destruct (Hs u Lu) as [x [Nx C]]. rewrite (index_nth _ _ _ _ Nx). cbn [obind].
  rewrite (w_available r Hw). cbn [obind].
  destruct C as [[w [i [Hin [Lw [Pw ->]]]]]|[[Hs1 [o [_ [_ [Ho [-> Hso]]]]]]|[-> _]]].
  - apply lastin_in in Hin. destruct (lut_entry_fields (N.of_nat i) (length w) (Hidx w i Hin) Lw) as [F1 [F2 [F3 F4]]].
    rewrite F1, F2, F3, F4. cbn [negb].
    destruct (_ <? _)%N; [exists r, (Error InvalidCode); split; [reflexivity|]; split; [apply wstep_refl; exact Hw|discriminate]|].
    rewrite !Nnat.Nat2N.id. destruct (w_skip_small e r (length w) Hw ltac:(lia)) as [r1 [E1 S1]]. rewrite E1. cbn [obind].
    destruct (nth_error (cb_syms cb) i) as [s|] eqn:Es; [|destruct (Hsym w i Hin Es)].
    rewrite (index_nth _ _ _ _ Es). cbn [obind]. exists r1, (Okay s). split; [reflexivity|]. split; [exact S1|].
    intros y Hy. injection Hy as <-. apply nth_error_In in Es. exact Es.
  - assert (Hlb : lbits (sub u B) <= 10) by (unfold lbits; lia).
    destruct (esc_entry_fields (N.of_nat o) _ Ho Hlb) as [F1 [F2 [F3 F4]]].
    rewrite F1, F2, F3, F4. cbn [negb].
    destruct (_ <? _)%N; [exists r, (Error InvalidCode); split; [reflexivity|]; split; [apply wstep_refl; exact Hw|discriminate]|].
    destruct (w_skip_small e r (lbits B) Hw ltac:(lia)) as [r1 [E1 S1]]. rewrite E1. cbn [obind].
    rewrite Nnat.Nat2N.id.
    destruct (IH fuel lo hi o (sub u B) r1 ltac:(lia) Hso) as [r2 [s [E2 [S2 Hy]]]].
    + intros w i Hin. apply sub_in in Hin. apply (Hidx (u ++ w)). apply Hin.
    + intros w i Hin. apply sub_in in Hin. apply (Hsym (u ++ w)). apply Hin.
    + apply S1.
    + exists r2, s. split; [exact E2|]. split; [eapply wstep_trans; eassumption|exact Hy].
  - rewrite N.eqb_refl. exists r, (Error InvalidCode). split; [reflexivity|]. split; [apply wstep_refl; exact Hw|discriminate].
Qed.

Lemma read_cb_total : forall (S : Type) ord m (ds : list (desc S)) cb e r,
  permuting ord -> valid_description m ds -> new_codebook ord ds m = Ret (Okay cb) -> winv r ->
  exists r' s, read_cb e cb r = Ret (r', s) /\ wstep r r' /\ 
    (forall x, s = Okay x -> In x (map d_sym ds)).
Proof.
  intros S ord m ds cb e r Hord Hv Hcb Hw.
  destruct (built S ord m ds cb Hord Hv Hcb) as [Hs [Hl [lo [hi Hsv]]]].
  unfold read_cb. rewrite Hl.
  destruct (read_loop_total S cb e (reader_for m) 27 27 lo hi 0 _ r (le_n _) Hsv (valid_idx S m ds Hv)) as [r' [s [E [St Hx]]]].
  - intros w i Hin. apply number_in in Hin. destruct Hin as [j [d [Hj [Hu [_ ->]]]]]. rewrite Hs. cbn [plus].
    rewrite (rank_sym S ds j d Hj Hu). discriminate.
  - exact Hw.
  - exists r', s. split; [exact E|]. split; [exact St|]. intros x Ex. specialize (Hx x Ex). rewrite Hs in Hx.
    unfold used_syms in Hx. apply in_map_iff in Hx. destruct Hx as [d [<- Hd]]. apply filter_In in Hd.
    apply in_map. apply Hd.
Qed.

Lemma mixed_total : forall (S : Type) ord m (ds : list (desc S)) cb e,
  permuting ord -> valid_description m ds -> new_codebook ord ds m = Ret (Okay cb) ->
  forall steps r, winv r -> mixed_ok e cb r steps -> exists r' outs, run_mixed e cb r steps = Ret (r', outs) /\ wstep r r'.
Proof.
  intros S ord m ds cb e Hord Hv Hcb. induction steps as [|[op|d] steps IH]; intros r Hw Hok; cbn [run_mixed].
  - exists r, []. split; [reflexivity|]. apply wstep_refl. exact Hw.
  - cbn [mixed_ok] in Hok. destruct Hok as [H1 [H2 H3]].
    destruct (w_run_op e r op Hw H1 H2) as [r1 [o [E1 S1]]]. rewrite E1. cbn [obind].
    destruct (IH r1 (ws_inv _ _ S1) (H3 r1 o E1)) as [r2 [outs [E2 S2]]]. rewrite E2. cbn [obind].
    eexists _, _. split; [reflexivity|]. eapply wstep_trans; eassumption.
  - cbn [mixed_ok] in Hok.
    destruct (read_cb_total S ord m ds cb e r Hord Hv Hcb Hw) as [r1 [s [E1 [S1 _]]]]. rewrite E1. cbn [obind].
    destruct (IH r1 (ws_inv _ _ S1) (Hok r1 s E1)) as [r2 [outs [E2 S2]]]. rewrite E2. cbn [obind].
    eexists _, _. split; [reflexivity|]. eapply wstep_trans; eassumption.
Qed.

Lemma read_never_panics : forall (S : Type) ord m (ds : list (desc S)) cb e buf r0 steps,
  permuting ord -> valid_description m ds -> new_codebook ord ds m = Ret (Okay cb) ->
  bytes buf -> new e buf = Ret r0 -> mixed_ok e cb r0 steps ->
  exists r outs r' s c c' a', run_mixed e cb r0 steps = Ret (r, outs) /\ read_cb e cb r = Ret (r', s) /\
    (forall x, s = Okay x -> In x (map d_sym ds)) /\
    consumed r = Ret c /\ consumed r' = Ret c' /\ available r' = Ret a' /\ c <= c' /\ c' + a' = 8 * length buf.
Proof.
  intros S ord m ds cb e buf r0 steps Hord Hv Hcb Hb Hn Hok.
  destruct (new_inv e buf Hb) as [r0' [E0 [I0 B0]]]. rewrite Hn in E0. injection E0 as <-.
  pose proof (inv_winv _ _ _ I0) as Hw0.
  destruct (mixed_total S ord m ds cb e Hord Hv Hcb steps r0 Hw0 Hok) as [r [outs [E S1]]].
  destruct (read_cb_total S ord m ds cb e r Hord Hv Hcb (ws_inv _ _ S1)) as [r' [s [E' [S2 Hx]]]].
  exists r, outs, r', s, (wpos r), (wpos r'), (8 * length buf - wpos r').
  split; [exact E|]. split; [exact E'|]. split; [exact Hx|].
  split; [apply w_consumed; apply S1|]. split; [apply w_consumed; apply S2|].
  assert (Hbuf : buffer r' = buf) by (rewrite (ws_buffer _ _ S2), (ws_buffer _ _ S1); exact B0).
  split; [rewrite <- Hbuf; apply w_available; apply S2|]. split; [apply S2|].
  pose proof (w_index _ (ws_inv _ _ S2)). rewrite Hbuf in *. unfold wpos. lia.
Qed.
