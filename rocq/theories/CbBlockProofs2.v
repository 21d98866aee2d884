(** The end of the buffer, messages without padding, and where a codeword read
    leaves the reader. *)
From Coq Require Import List Arith NArith ZArith Bool Lia Permutation.
From Coq Require Import ZifyBool ZifyNat ZifyN.
From Verif Require Import Base BitModel BitSpec BitProofs BitProofs2 BitQueueSpec BitQueueProofs BitQueueProofs2
  CodebookModel CodebookSpec CodebookProofs CodebookProofs2 CodebookProofs3 CodebookProofs4 CodebookProofs5
  CbQueueSpec CbQueueProofs CbBlockProofs.
Import ListNotations.
Local Open Scope nat_scope.
Ltac Zify.zify_post_hook ::= Z.div_mod_to_equations.

Lemma window_zeros_prefix : forall l p n w, length w <= n -> length w <= length l - p ->
  is_prefix w (window l p n ++ repeat false (n - (length l - p))) -> window l p (length w) = w.
Proof.
  intros l p n w Hn Hl H. apply prefix_firstn in H.
  rewrite firstn_app in H.
  assert (L : length (window l p n) = Nat.min n (length l - p)) by (unfold window; rewrite firstn_length, skipn_length; reflexivity).
  rewrite L in H. replace (length w - Nat.min n (length l - p)) with 0 in H by lia.
  rewrite firstn_O, app_nil_r, window_firstn in H by lia. exact H.
Qed.

(** Nothing stands at the position: short codes are rejected and the queue stays. *)
Lemma blk_reject : forall (S : Type) m (ds : list (desc S)) l q, valid_description m ds ->
  (N.of_nat (length l) < 2 ^ 32)%N -> blk l q -> (forall d, In d ds -> d_bits d <= 10) ->
  (forall d, In d ds -> used d -> qpos q + d_bits d <= length l -> window l (qpos q) (d_bits d) <> word m d) ->
  q_codeword (reader_for m) m ds l q = Some (q, None).
Proof.
  intros S m ds l q Hv Hl B Hs Hno. unfold q_codeword. cbn [q_decode].
  assert (Easw : forall u, as_written (reader_for m) m u = u) by (destruct m; reflexivity).
  pose proof (look_ahead_10 _ (all_codes m ds)) as H10. rewrite Easw, (blk_get32 l q _ B) by lia.
  set (u := window l (qpos q) _ ++ _).
  destruct (complete u (all_codes m ds)) as [|[w s] rest] eqn:Ec.
  - destruct (longer u (all_codes m ds)) as [|[w s] rest] eqn:El; [reflexivity|exfalso].
    assert (H : In (w, s) (longer u (all_codes m ds))) by (rewrite El; left; reflexivity).
    apply longer_in in H. destruct H as [Lu [Hw H]]. apply all_codes_in in H. destruct H as [d [Hd [_ [E _]]]].
    specialize (Hs d Hd). apply (f_equal (@length bool)) in E. unfold word in E. rewrite codeword_length, app_length, Lu in E.
    destruct w; [congruence|cbn in E; lia].
  - assert (H : In (w, s) (complete u (all_codes m ds))) by (rewrite Ec; left; reflexivity).
    apply complete_in in H. destruct H as [Hin [Hw Hp]]. rewrite (blk_enough l q _ B Hl).
    destruct (Nat.leb_spec (length w) (length l - qpos q)) as [Hle|]; [exfalso|reflexivity].
    pose proof (look_ahead_in _ _ _ _ Hin) as HL. pose proof (blk_pos _ _ B) as Hpos.
    pose proof (window_zeros_prefix l (qpos q) (look_ahead (all_codes m ds)) w ltac:(lia) Hle Hp) as HW.
    apply all_codes_in in Hin. destruct Hin as [d [Hd [Hu [Ew _]]]]. 
    assert (Lw : length w = d_bits d) by (rewrite Ew; unfold word; apply codeword_length).
    rewrite Lw in *. apply (Hno d Hd Hu); [lia|]. rewrite HW. exact Ew.
Qed.

(** At the end of the buffer every codeword read fails and nothing moves. *)
Lemma blk_end : forall (S : Type) m (ds : list (desc S)) l q, valid_description m ds ->
  (N.of_nat (length l) < 2 ^ 32)%N -> blk l q -> qpos q = length l ->
  q_codeword (reader_for m) m ds l q = Some (q, None).
Proof.
  intros S m ds l q Hv Hl B Hend. unfold q_codeword. cbn [q_decode].
  set (u := as_written _ _ _).
  destruct (complete u (all_codes m ds)) as [|[w s] rest] eqn:Ec.
  - destruct (longer u (all_codes m ds)) as [|[w s] rest] eqn:El; [reflexivity|].
    rewrite (blk_enough l q _ B Hl).
    assert (Hin : In (w, s) (longer u (all_codes m ds))) by (rewrite El; left; reflexivity).
    pose proof (look_ahead_in _ _ _ _ Hin) as HL. rewrite El in HL.
    apply longer_in in Hin. destruct Hin as [_ [Hw _]].
    assert (0 < length w) by (destruct w; [congruence|cbn; lia]).
    destruct (Nat.leb_spec (look_ahead ((w, s) :: rest)) (length l - qpos q)); [lia|reflexivity].
  - rewrite (blk_enough l q _ B Hl).
    assert (Hin : In (w, s) (complete u (all_codes m ds))) by (rewrite Ec; left; reflexivity).
    apply complete_in in Hin. destruct Hin as [Hin _]. destruct Hv as [Hfit _].
    pose proof (all_codes_fit _ _ _ _ _ Hfit Hin) as H.
    destruct (Nat.leb_spec (length w) (length l - qpos q)); [lia|reflexivity].
Qed.

Lemma block_rejects : forall (S : Type) ord m (ds : list (desc S)) cb buf steps r0 r outs p,
  permuting ord -> valid_description m ds -> new_codebook ord ds m = Ret (Okay cb) ->
  bytes buf -> length buf mod 8 = 0 -> (N.of_nat (8 * length buf) < 2 ^ 32)%N ->
  Forall path64_step steps ->
  steps_within m ds (bits_of (reader_for m) buf) (8 * length buf) 0 steps ->
  new (reader_for m) buf = Ret r0 -> run_mixed (reader_for m) cb r0 steps = Ret (r, outs) ->
  p = fst (spec_steps m (bits_of (reader_for m) buf) 0 steps) ->
  p = 8 * length buf \/
  ((forall d, In d ds -> d_bits d <= 10) /\
   (forall d, In d ds -> used d -> p + d_bits d <= 8 * length buf ->
      window (bits_of (reader_for m) buf) p (d_bits d) <> word m d)) ->
  exists r', read_cb (reader_for m) cb r = Ret (r', Error InvalidCode) /\ consumed r' = Ret p.
Proof.
  intros S ord m ds cb buf steps r0 r outs p H1 H2 H3 H4 H5 H6 H7 H8 E0 E Ep H.
  destruct (blocks_histories_rep S ord m ds cb buf steps H1 H2 H3 H4 H5 H6 H7 H8) as [r0' [r1 [q [E0' [E' [R [B P]]]]]]].
  assert (r0' = r0) by congruence. subst r0'. assert (r1 = r) by congruence. subst r1.
  set (l := bits_of (reader_for m) buf) in *. assert (Ll : length l = 8 * length buf) by apply bits_of_length.
  rewrite <- Ll in *. rewrite <- P in Ep. subst p.
  pose proof (read_cb_queue S ord m ds cb (reader_for m) buf r q H1 H2 H3 H4 R) as G. fold l in G.
  assert (Eq : q_codeword (reader_for m) m ds l q = Some (q, None)).
  { destruct H as [H|[Hs Hno]]; [apply blk_end|apply blk_reject]; assumption. }
  rewrite Eq in G. destruct G as [r' [Er R']]. exists r'. split; [exact Er|]. apply (rep_consumed _ _ _ _ R').
Qed.

Lemma map_codeword_path : forall (S : Type) (msg : list (desc S)), Forall path64_step (map Codeword msg).
Proof. intros S msg. induction msg; constructor; [exact I|assumption]. Qed.

Lemma block_message : forall (S : Type) ord m (ds msg : list (desc S)) cb,
  permuting ord -> valid_description m ds -> new_codebook ord ds m = Ret (Okay cb) ->
  Forall (fun d => In d ds /\ used d) msg ->
  (N.of_nat (8 * length (encode_blocks m msg)) < 2 ^ 32)%N ->
  exists r0 r, new (reader_for m) (encode_blocks m msg) = Ret r0 /\
    run_mixed (reader_for m) cb r0 (map Codeword msg) = Ret (r, map (fun d => Sym (Okay (d_sym d))) msg) /\
    consumed r = Ret (length (message_bits m msg)).
Proof.
  intros S ord m ds msg cb Hord Hv Hcb Hmsg H32.
  set (l := message_bits m msg). set (n := 8 * ((length l + 63) / 64)).
  assert (Hbits : bits_of (reader_for m) (encode_blocks m msg) = l ++ repeat false (8 * n - length l)).
  { unfold encode_blocks. apply pack_bits. rewrite app_length, repeat_length. fold l n. lia. }
  assert (Hlen : length (encode_blocks m msg) = n) by apply pack_length.
  destruct (blocks_histories S ord m ds cb (encode_blocks m msg) (map Codeword msg) Hord Hv Hcb) as [r0 [r [E0 [E1 E2]]]].
  - apply pack_bytes.
  - rewrite Hlen. unfold n. lia.
  - exact H32.
  - apply map_codeword_path.
  - rewrite Hbits. apply (message_steps S m ds msg [] _ _ Hmsg). cbn [length plus]. fold l. rewrite Hlen. lia.
  - rewrite message_outputs in E1, E2. cbn [fst snd plus] in E1, E2. exists r0, r. split; [exact E0|]. split; assumption.
Qed.

(** ** Where a codeword read leaves the reader *)
Lemma read_loop_moves : forall (S : Type) (cb : codebook S) e et d fuel lo hi off B r r' res, d <= fuel ->
  serves d et (cb_table cb) lo hi off B -> pf B ->
  (forall w i, In (w, i) B -> (N.of_nat i < 2 ^ 24)%N) -> cbound r ->
  read_loop fuel e cb r (N.of_nat off) (lbits B) = Ret (r', res) ->
  match res with
  | Okay s => exists w i r1 a, In (w, i) B /\ nth_error (cb_syms cb) i = Some s /\
      skip_tens e ((length w - 1) / 10) r = Ret r1 /\ available r1 = Ret a /\
      length w - 10 * ((length w - 1) / 10) <= a /\ skip_bits e r1 (length w - 10 * ((length w - 1) / 10)) = Ret r' /\
      (10 < length w -> exists a0, available r = Ret a0 /\ Nat.min 10 (length w - 10) <= a0)
  | Error err => err = InvalidCode /\ exists k, skip_tens e k r = Ret r' /\
      (0 < k -> exists w i, In (w, i) B /\ 10 * k < length w)
  end.
Proof.
  intros S cb e et. induction d as [|d IH]; intros fuel lo hi off B r r' res Hd Hs Hpf Hidx Hw E; [destruct Hs|].
  destruct fuel as [|fuel]; [lia|]. cbn [read_loop] in E.
  assert (HL : lbits B <= 10) by (unfold lbits; lia).
  destruct (peek_bits_32 e r (lbits B)) as [[r0 v]| |] eqn:Ep; cbn [obind] in E; try discriminate E.
  assert (r0 = r).
  { unfold peek_bits_32 in Ep. destruct (get_bits_32 e r (lbits B)) as [[? ?]| |]; cbn [obind] in Ep; congruence. }
  subst r0.
  pose proof (peek_bound e r (lbits B) r v Hw ltac:(lia) Ep) as Hv.
  destruct (value_surj et v (lbits B) Hv) as [u [Lu Eu]].
  replace (N.to_nat (v + N.of_nat off)) with (slot et off u) in E by (unfold slot; lia).
  destruct (Hs u Lu) as [x [Nx C]]. rewrite (index_nth _ _ _ _ Nx) in E. cbn [obind] in E.
  destruct C as [[w [i [Hin [Lw [Pw ->]]]]]|[[Hs1 [o [_ [_ [Ho [-> Hso]]]]]]|[-> _]]].
  - apply lastin_in in Hin. destruct (lut_entry_fields (N.of_nat i) (length w) (Hidx w i Hin) Lw) as [F1 [F2 [F3 F4]]].
    rewrite F1, F2, F3, F4 in E. cbn [negb] in E.
    destruct (available r) as [a| |] eqn:Ea; cbn [obind] in E; try discriminate E.
    destruct (N.ltb_spec (N.of_nat a mod W32) (N.of_nat (length w))) as [Hlt|Hge].
    + injection E as <- <-. split; [reflexivity|]. exists 0. split; [reflexivity|lia].
    + rewrite !Nnat.Nat2N.id in E.
      destruct (skip_bits e r (length w)) as [r1| |] eqn:E1; cbn [obind] in E; try discriminate E.
      destruct (index_at (cb_syms cb) i) as [s| |] eqn:Ei; cbn [obind] in E; try discriminate E.
      injection E as <- <-.
      assert (K0 : (length w - 1) / 10 = 0) by lia. 
      assert (Hle : (N.of_nat a mod W32 <= N.of_nat a)%N) by (apply N.mod_le; discriminate).
      exists w, i, r, a. rewrite K0. cbn [skip_tens Nat.mul]. rewrite Nat.sub_0_r.
      repeat split; try assumption; try lia.
      unfold index_at in Ei. destruct (nth_error (cb_syms cb) i); congruence.
  - assert (Hlb : lbits (sub u B) <= 10) by (unfold lbits; lia).
    destruct (esc_entry_fields (N.of_nat o) _ Ho Hlb) as [F1 [F2 [F3 F4]]].
    rewrite F1, F2, F3, F4 in E. cbn [negb] in E.
    destruct (available r) as [a| |] eqn:Ea; cbn [obind] in E; try discriminate E.
    destruct (N.ltb_spec (N.of_nat a mod W32) (N.of_nat (lbits (sub u B)))) as [Hlt|Hge].
    + injection E as <- <-. split; [reflexivity|]. exists 0. split; [reflexivity|lia].
    + assert (EB : lbits B = 10).
      { destruct (sub u B) as [|[w i] rest] eqn:Esub; [congruence|].
        assert (Hin : In (w, i) (sub u B)) by (rewrite Esub; left; reflexivity).
        apply sub_in in Hin. destruct Hin as [Hu _]. lia. }
      rewrite EB in E. destruct (skip_bits e r 10) as [r1| |] eqn:E1; cbn [obind] in E; try discriminate E.
      rewrite Nnat.Nat2N.id in E.
      assert (Hidx' : forall w i, In (w, i) (sub u B) -> (N.of_nat i < 2 ^ 24)%N).
      { intros w i Hin. apply sub_in in Hin. apply (Hidx (u ++ w)). apply Hin. }
      pose proof (IH fuel lo hi o (sub u B) r1 r' res ltac:(lia) Hso (pf_sub u B Hpf) Hidx'
                    (cb_skip_bits e r 10 r1 Hw E1) E) as G.
      assert (Hle : (N.of_nat a mod W32 <= N.of_nat a)%N) by (apply N.mod_le; discriminate).
      destruct res as [s|err].
      * destruct G as [w [i [r2 [a2 [Hin [Hsym [Et [Ea2 [Hfit [Es _]]]]]]]]]].
        apply sub_in in Hin as Hin'. destruct Hin' as [Lu10 [Hwne Hin']].
        assert (0 < length w) by (destruct w; [congruence|cbn; lia]).
        assert (Lt : length (u ++ w) = 10 + length w) by (rewrite app_length; lia).
        assert (K : (length (u ++ w) - 1) / 10 = Datatypes.S ((length w - 1) / 10)) by (rewrite Lt; lia).
        exists (u ++ w), i, r2, a2. rewrite K. cbn [skip_tens]. rewrite E1. cbn [obind].
        replace (length (u ++ w) - 10 * Datatypes.S ((length w - 1) / 10)) with (length w - 10 * ((length w - 1) / 10)) by lia.
        split; [exact Hin'|]. split; [exact Hsym|]. split; [exact Et|]. split; [exact Ea2|]. split; [exact Hfit|].
        split; [exact Es|]. intros _. exists a. split; [reflexivity|].
        assert (Hl : Nat.min (length w) 10 <= lbits (sub u B)).
        { unfold lbits. pose proof (maxl_in (sub u B) w i Hin). lia. }
        lia.
      * destruct G as [-> [k [Ek Hk]]]. split; [reflexivity|]. exists (Datatypes.S k). cbn [skip_tens]. rewrite E1. cbn [obind].
        split; [exact Ek|]. intros _. destruct k as [|k].
        -- destruct (sub u B) as [|[w i] rest] eqn:Esub; [congruence|].
           assert (Hin : In (w, i) (sub u B)) by (rewrite Esub; left; reflexivity).
           apply sub_in in Hin. destruct Hin as [Lu10 [Hwne Hin]]. exists (u ++ w), i. split; [exact Hin|].
           rewrite app_length. destruct w; [congruence|cbn [length]; lia].
        -- destruct (Hk ltac:(lia)) as [w [i [Hin Hlen]]]. apply sub_in in Hin. destruct Hin as [Lu10 [_ Hin]].
           exists (u ++ w), i. split; [exact Hin|]. rewrite app_length. lia.
  - rewrite N.eqb_refl in E. injection E as <- <-. split; [reflexivity|]. exists 0. split; [reflexivity|lia].
Qed.

Lemma run_mixed_cbound : forall (S : Type) e (cb : codebook S) steps r0 r outs, cbound r0 ->
  run_mixed e cb r0 steps = Ret (r, outs) -> cbound r.
Proof.
  intros S e cb steps. induction steps as [|[op|d] steps IH]; intros r0 r outs Hc Hrun; cbn [run_mixed] in Hrun.
  - injection Hrun as <- _. exact Hc.
  - destruct (run_op e r0 op) as [[r1 o]| |] eqn:Eo; cbn [obind] in Hrun; try discriminate Hrun.
    destruct (run_mixed e cb r1 steps) as [[r2 os]| |] eqn:E2; cbn [obind] in Hrun; try discriminate Hrun.
    injection Hrun as <- _. apply (IH r1 r2 os); [apply (cb_run_op _ _ _ _ _ Hc Eo)|exact E2].
  - destruct (read_cb e cb r0) as [[r1 s]| |] eqn:Eo; cbn [obind] in Hrun; try discriminate Hrun.
    destruct (run_mixed e cb r1 steps) as [[r2 os]| |] eqn:E2; cbn [obind] in Hrun; try discriminate Hrun.
    injection Hrun as <- _. apply (IH r1 r2 os); [apply (cb_read_loop _ _ _ _ _ _ _ _ _ Hc Eo)|exact E2].
Qed.

Lemma read_moves : forall (S : Type) ord m (ds : list (desc S)) cb e buf r0 steps r outs r' res,
  permuting ord -> valid_description m ds -> new_codebook ord ds m = Ret (Okay cb) ->
  bytes buf -> new e buf = Ret r0 ->
  run_mixed e cb r0 steps = Ret (r, outs) -> read_cb e cb r = Ret (r', res) ->
  match res with
  | Okay s => exists d r1 a, In d ds /\ used d /\ s = d_sym d /\
      skip_tens e ((d_bits d - 1) / 10) r = Ret r1 /\ available r1 = Ret a /\
      d_bits d - 10 * ((d_bits d - 1) / 10) <= a /\
      skip_bits e r1 (d_bits d - 10 * ((d_bits d - 1) / 10)) = Ret r' /\
      (10 < d_bits d -> exists a0, available r = Ret a0 /\ Nat.min 10 (d_bits d - 10) <= a0)
  | Error err => err = InvalidCode /\ exists k, skip_tens e k r = Ret r' /\
      (0 < k -> exists d, In d ds /\ 10 * k < d_bits d)
  end.
Proof.
  intros S ord m ds cb e buf r0 steps r outs r' res Hord Hv Hcb Hb Hr Hrun Hread.
  assert (Hc : cbound r) by (eapply run_mixed_cbound; [eapply cb_new; eassumption|exact Hrun]).
  destruct (built S ord m ds cb Hord Hv Hcb) as [Hs [Hl [lo [hi Hsv]]]].
  unfold read_cb in Hread. rewrite Hl in Hread. change 0%N with (N.of_nat 0) in Hread.
  assert (Hpf : pf (items_of m (number 0 ds))) by (apply number_pf; apply Hv).
  pose proof (read_loop_moves S cb e (reader_for m) 27 27 lo hi 0 _ r r' res (le_n _) Hsv Hpf
    (valid_idx S m ds Hv) Hc Hread) as G.
  assert (Hitem : forall w i, In (w, i) (items_of m (number 0 ds)) ->
            exists d, In d ds /\ used d /\ length w = d_bits d /\ nth_error (cb_syms cb) i = Some (d_sym d)).
  { intros w i Hin. apply number_in in Hin. destruct Hin as [j [d [Hj [Hu [-> ->]]]]]. exists d.
    split; [apply (nth_error_In _ _ Hj)|]. split; [exact Hu|]. split; [unfold word; apply codeword_length|].
    rewrite Hs. cbn [plus]. apply (rank_sym S ds j d Hj Hu). }
  destruct res as [s|err].
  - destruct G as [w [i [r1 [a [Hin [Hsym [Et [Ea [Hfit [Es H10]]]]]]]]]].
    destruct (Hitem w i Hin) as [d [Hd [Hu [Lw Hsy]]]]. rewrite Lw in *. exists d, r1, a.
    split; [exact Hd|]. split; [exact Hu|]. split; [congruence|]. split; [exact Et|]. split; [exact Ea|].
    split; [exact Hfit|]. split; [exact Es|exact H10].
  - destruct G as [-> [k [Ek Hk]]]. split; [reflexivity|]. exists k. split; [exact Ek|]. intros H.
    destruct (Hk H) as [w [i [Hin Hlen]]]. destruct (Hitem w i Hin) as [d [Hd [_ [Lw _]]]]. exists d. split; [exact Hd|lia].
Qed.
