(** Descriptions in which a codeword is a prefix of another one only within the same ten bits. *)
From Coq Require Import List Arith NArith ZArith Bool Lia Permutation.
From Coq Require Import ZifyBool ZifyNat ZifyN.
From Verif Require Import Base BitModel BitSpec BitProofs BitProofs2 BitQueueSpec BitQueueProofs CodebookModel
  CodebookSpec CodebookProofs CodebookProofs2 CodebookProofs3 CodebookProofs4 CodebookProofs5 CbQueueSpec CbQueueProofs
  CbMalformedSpec CbLevelSpec.
Import ListNotations.
Local Open Scope nat_scope.

(** ** The bit queue *)

Lemma lastin_complete : forall (S : Type) (syms : list S) B codes w i u, matching syms B codes ->
  lastin w i u B -> length w <= 10 -> is_prefix w u ->
  exists s rest, rev (complete u codes) = (w, s) :: rest /\ nth_error syms i = Some s.
Proof.
  intros S syms B codes w i u Hm [B1 [B2 [-> Hn]]] Lw Pw. unfold matching in Hm.
  apply Forall2_app_inv_l in Hm. destruct Hm as [C1 [C2' [H1 [H2 ->]]]].
  inversion H2 as [|x [w' s] B' C2 [E1 E2] H3]; subst. cbn [fst snd] in *. subst w'.
  assert (E : complete u C2 = []).
  { destruct (complete u C2) as [|[w1 s1] t] eqn:E; [reflexivity|]. exfalso.
    assert (Hin : In (w1, s1) (complete u C2)) by (rewrite E; left; reflexivity).
    apply complete_in in Hin. destruct Hin as [Hin [L1 P1]].
    destruct (matching_in_rev _ syms B2 C2 w1 s1 H3 Hin) as [i1 [Hi1 _]]. exact (Hn w1 i1 Hi1 L1 P1). }
  exists s, (rev (complete u C1)). split; [|exact E2].
  unfold complete in *. rewrite filter_app. cbn [filter fst]. rewrite E.
  change same_bits with bits_eqb. replace (length w <=? 10) with true by (symmetry; apply Nat.leb_le; exact Lw).
  replace (bits_eqb (firstn (length w) u) w) with true by (symmetry; apply bits_eqb_true; apply prefix_firstn; exact Pw).
  cbn [andb]. rewrite rev_app_distr. reflexivity.
Qed.

Lemma read_loop_last : forall (S : Type) (cb : codebook S) e m buf, bytes buf ->
  forall rounds d fuel lo hi off B codes r q, rounds <= fuel ->
  serves d (reader_for m) (cb_table cb) lo hi off B -> matching (cb_syms cb) B codes -> lpf B -> nonempty B -> B <> [] ->
  maxl B <= 10 * rounds -> (forall w i, In (w, i) B -> (N.of_nat i < 2 ^ 24)%N) -> rep e buf r q ->
  match q_decode_last rounds e m (bits_of e buf) q codes with
  | Some (q', o) => exists r', read_loop fuel e cb r (N.of_nat off) (lbits B) = Ret (r', sym_result o) /\ rep e buf r' q'
  | None => read_loop fuel e cb r (N.of_nat off) (lbits B) = Panic
  end.
Proof.
  intros S cb e m buf Hb. induction rounds as [|rounds IH];
    intros d fuel lo hi off B codes r q Hf Hs Hm Hpf Hnw Hne Hmax Hidx R.
  - exfalso. destruct B as [|[w i] B]; [congruence|]. specialize (Hnw w i (or_introl eq_refl)).
    pose proof (maxl_in ((w, i) :: B) w i (or_introl eq_refl)). destruct w; [congruence|cbn in *; lia].
  - destruct d as [|d]; [destruct Hs|]. destruct fuel as [|fuel]; [lia|]. cbn [read_loop q_decode_last].
    rewrite (matching_look _ _ _ _ Hm).
    assert (HL : lbits B <= 10) by (unfold lbits; lia).
    rewrite (peek32_rep e buf r q (lbits B) Hb R ltac:(lia)). cbn [obind].
    set (u0 := snd (q_get32 (bits_of e buf) q (lbits B))).
    set (u := as_written e m u0).
    assert (Lu : length u = lbits B) by (unfold u, u0; rewrite as_written_length, q_get32_length; reflexivity).
    rewrite (value_as_written e m u0). fold u.
    replace (N.to_nat (value (reader_for m) u + N.of_nat off)) with (slot (reader_for m) off u) by (unfold slot; lia).
    destruct (Hs u Lu) as [x [Nx C]]. rewrite (index_nth _ _ _ _ Nx). cbn [obind].
    pose proof (matching_longer _ _ _ _ u Hm) as Hml.
    destruct C as [[w [i [Hin [Lw [Pw ->]]]]]|[[Hs1 [o [_ [_ [Ho [-> V]]]]]]|[-> [Hs1 Hno]]]].
    + (* a codeword of at most ten bits *)
      pose proof Hin as Hla. apply lastin_in in Hin.
      destruct (lut_entry_fields (N.of_nat i) (length w) (Hidx w i Hin) Lw) as [F1 [F2 [F3 F4]]].
      rewrite F1, F2, F3, F4. cbn [negb].
      destruct (lastin_complete _ _ _ _ w i u Hm Hla Lw Pw) as [s [rest [Ec Hsym]]]. rewrite Ec.
      pose proof (available_enough e buf r q (length w) R) as Ha.
      destruct (enough (bits_of e buf) q (length w)) as [[|]|].
      * destruct Ha as [a [-> Hlt]]. cbn [obind]. rewrite Hlt. cbn [negb].
        rewrite !Nnat.Nat2N.id. destruct (q_skip_rep e buf r q (length w) Hb R) as [r' [Er R']].
        rewrite Er. cbn [obind]. rewrite (index_nth _ _ _ _ Hsym). cbn [obind]. exists r'. split; [reflexivity|exact R'].
      * destruct Ha as [a [-> Hlt]]. cbn [obind]. rewrite Hlt. cbn [negb]. exists r. split; [reflexivity|exact R].
      * rewrite Ha. reflexivity.
    + (* an escape *)
      assert (Hlb : lbits (sub u B) <= 10) by (unfold lbits; lia).
      destruct (esc_entry_fields (N.of_nat o) _ Ho Hlb) as [F1 [F2 [F3 F4]]].
      rewrite F1, F2, F3, F4. cbn [negb].
      destruct (complete u codes) as [|[w1 s1] rest] eqn:Ec.
      2:{ exfalso. assert (H1 : In (w1, s1) (complete u codes)) by (rewrite Ec; left; reflexivity).
          apply complete_in in H1. destruct H1 as [Hc1 [L1 P1]].
          destruct (matching_in_rev _ _ _ _ w1 s1 Hm Hc1) as [i1 [Hin1 _]].
          exact (no_short_levels u B w1 i1 Hpf Hs1 Hin1 L1 P1). }
      cbn [rev].
      assert (Hln : longer u codes <> []) by (intros E; apply (matching_nil _ _ _ _ Hml) in E; congruence).
      assert (Elook : look_ahead (longer u codes) = lbits (sub u B)) by apply (matching_look _ _ _ _ Hml).
      assert (G : match (match enough (bits_of e buf) q (lbits (sub u B)) with
                         | Some true => q_decode_last rounds e m (bits_of e buf) (q_skip (bits_of e buf) q (lbits B)) (longer u codes)
                         | Some false => Some (q, None)
                         | None => None
                         end) with
        | Some (q', o0) => exists r', (let! avail := available r in
            if (N.of_nat avail mod W32 <? N.of_nat (lbits (sub u B)))%N then Ret (r, Error InvalidCode)
            else let! r'0 := skip_bits e r (lbits B) in
                 read_loop fuel e cb r'0 (N.of_nat o) (N.to_nat (N.of_nat (lbits (sub u B))))) = Ret (r', sym_result o0) /\ rep e buf r' q'
        | None => (let! avail := available r in
            if (N.of_nat avail mod W32 <? N.of_nat (lbits (sub u B)))%N then Ret (r, Error InvalidCode)
            else let! r'0 := skip_bits e r (lbits B) in
                 read_loop fuel e cb r'0 (N.of_nat o) (N.to_nat (N.of_nat (lbits (sub u B))))) = Panic
        end).
      { pose proof (available_enough e buf r q (lbits (sub u B)) R) as Ha.
        destruct (enough (bits_of e buf) q (lbits (sub u B))) as [[|]|].
        - destruct Ha as [a [-> Hlt]]. cbn [obind]. rewrite Hlt. cbn [negb].
          destruct (q_skip_rep e buf r q (lbits B) Hb R) as [r' [Er R']]. rewrite Er. cbn [obind].
          rewrite Nnat.Nat2N.id.
          apply (IH d fuel lo hi o (sub u B) (longer u codes) r' _ ltac:(lia) V Hml (lpf_sub u B Hpf) (nonempty_sub u B) Hs1).
          + pose proof (maxl_sub u B). lia.
          + intros w i Hin. apply sub_in in Hin. apply (Hidx (u ++ w)). apply Hin.
          + exact R'.
        - destruct Ha as [a [-> Hlt]]. cbn [obind]. rewrite Hlt. cbn [negb]. exists r. split; [reflexivity|exact R].
        - rewrite Ha. reflexivity. }
      destruct (longer u codes) as [|c cs] eqn:El; [congruence|]. rewrite Elook. exact G.
    + (* nothing *)
      rewrite N.eqb_refl.
      destruct (complete u codes) as [|[w1 s1] rest] eqn:Ec.
      2:{ exfalso. assert (H1 : In (w1, s1) (complete u codes)) by (rewrite Ec; left; reflexivity).
          apply complete_in in H1. destruct H1 as [Hc1 [L1 P1]].
          destruct (matching_in_rev _ _ _ _ w1 s1 Hm Hc1) as [i1 [Hin1 _]]. exact (Hno w1 i1 Hin1 L1 P1). }
      cbn [rev]. apply (matching_nil _ _ _ _ Hml) in Hs1. rewrite Hs1. exists r. split; [reflexivity|exact R].
Qed.

Lemma read_cb_last : forall (S : Type) ord m (ds : list (desc S)) cb e buf r q,
  permuting ord -> codes_fit m ds -> same_level m ds -> small_enough m ds -> new_codebook ord ds m = Ret (Okay cb) -> bytes buf -> rep e buf r q ->
  match q_decode_last 26 e m (bits_of e buf) q (all_codes m ds) with
  | Some (q', o) => exists r', read_cb e cb r = Ret (r', sym_result o) /\ rep e buf r' q'
  | None => read_cb e cb r = Panic
  end.
Proof.
  intros S ord m ds cb e buf r q Hord Hf Hlv Hsm Hcb Hb R.
  destruct (built_levels S ord m ds cb Hord Hf Hlv Hsm Hcb) as [Hs [Hl [lo [hi Hsv]]]].
  unfold read_cb. rewrite Hl. change 0%N with (N.of_nat 0).
  apply (read_loop_last S cb e m buf Hb 26 27 27 lo hi 0 _ _ r q ltac:(lia) Hsv).
  - rewrite Hs. apply numbered_matching. intros j d Hj. unfold used_syms. rewrite Nat.add_0_l.
    apply (map_nth_error d_sym). exact Hj.
  - apply number_lpf. exact Hlv.
  - apply number_nonempty.
  - destruct (codebook_used S ord m ds cb Hcb) as [d0 [Hd0 Hu0]]. apply In_nth_error in Hd0. destruct Hd0 as [j Hj].
    intros E. assert (Hi : In (word m d0, 0 + rank ds j) (items_of m (number 0 ds))).
    { apply number_in. exists j, d0. repeat split; assumption. }
    rewrite E in Hi. destruct Hi.
  - apply maxl_le. intros w i Hin. apply number_in in Hin. destruct Hin as [j [d [Hj [Hu [-> _]]]]].
    unfold word. rewrite codeword_length. apply nth_error_In in Hj.
    destruct (Hf d Hj Hu) as [Hle _]. destruct m; cbn [longest] in Hle; lia.
  - apply (small_idx_items S m ds Hsm).
  - exact R.
Qed.

Lemma mixed_last : forall (S : Type) ord m (ds : list (desc S)) cb e buf,
  permuting ord -> codes_fit m ds -> same_level m ds -> small_enough m ds -> new_codebook ord ds m = Ret (Okay cb) -> bytes buf ->
  forall steps r q, rep e buf r q -> Forall step_ok steps ->
  match q_steps_last e m ds (bits_of e buf) q steps with
  | Some (q', os) => exists r', run_mixed e cb r steps = Ret (r', os) /\ rep e buf r' q'
  | None => run_mixed e cb r steps = Panic
  end.
Proof.
  intros S ord m ds cb e buf Hord Hf Hlv Hsm Hcb Hb. induction steps as [|[op|d] steps IH]; intros r q R Hok; cbn [q_steps_last run_mixed].
  - exists r. split; [reflexivity|exact R].
  - inversion Hok as [|? ? H1 H2]; subst. cbn [step_ok q_step_last] in *. pose proof (q_op_rep e buf r q op Hb R H1) as G.
    destruct (q_op e (bits_of e buf) q op) as [[q1 o]|].
    + destruct G as [r1 [E R1]]. rewrite E. cbn [obind]. specialize (IH r1 q1 R1 H2).
      destruct (q_steps_last e m ds (bits_of e buf) q1 steps) as [[q2 os]|].
      * destruct IH as [r2 [E2 R2]]. rewrite E2. cbn [obind]. exists r2. split; [reflexivity|exact R2].
      * rewrite IH. reflexivity.
    + rewrite G. reflexivity.
  - inversion Hok as [|? ? H1 H2]; subst. cbn [q_step_last] in *.
    pose proof (read_cb_last S ord m ds cb e buf r q Hord Hf Hlv Hsm Hcb Hb R) as G.
    destruct (q_decode_last 26 e m (bits_of e buf) q (all_codes m ds)) as [[q1 o]|].
    + destruct G as [r1 [E R1]]. rewrite E. cbn [obind]. specialize (IH r1 q1 R1 H2).
      destruct o as [s|]; cbn [sym_result];
        (destruct (q_steps_last e m ds (bits_of e buf) q1 steps) as [[q2 os]|];
         [destruct IH as [r2 [E2 R2]]; rewrite E2; cbn [obind]; exists r2; split; [reflexivity|exact R2]
         |rewrite IH; reflexivity]).
    + rewrite G. reflexivity.
Qed.

Lemma last_queue_exact : forall (S : Type) ord m (ds : list (desc S)) cb e buf steps,
  permuting ord -> codes_fit m ds -> same_level m ds -> small_enough m ds -> new_codebook ord ds m = Ret (Okay cb) -> bytes buf -> Forall step_ok steps ->
  exists r0, new e buf = Ret r0 /\
  match q_mixed_last e m ds buf steps with
  | Some (q, outs) => exists r, run_mixed e cb r0 steps = Ret (r, outs) /\
      left r = length (waiting q) /\ consumed r = Ret (fetched q - length (waiting q))
  | None => run_mixed e cb r0 steps = Panic
  end.
Proof.
  intros S ord m ds cb e buf steps Hord Hf Hlv Hsm Hcb Hb Hok. destruct (new_rep e buf Hb) as [r0 [E0 R0]].
  exists r0. split; [exact E0|]. pose proof (mixed_last S ord m ds cb e buf Hord Hf Hlv Hsm Hcb Hb steps r0 _ R0 Hok) as G.
  unfold q_mixed_last. destruct (q_steps_last e m ds (bits_of e buf) _ steps) as [[q os]|]; [|exact G].
  destruct G as [r [E R]]. exists r. split; [exact E|]. split; [apply R|]. apply (rep_consumed e buf). exact R.
Qed.

(** ** Reads away from the end of the buffer *)

Lemma sub_app : forall u A B, sub u (A ++ B) = sub u A ++ sub u B.
Proof. intros u A B. unfold sub. apply flat_map_app. Qed.

(** The last codeword that comes next is decoded. *)
Lemma decode_last : forall (S : Type) e (cb : codebook S) d fuel lo hi off B1 w i B2 r p s, d <= fuel ->
  serves d e (cb_table cb) lo hi off (B1 ++ (w, i) :: B2) -> lpf (B1 ++ (w, i) :: B2) -> w <> [] ->
  (forall w' i', In (w', i') (B1 ++ (w, i) :: B2) -> (N.of_nat i' < 2 ^ 24)%N) ->
  inv e r p -> nth_error (cb_syms cb) i = Some s ->
  window (bits_of e (buffer r)) p (length w) = w ->
  (forall w' i', In (w', i') B2 -> window (bits_of e (buffer r)) p (length w') <> w') ->
  p + length w + 65 <= 8 * length (buffer r) -> (N.of_nat (8 * length (buffer r)) < W32)%N ->
  exists r', read_loop fuel e cb r (N.of_nat off) (lbits (B1 ++ (w, i) :: B2)) = Ret (r', Okay s) /\
    inv e r' (p + length w) /\ buffer r' = buffer r.
Proof.
  intros S e cb. induction d as [|d IH]; intros fuel lo hi off B1 w i B2 r p s Hd Hs Hpf Hwn Hidx I Hsym Hw Hlast Hr H32; [destruct Hs|].
  destruct fuel as [|fuel]; [lia|]. cbn [read_loop]. set (B := B1 ++ (w, i) :: B2) in *.
  assert (Hin : In (w, i) B) by (apply in_or_app; right; left; reflexivity).
  assert (HL : lbits B <= 10) by (unfold lbits; lia).
  assert (Lwp : 0 < length w) by (destruct w; [congruence|cbn; lia]).
  destruct (peek_result e r p (lbits B) I ltac:(lia)) as [k [Ep [Hk [Hpk Hx]]]].
  assert (k = lbits B) by lia. subst k. clear Hx.
  rewrite Ep. cbn [obind]. rewrite Nat.sub_diag. cbn [zeros repeat]. rewrite app_nil_r.
  set (u := window (bits_of e (buffer r)) p (lbits B)) in *.
  assert (Lu : length u = lbits B) by (apply window_length; rewrite bits_of_length; lia).
  destruct (Hs u Lu) as [x [Hnth Hcase]].
  replace (N.to_nat (value e u + N.of_nat off)) with (slot e off u) by (unfold slot; lia).
  rewrite (index_nth _ _ _ _ Hnth). cbn [obind].
  assert (Hmax := maxl_in B w i Hin).
  assert (Hpre : forall w' i', In (w', i') B -> length w' <= 10 -> is_prefix w' u <-> window (bits_of e (buffer r)) p (length w') = w').
  { intros w' i' Hi' Hl'. rewrite prefix_firstn. unfold u. pose proof (maxl_in B w' i' Hi').
    rewrite window_firstn by (unfold lbits; lia). reflexivity. }
  assert (Hlong : 10 < length w -> lbits B = 10 /\ u = firstn 10 w).
  { intros Hl. assert (E10 : lbits B = 10) by (unfold lbits; lia). split; [exact E10|].
    unfold u. rewrite E10. rewrite <- Hw at 1. rewrite window_firstn by lia. reflexivity. }
  rewrite (available_inv e r p I).
  assert (Hav : forall b, b <= 10 -> (N.of_nat (8 * length (buffer r) - p) mod W32 <? N.of_nat b)%N = false).
  { intros b Hb. apply N.ltb_ge. rewrite N.mod_small by lia. lia. }
  destruct Hcase as [[w' [i' [Hin' [Hl' [Hp' ->]]]]]|[[Hsub [o [Ho1 [Ho2 [Ho3 [-> Hso]]]]]]|[-> [Hsub Hno]]]].
  - (* a short word *)
    assert (w' = w /\ i' = i) as [-> ->].
    { destruct (Nat.le_gt_cases (length w) 10) as [Hl|Hl].
      - apply (lastin_unique w' i' w i u B Hin'); try assumption.
        + exists B1, B2. split; [reflexivity|]. intros w2 i2 H2 L2 P2. apply (Hlast w2 i2 H2).
          apply (Hpre w2 i2); [apply in_or_app; right; right; exact H2|exact L2|exact P2].
        + apply (Hpre w i Hin Hl). exact Hw.
      - exfalso. destruct (Hlong Hl) as [_ Eu]. apply lastin_in in Hin'.
        assert (P : is_prefix w' w) by (apply (prefix_trans _ u); [exact Hp'|]; rewrite Eu; apply prefix_of_firstn).
        pose proof (Hpf _ _ _ _ Hin' Hin P) as E. rewrite (Nat.div_small (length w' - 1)) in E by lia.
        symmetry in E. apply Nat.div_small_iff in E; lia. }
    destruct (lut_entry_fields (N.of_nat i) (length w) (Hidx _ _ Hin) Hl') as [F1 [F2 [F3 F4]]].
    rewrite F1, F2, F3, F4. cbn [negb obind]. rewrite Hav by lia. cbn [negb].
    rewrite Nnat.Nat2N.id.
    destruct (skip_bits_exact e r p (length w) I ltac:(lia)) as [r' [Er [I' B']]]. rewrite Er. cbn [obind].
    rewrite Nnat.Nat2N.id, (index_nth _ _ _ _ Hsym). cbn [obind].
    exists r'. split; [reflexivity|]. split; assumption.
  - (* an escape *)
    assert (Hl : 10 < length w).
    { apply Nat.nle_gt. intros Hl. apply (no_short_levels u B w i Hpf Hsub Hin Hl). apply (Hpre w i Hin Hl). exact Hw. }
    destruct (Hlong Hl) as [HL10 Eu].
    assert (Hlb : lbits (sub u B) <= 10) by (unfold lbits; lia).
    destruct (esc_entry_fields (N.of_nat o) (lbits (sub u B)) Ho3 Hlb) as [F1 [F2 [F3 F4]]].
    rewrite F1, F2, F3, F4. cbn [negb obind]. rewrite Hav by lia. cbn [negb].
    destruct (skip_bits_exact e r p (lbits B) I ltac:(lia)) as [r1 [Er [I1 Br]]]. rewrite Er. cbn [obind].
    rewrite Nnat.Nat2N.id.
    assert (Es : sub u B = sub u B1 ++ (skipn 10 w, i) :: sub u B2).
    { unfold B. rewrite sub_app. f_equal. change ((w, i) :: B2) with ([(w, i)] ++ B2). rewrite sub_app. f_equal.
      unfold sub. cbn [flat_map]. rewrite app_nil_r. unfold sub_one. cbn [fst snd].
      replace (10 <? length w) with true by (symmetry; apply Nat.ltb_lt; exact Hl).
      replace (bits_eqb (firstn 10 w) u) with true by (symmetry; apply bits_eqb_true; congruence). reflexivity. }
    assert (Ls : length (skipn 10 w) = length w - 10) by apply skipn_length.
    rewrite Es in Hso |- *. pose proof (lpf_sub u B Hpf) as Hpf'. rewrite Es in Hpf'.
    assert (Hidx' : forall w' i', In (w', i') (sub u B) -> (N.of_nat i' < 2 ^ 24)%N).
    { intros w' i' H'. apply sub_in in H'. apply (Hidx (u ++ w')). apply H'. }
    rewrite Es in Hidx'.
    destruct (IH fuel lo hi o (sub u B1) (skipn 10 w) i (sub u B2) r1 (p + lbits B) s ltac:(lia) Hso Hpf') as [r' [E' [I' B']]].
    + intros Hn. rewrite Hn in Ls. cbn in Ls. lia.
    + exact Hidx'.
    + exact I1.
    + exact Hsym.
    + rewrite Br, Ls, HL10. rewrite <- (window_skipn _ _ (length w)) by lia. rewrite Hw. reflexivity.
    + intros w2 i2 H2 Hc. apply sub_in in H2. destruct H2 as [Lu10 [_ H2]].
      apply (Hlast _ _ H2). rewrite app_length, Lu10, window_split. rewrite Br, HL10 in Hc. rewrite Hc. f_equal.
      unfold u. rewrite HL10. reflexivity.
    + rewrite Br, Ls. lia.
    + rewrite Br. exact H32.
    + exists r'. split; [exact E'|]. split; [|congruence].
      replace (p + length w) with (p + lbits B + length (skipn 10 w)) by lia. exact I'.
  - (* a blank entry *)
    exfalso. destruct (Nat.le_gt_cases (length w) 10) as [Hl|Hl].
    + apply (Hno _ _ Hin Hl). apply (Hpre w i Hin Hl). exact Hw.
    + destruct (Hlong Hl) as [_ Eu].
      assert (Hin2 : In (skipn 10 w, i) (sub u B)).
      { apply sub_in. rewrite Eu. split; [rewrite firstn_length; lia|]. split.
        - intros Hn. apply (f_equal (@length bool)) in Hn. rewrite skipn_length in Hn. cbn in Hn. lia.
        - rewrite firstn_skipn. exact Hin. }
      rewrite Hsub in Hin2. destruct Hin2.
Qed.

Lemma last_match_codes : forall (S : Type) m (ds : list (desc S)) l d, last_match m ds l = Some d ->
  In d ds /\ used d /\ firstn (length (word m d)) l = word m d /\
  exists C1 C2, all_codes m ds = C1 ++ (word m d, d_sym d) :: C2 /\
    forall w s, In (w, s) C2 -> firstn (length w) l <> w.
Proof.
  assert (None_codes : forall (S : Type) m (ds : list (desc S)) l, last_match m ds l = None ->
    forall w s, In (w, s) (all_codes m ds) -> firstn (length w) l <> w).
  { intros S m ds l. induction ds as [|d0 ds IH]; cbn [last_match]; intros H w s Hin; [destruct Hin|].
    destruct (last_match m ds l); [discriminate|]. unfold all_codes in *. cbn [filter] in Hin.
    destruct (0 <? d_bits d0); [|apply (IH eq_refl w s Hin)]. cbn [map] in Hin. destruct Hin as [Hin|Hin]; [|apply (IH eq_refl w s Hin)].
    injection Hin as <- _. cbn [andb] in H. unfold starts in H. destruct (list_eq_dec bool_dec _ _) as [E|E]; [discriminate|exact E]. }
  intros S m ds l. induction ds as [|d0 ds IH]; intros d H; cbn [last_match] in H; [discriminate|].
  destruct (last_match m ds l) as [d1|] eqn:E1.
  - injection H as ->. destruct (IH d eq_refl) as [H1 [H2 [H3 [C1 [C2 [H4 H5]]]]]].
    split; [right; exact H1|]. split; [exact H2|]. split; [exact H3|]. unfold all_codes in *. cbn [filter].
    destruct (0 <? d_bits d0).
    + cbn [map]. exists ((word m d0, d_sym d0) :: C1), C2. rewrite H4. split; [reflexivity|exact H5].
    + exists C1, C2. split; [exact H4|exact H5].
  - destruct ((0 <? d_bits d0) && starts (word m d0) l) eqn:E2; [|discriminate]. injection H as <-.
    apply andb_true_iff in E2. destruct E2 as [E2 E3]. split; [left; reflexivity|]. split; [apply Nat.ltb_lt; exact E2|].
    split; [unfold starts in E3; destruct (list_eq_dec bool_dec _ _) as [E|E]; [exact E|discriminate]|].
    exists [], (all_codes m ds). unfold all_codes. cbn [filter]. rewrite E2. split; [reflexivity|].
    intros w s Hin. apply (None_codes S m ds l E1 w s Hin).
Qed.

Lemma read_cb_last_hit : forall (S : Type) ord m (ds : list (desc S)) cb r p d,
  permuting ord -> codes_fit m ds -> same_level m ds -> small_enough m ds -> new_codebook ord ds m = Ret (Okay cb) ->
  inv (reader_for m) r p -> last_match m ds (skipn p (bits_of (reader_for m) (buffer r))) = Some d ->
  p + d_bits d + 65 <= 8 * length (buffer r) -> (N.of_nat (8 * length (buffer r)) < W32)%N ->
  exists r', read_cb (reader_for m) cb r = Ret (r', Okay (d_sym d)) /\
    inv (reader_for m) r' (p + d_bits d) /\ buffer r' = buffer r.
Proof.
  intros S ord m ds cb r p d Hord Hf Hlv Hsm Hcb I Hd Hr H32.
  destruct (built_levels S ord m ds cb Hord Hf Hlv Hsm Hcb) as [Hs [Hl [lo [hi Hsv]]]].
  assert (Hm : matching (cb_syms cb) (items_of m (number 0 ds)) (all_codes m ds)).
  { rewrite Hs. apply numbered_matching. intros j x Hj. unfold used_syms. rewrite Nat.add_0_l.
    apply (map_nth_error d_sym). exact Hj. }
  pose proof (number_lpf S m ds Hlv) as Hpf. pose proof (small_idx_items S m ds Hsm) as Hidx.
  destruct (last_match_codes S m ds _ d Hd) as [Hin [Hu [Hw [C1 [C2 [Ec Hno]]]]]].
  rewrite Ec in Hm. unfold matching in Hm. apply Forall2_app_inv_r in Hm. destruct Hm as [B1 [B2' [M1 [M2 EB]]]].
  inversion M2 as [|[w i] y B2 C' [E1 E2] M3]; subst. cbn [fst snd] in E1, E2. subst w.
  assert (Lw : length (word m d) = d_bits d) by apply codeword_length.
  unfold read_cb. rewrite Hl. rewrite <- Lw. change 0%N with (N.of_nat 0). rewrite EB in *.
  apply (decode_last S (reader_for m) cb 27 27 lo hi 0 B1 (word m d) i B2 r p (d_sym d) (le_n _) Hsv Hpf); try assumption.
  - intros E. rewrite E in Lw. cbn in Lw. unfold used in Hu. lia.
  - intros w' i' H' Hc. destruct (matching_in _ _ B2 C2 w' i' M3 H') as [s' [H2 _]]. exact (Hno w' s' H2 Hc).
  - rewrite Lw. exact Hr.
Qed.

Lemma run_mixed_last : forall (S : Type) ord m (ds : list (desc S)) cb,
  permuting ord -> codes_fit m ds -> same_level m ds -> small_enough m ds -> new_codebook ord ds m = Ret (Okay cb) ->
  forall steps r p, inv (reader_for m) r p -> 72 <= 8 * length (buffer r) ->
  (N.of_nat (8 * length (buffer r)) < W32)%N ->
  steps_last m ds (bits_of (reader_for m) (buffer r)) (8 * length (buffer r) - 72) p steps ->
  exists r', run_mixed (reader_for m) cb r steps =
      Ret (r', snd (spec_steps m (bits_of (reader_for m) (buffer r)) p steps)) /\
    inv (reader_for m) r' (fst (spec_steps m (bits_of (reader_for m) (buffer r)) p steps)) /\ buffer r' = buffer r.
Proof.
  intros S ord m ds cb Hord Hf Hlv Hsm Hcb. induction steps as [|[op|d] steps IH]; intros r p I Hlen H32 Hw.
  - exists r. split; [reflexivity|]. split; [exact I|reflexivity].
  - cbn [steps_last] in Hw. destruct Hw as [Hok [Hp Hw]].
    destruct (run_op_exact (reader_for m) r p op I Hok ltac:(lia)) as [r1 [E1 [I1 B1]]].
    cbn [run_mixed spec_steps]. rewrite E1. cbn [obind].
    destruct (spec_op (reader_for m) (bits_of (reader_for m) (buffer r)) p op) as [p1 o1] eqn:Es. cbn [fst snd] in *.
    rewrite <- B1 in Hw, Hlen, H32. destruct (IH r1 p1 I1 Hlen H32 Hw) as [r2 [E2 [I2 B2]]].
    rewrite E2. cbn [obind]. rewrite B1 in *.
    destruct (spec_steps m (bits_of (reader_for m) (buffer r)) p1 steps) as [p2 os]. cbn [fst snd] in *.
    exists r2. split; [reflexivity|]. split; [exact I2|congruence].
  - cbn [steps_last] in Hw. destruct Hw as [Hp [Hd Hw]].
    destruct (read_cb_last_hit S ord m ds cb r p d Hord Hf Hlv Hsm Hcb I Hd ltac:(lia) H32) as [r1 [E1 [I1 B1]]].
    cbn [run_mixed spec_steps]. rewrite E1. cbn [obind].
    rewrite <- B1 in Hw, Hlen, H32. destruct (IH r1 _ I1 Hlen H32 Hw) as [r2 [E2 [I2 B2]]].
    rewrite E2. cbn [obind]. rewrite B1 in *.
    destruct (spec_steps m (bits_of (reader_for m) (buffer r)) (p + d_bits d) steps) as [p2 os]. cbn [fst snd] in *.
    exists r2. split; [reflexivity|]. split; [exact I2|congruence].
Qed.

Lemma last_histories : forall (S : Type) ord m (ds : list (desc S)) cb buf steps,
  permuting ord -> codes_fit m ds -> same_level m ds -> small_enough m ds -> new_codebook ord ds m = Ret (Okay cb) ->
  bytes buf -> 9 <= length buf -> (N.of_nat (8 * length buf) < 2 ^ 32)%N ->
  steps_last m ds (bits_of (reader_for m) buf) (8 * length buf - 72) 0 steps ->
  exists r0 r, new (reader_for m) buf = Ret r0 /\
    run_mixed (reader_for m) cb r0 steps = Ret (r, snd (spec_steps m (bits_of (reader_for m) buf) 0 steps)) /\
    consumed r = Ret (fst (spec_steps m (bits_of (reader_for m) buf) 0 steps)).
Proof.
  intros S ord m ds cb buf steps Hord Hf Hlv Hsm Hcb Hb Hlen H32 Hw.
  destruct (new_inv (reader_for m) buf Hb) as [r0 [E0 [I0 B0]]].
  rewrite <- B0 in Hlen, H32, Hw.
  destruct (run_mixed_last S ord m ds cb Hord Hf Hlv Hsm Hcb steps r0 0 I0 ltac:(lia) H32 Hw) as [r [E [I _]]].
  exists r0, r. rewrite <- B0 at 2 3. split; [exact E0|]. split; [exact E|]. apply (consumed_inv _ _ _ I).
Qed.

Lemma last_unmatched : forall (S : Type) ord m (ds : list (desc S)) cb buf steps r0 r outs p,
  permuting ord -> codes_fit m ds -> same_level m ds -> small_enough m ds -> new_codebook ord ds m = Ret (Okay cb) ->
  bytes buf -> 9 <= length buf -> (N.of_nat (8 * length buf) < 2 ^ 32)%N ->
  steps_last m ds (bits_of (reader_for m) buf) (8 * length buf - 72) 0 steps ->
  new (reader_for m) buf = Ret r0 -> run_mixed (reader_for m) cb r0 steps = Ret (r, outs) ->
  p = fst (spec_steps m (bits_of (reader_for m) buf) 0 steps) ->
  (forall d, In d ds -> used d -> p + d_bits d + 64 <= 8 * length buf) ->
  last_match m ds (skipn p (bits_of (reader_for m) buf)) = None ->
  exists r', read_cb (reader_for m) cb r = Ret (r', Error InvalidCode).
Proof.
  intros S ord m ds cb buf steps r0 r outs p Hord Hf Hlv Hsm Hcb Hb Hlen H32 Hw E0 Er Hp Hfar Hnone.
  assert (Hno : forall d, In d ds -> used d -> ~ is_prefix (word m d) (skipn p (bits_of (reader_for m) buf))).
  { revert Hnone. clear. induction ds as [|d0 ds IH]; cbn [last_match]; intros H d Hd Hu Hp; [destruct Hd|].
    destruct (last_match m ds _) as [d1|]; [discriminate|]. destruct Hd as [<-|Hd]; [|exact (IH eq_refl d Hd Hu Hp)].
    apply prefix_firstn in Hp. unfold used in Hu. apply Nat.ltb_lt in Hu. rewrite Hu in H. cbn [andb] in H.
    unfold starts in H. destruct (list_eq_dec bool_dec _ _) as [E|E]; [discriminate|congruence]. }
  destruct (new_inv (reader_for m) buf Hb) as [r0' [E0' [I0 B0]]]. rewrite E0 in E0'. injection E0' as <-.
  pose proof Hw as Hw'. rewrite <- B0 in Hlen, H32, Hw'.
  destruct (run_mixed_last S ord m ds cb Hord Hf Hlv Hsm Hcb steps r0 0 I0 ltac:(lia) H32 Hw') as [r1 [E [I Br]]].
  rewrite Er in E. injection E as <- _. rewrite B0 in *. rewrite <- Hp in I.
  destruct (built_levels S ord m ds cb Hord Hf Hlv Hsm Hcb) as [Hs [Hl [lo [hi Hsv]]]].
  unfold read_cb. rewrite Hl.
  destruct (codebook_used S ord m ds cb Hcb) as [d0 [Hd0 Hu0]].
  assert (Hin0 : exists i, In (word m d0, i) (items_of m (number 0 ds))).
  { pose proof Hd0 as Hd1. apply In_nth_error in Hd1. destruct Hd1 as [j Hj]. exists (0 + rank ds j). apply number_in. exists j, d0.
    split; [exact Hj|]. split; [exact Hu0|]. split; reflexivity. }
  apply (decode_miss (reader_for m) cb 27 27 lo hi 0 _ r p (le_n _) Hsv).
  - destruct Hin0 as [i Hi]. intros E. rewrite E in Hi. destruct Hi.
  - apply (small_idx_items S m ds Hsm).
  - exact I.
  - intros w i Hin Hc. apply number_in in Hin. destruct Hin as [j [d [Hj [Hu [-> _]]]]].
    apply nth_error_In in Hj. apply (Hno d Hj Hu). apply prefix_firstn. unfold window in Hc. rewrite Br in Hc. exact Hc.
  - rewrite Br.
    assert (Hm : maxl (items_of m (number 0 ds)) <= 8 * length buf - 64 - p).
    { apply maxl_le. intros w i Hin. apply number_in in Hin. destruct Hin as [j [d [Hj [Hu [-> _]]]]].
      apply nth_error_In in Hj. unfold word. rewrite codeword_length. pose proof (Hfar d Hj Hu). lia. }
    pose proof (Hfar d0 Hd0 Hu0). lia.
  - rewrite Br. exact H32.
Qed.

(** ** Which descriptions these are *)

Lemma level_covers : forall (S : Type) m (ds : list (desc S)),
  prefix_free m ds \/ (forall d, In d ds -> d_bits d <= 10) -> same_level m ds.
Proof.
  intros S m ds [H|H]; [apply prefix_free_level; exact H|].
  intros d d' Hd Hd' _ _ _. pose proof (H d Hd). pose proof (H d' Hd').
  rewrite !Nat.div_small by lia. reflexivity.
Qed.
