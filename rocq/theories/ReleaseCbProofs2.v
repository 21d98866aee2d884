(** Codeword reads without overflow checks. *)
From Coq Require Import List Arith NArith ZArith Bool Lia Permutation.
From Coq Require Import ZifyBool ZifyNat ZifyN.
From Verif Require Import Base BitModel BitSpec BitQueueSpec BitQueueProofs WordBitModel WordSpec WordBitProofs ReleaseModel ReleaseBitModel ReleaseBitSpec
  ReleaseBitProofs CodebookModel CodebookSpec CodebookProofs CodebookProofs2 CodebookProofs3 CodebookProofs4 CodebookProofs5 CodebookExamples CbQueueSpec CbQueueProofs CbBlockProofs CbBlockProofs2 ReleaseCbModel ReleaseCbSpec ReleaseCbProofs.
Import ListNotations.
Local Open Scope N_scope.
Ltac Zify.zify_post_hook ::= Z.div_mod_to_equations.

Lemma op_both e r op r' o : fine r -> budget r (op_skip op) -> arg_fits op -> run_op e r op = Ret (r', o) ->
  rb_run_op e (word_reader r) op = Ret (word_reader r', o) /\ within r r' (N.to_nat (op_skip op / 8)).
Proof.
  intros F B A E. split; [|exact (op_within e r op r' o F E)]. apply op_release; [|exact A|].
  - unfold w_len. cbn [w_buffer word_reader]. unfold budget in B. lia.
  - rewrite (op_word e r op F B), E. reflexivity.
Qed.

Lemma within_mono r r' a b : (a <= b)%nat -> within r r' a -> within r r' b.
Proof. intros H [A1 [A2 [A3 A4]]]. split; [exact A1|]. split; [exact A2|]. split; [exact A3|]. lia. Qed.

Lemma loop_both (S : Type) (cb : codebook S) e : N.of_nat (length (cb_table cb)) < W64 ->
  forall fuel r idx lut_bits x, fine r -> (lut_bits < 256)%nat -> budget r (N.of_nat (256 * fuel)) ->
  read_loop fuel e cb r idx lut_bits = Ret x ->
  rc_read_loop fuel e cb (word_reader r) idx lut_bits = Ret (word_reader (fst x), snd x) /\ within r (fst x) (32 * fuel).
Proof.
  intros Ht. induction fuel as [|fuel IH]; intros r idx lut_bits x F Hl B E; cbn [read_loop rc_read_loop] in *; [discriminate E|].
  destruct (peek_bits_32 e r lut_bits) as [[r0 v]| |] eqn:P; cbn [obind] in E; try discriminate E.
  assert (P' : rb_run_op e (word_reader r) (OpPeek32 lut_bits) = Ret (word_reader r, OutWord v)).
  { refine (proj1 (op_both e r (OpPeek32 lut_bits) r (OutWord v) F _ I _)); [unfold budget in *; cbn [op_skip]; lia|].
    cbn [run_op]. rewrite P. cbn [obind]. unfold peek_bits_32 in P.
    destruct (get_bits_32 e r lut_bits) as [[r1 v1]| |]; cbn [obind] in P; try discriminate P. injection P as <- <-. reflexivity. }
  cbn [rb_run_op] in P'. destruct (rb_get_bits_32 e (word_reader r) (N.of_nat lut_bits)) as [[r1 v1]| |]; cbn [obind] in P'; try discriminate P'.
  injection P' as ->. cbn [obind].
  destruct (index_at (cb_table cb) (N.to_nat (v + idx))) as [y| |] eqn:Y; cbn [obind] in E; try discriminate E.
  assert (Hv : v + idx < W64).
  { unfold index_at in Y. destruct (nth_error (cb_table cb) (N.to_nat (v + idx))) eqn:Z; [|discriminate Y].
    assert (N.to_nat (v + idx) < length (cb_table cb))%nat by (apply nth_error_Some; rewrite Z; discriminate). lia. }
  unfold radd. rewrite (N.mod_small _ _ Hv), Y. cbn [obind].
  assert (W0 : within r r (32 * Datatypes.S fuel)) by (apply (within_mono _ _ 0); [lia|apply within_refl; exact F]).
  destruct (y =? TABLE_FILL_VALUE); [injection E as <-; split; [reflexivity|exact W0]|].
  destruct (available r) as [a| |] eqn:A; cbn [obind] in E; try discriminate E.
  assert (A' : rb_available (word_reader r) = N.of_nat a).
  { destruct (op_both e r OpAvailable r (OutCount a) F) as [A' _]; [unfold budget in *; cbn [op_skip]; lia|exact I|cbn [run_op]; rewrite A; reflexivity|].
    cbn [rb_run_op] in A'. injection A' as A'. lia. }
  rewrite A'. cbv zeta in *. destruct (N.of_nat a mod W32 <? N.land y 127); [injection E as <-; split; [reflexivity|exact W0]|].
  assert (Hb : N.land y 127 < 128) by (change 127 with (N.ones 7); rewrite N.land_ones; apply N.mod_lt; discriminate).
  set (esc := negb (N.land y 128 =? 0)) in *. set (n := if esc then lut_bits else N.to_nat (N.land y 127)) in *.
  replace (if esc then N.of_nat lut_bits else N.land y 127) with (N.of_nat n) by (unfold n; destruct esc; lia).
  assert (Hn : (n < 256)%nat) by (unfold n; destruct esc; lia). clearbody n.
  destruct (skip_bits e r n) as [r'| |] eqn:K; cbn [obind] in E; try discriminate E.
  destruct (op_both e r (OpSkip n) r' OutUnit F) as [K' W]; [unfold budget in *; cbn [op_skip]; lia| |cbn [run_op]; rewrite K; reflexivity|].
  { cbn [arg_fits]. change (2 ^ 64) with 18446744073709551616. lia. }
  cbn [rb_run_op op_skip] in K', W. destruct (rb_skip_bits e (word_reader r) (N.of_nat n)) as [w| |]; cbn [obind] in K'; try discriminate K'.
  injection K' as ->. cbn [obind]. apply (within_mono _ _ _ 32) in W; [|lia]. destruct esc.
  - destruct (IH r' (N.shiftr y 8) (N.to_nat (N.land y 127)) x (within_fine _ _ _ W) ltac:(lia) ltac:(destruct W as [W1 [_ [_ W2]]]; unfold budget in *; rewrite W1 in *; lia) E) as [G1 G2].
    split; [exact G1|]. replace (32 * Datatypes.S fuel)%nat with (32 + 32 * fuel)%nat by lia. exact (within_trans _ _ _ _ _ W G2).
  - destruct (index_at (cb_syms cb) _) as [s| |]; cbn [obind] in *; try discriminate E. injection E as <-. cbn [fst snd].
    split; [reflexivity|]. apply (within_mono _ _ 32); [lia|exact W].
Qed.

Lemma mixed_both (S : Type) (cb : codebook S) e : typed_codebook cb -> forall steps r x,
  fine r -> budget r (steps_skip steps) -> Forall step_arg_fits steps -> run_mixed e cb r steps = Ret x ->
  rc_run_mixed e cb (word_reader r) steps = Ret (word_reader (fst x), snd x).
Proof.
  intros [Hl Ht]. induction steps as [|[op|d] steps IH]; intros r x F B A E; cbn [run_mixed rc_run_mixed] in *.
  - injection E as <-. reflexivity.
  - inversion A as [|? ? A1 A2]; subst. cbn [step_arg_fits] in A1.
    destruct (run_op e r op) as [[r1 o]| |] eqn:O; cbn [obind] in E; try discriminate E.
    assert (K : steps_skip (Call op :: steps) = op_skip op + steps_skip steps) by (destruct op; cbn [steps_skip op_skip]; lia). rewrite K in B.
    destruct (op_both e r op r1 o F ltac:(unfold budget in *; lia) A1 O) as [-> W]. cbn [obind].
    destruct (run_mixed e cb r1 steps) as [[r2 os]| |] eqn:M; cbn [obind] in E; try discriminate E. injection E as <-.
    rewrite (IH r1 _ (within_fine _ _ _ W) ltac:(destruct W as [W1 [_ [_ W2]]]; unfold budget in *; rewrite W1 in *; lia) A2 M). reflexivity.
  - inversion A as [|? ? A1 A2]; subst. cbn [steps_skip] in B.
    destruct (read_cb e cb r) as [[r1 s]| |] eqn:O; cbn [obind] in E; try discriminate E.
    destruct (loop_both S cb e Ht 27 r 0 (cb_lut_bits cb) _ F Hl ltac:(unfold budget in *; lia) O) as [G W]. cbn [fst snd] in *.
    unfold rc_read_cb. rewrite G. cbn [obind].
    destruct (run_mixed e cb r1 steps) as [[r2 os]| |] eqn:M; cbn [obind] in E; try discriminate E. injection E as <-.
    rewrite (IH r1 _ (within_fine _ _ _ W) ltac:(destruct W as [W1 [_ [_ W2]]]; unfold budget in *; rewrite W1 in *; lia) A2 M). reflexivity.
Qed.

Lemma release_histories (S : Type) (cb : codebook S) e buf steps r outs : typed_codebook cb ->
  8 * N.of_nat (length buf) + steps_skip steps < 2 ^ 64 -> Forall step_arg_fits steps ->
  mixed_from_new e cb buf steps = Ret (r, outs) -> rc_mixed_from_new e cb buf steps = Ret (word_reader r, outs).
Proof.
  intros Hcb B A E. change (2 ^ 64) with W64 in B. unfold mixed_from_new in E. destruct (new e buf) as [r0| |] eqn:N0; cbn [obind] in E; try discriminate E.
  set (r00 := mk_reader buf 0 0%N 0). assert (F0 : fine r00) by (split; cbn; lia).
  assert (B0 : budget r00 (steps_skip steps)) by (unfold budget, r00; cbn [index buffer]; lia).
  assert (W0 : within r00 r0 0) by (exact (refill64_within e r00 r0 F0 N0)).
  unfold rc_mixed_from_new, rb_new. change (mk_wreader buf 0 0 0) with (word_reader r00).
  rewrite (refill64_release e (word_reader r00) (word_reader r0)).
  - cbn [obind]. rewrite (mixed_both S cb e Hcb steps r0 (r, outs)); [reflexivity|exact (within_fine _ _ _ W0)| |exact A|exact E].
    destruct W0 as [W1 [_ [_ W2]]]. unfold budget in *. rewrite W1 in *. lia.
  - rewrite refill64_word; [fold (new e buf); unfold r00; unfold new in N0; rewrite N0; reflexivity|].
    apply roomy_safe; [exact F0|]. apply (budget_roomy r00 (steps_skip steps)); [exact B0|lia].
Qed.

(** ** The queue *)

Lemma rpeek_rep e buf r q n : bytes buf -> rep e buf r q -> fine r -> budget r 0 -> (n <= 32)%nat ->
  exists r1, rb_get_bits_32 e (word_reader r) (N.of_nat n) = Ret (r1, value e (snd (q_get32 (bits_of e buf) q n))).
Proof.
  intros Hb R F B Hn. destruct (op_queue e buf r q (OpPeek32 n) Hb R F B Hn) as [r' [E _]].
  cbn [rb_run_op rq_op q_op] in E. destruct (q_get32 (bits_of e buf) q n) as [q1 v]. cbn [snd] in *.
  destruct (rb_get_bits_32 e (word_reader r) (N.of_nat n)) as [[r1 w]| |]; cbn [obind] in E; try discriminate E.
  assert (w = value e v) as -> by congruence. exists r1. reflexivity.
Qed.

Lemma rskip_rep e buf r q n : bytes buf -> rep e buf r q -> fine r -> budget r (N.of_nat n) ->
  exists r', rb_skip_bits e (word_reader r) (N.of_nat n) = Ret (word_reader r') /\ rep e buf r' (q_skip (bits_of e buf) q n) /\ fine r' /\
    N.of_nat (index r') <= N.of_nat (Nat.max (index r) (length buf)) + N.of_nat n / 8.
Proof.
  intros Hb R F B. destruct (op_queue e buf r q (OpSkip n) Hb R F B I) as [r' [E [R' [F' H]]]].
  cbn [rb_run_op rq_op q_op fst op_skip] in *. exists r'.
  destruct (rb_skip_bits e (word_reader r) (N.of_nat n)) as [w| |]; cbn [obind] in E; try discriminate E.
  assert (w = word_reader r') as -> by congruence. split; [reflexivity|]. split; [exact R'|]. split; [exact F'|exact H].
Qed.

Lemma ravail_rep e buf r q n : rep e buf r q -> fine r -> budget r 0 ->
  (rb_available (word_reader r) mod W32 <? N.of_nat n) = negb (renough (bits_of e buf) q n).
Proof.
  intros R F B. assert (Eb : buffer r = buf) by (destruct R; assumption). unfold budget in B. rewrite Eb in B.
  rewrite (available_exact e buf r q R F ltac:(lia) ltac:(lia)). unfold renough. generalize (bits_left (bits_of e buf) q). intros z.
  rewrite W32_eq. change (2 ^ 64)%Z with 18446744073709551616%Z. change (2 ^ 32)%Z with 4294967296%Z.
  assert (E : (Z.to_N (z mod 18446744073709551616) mod 4294967296 = Z.to_N (z mod 4294967296))%N) by lia. rewrite E.
  destruct (Z.leb_spec (Z.of_nat n) (z mod 4294967296)); destruct (N.ltb_spec (Z.to_N (z mod 4294967296)) (N.of_nat n)); try reflexivity; lia.
Qed.

Lemma value_small e u : (length u <= 10)%nat -> value e u < 1024.
Proof.
  intros H. pose proof (BitProofs.value_bound e u) as V. apply N.lt_le_trans with (1 := V).
  change 1024 with (2 ^ 10). apply N.pow_le_mono_r; lia.
Qed.

Lemma rc_loop_queue : forall (S : Type) (cb : codebook S) e m buf, bytes buf ->
  forall rounds d fuel lo hi off B codes r q, (rounds <= fuel)%nat -> N.of_nat off < 2 ^ 24 ->
  serves d (reader_for m) (cb_table cb) lo hi off B -> matching (cb_syms cb) B codes -> pf B -> nonempty B -> B <> [] ->
  (maxl B <= 10 * rounds)%nat -> (forall w i, In (w, i) B -> (N.of_nat i < 2 ^ 24)%N) -> rep e buf r q -> fine r ->
  budget r (N.of_nat (16 * rounds)) ->
  exists r', rc_read_loop fuel e cb (word_reader r) (N.of_nat off) (lbits B)
      = Ret (word_reader r', sym_result (snd (rq_decode rounds e m (bits_of e buf) q codes))) /\
    rep e buf r' (fst (rq_decode rounds e m (bits_of e buf) q codes)) /\ fine r' /\
    N.of_nat (index r') <= N.of_nat (Nat.max (index r) (length buf)) + N.of_nat (2 * rounds).
Proof.
  intros S cb e m buf Hb. induction rounds as [|rounds IH];
    intros d fuel lo hi off B codes r q Hf Hoff Hs Hm Hpf Hnw Hne Hmax Hidx R F Bu.
  - exfalso. destruct B as [|[w i] B]; [congruence|]. specialize (Hnw w i (or_introl eq_refl)).
    pose proof (maxl_in ((w, i) :: B) w i (or_introl eq_refl)). destruct w; [congruence|cbn in *; lia].
  - destruct d as [|d]; [destruct Hs|]. destruct fuel as [|fuel]; [lia|]. cbn [rc_read_loop rq_decode].
    assert (Eb : buffer r = buf) by (destruct R; assumption).
    assert (B0 : budget r 0) by (unfold budget in *; lia).
    assert (Stay : rep e buf r q /\ fine r /\ N.of_nat (index r) <= N.of_nat (Nat.max (index r) (length buf)) + N.of_nat (2 * Datatypes.S rounds)).
    { split; [exact R|]. split; [exact F|]. lia. }
    rewrite (matching_look _ _ _ _ Hm).
    assert (HL : (lbits B <= 10)%nat) by (unfold lbits; lia).
    destruct (rpeek_rep e buf r q (lbits B) Hb R F B0 ltac:(lia)) as [rp ->]. cbn [obind].
    set (u0 := snd (q_get32 (bits_of e buf) q (lbits B))).
    set (u := as_written e m u0).
    assert (Lu : length u = lbits B) by (unfold u, u0; rewrite as_written_length, q_get32_length; reflexivity).
    rewrite (value_as_written e m u0). fold u.
    assert (Hv : value (reader_for m) u < 1024) by (apply value_small; lia).
    unfold radd. rewrite N.mod_small by (change (2 ^ 24) with 16777216 in Hoff; rewrite W64_eq; lia).
    replace (N.to_nat (value (reader_for m) u + N.of_nat off)) with (slot (reader_for m) off u) by (unfold slot; lia).
    destruct (Hs u Lu) as [x [Nx C]]. rewrite (index_nth _ _ _ _ Nx). cbn [obind].
    pose proof (matching_longer _ _ _ _ u Hm) as Hml.
    destruct C as [[w [i [Hin [Lw [Pw ->]]]]]|[[Hs1 [o [_ [_ [Ho [-> V]]]]]]|[-> [Hs1 Hno]]]].
    + apply lastin_in in Hin. (* a codeword of at most ten bits *)
      destruct (lut_entry_fields (N.of_nat i) (length w) (Hidx w i Hin) Lw) as [F1 [F2 [F3 F4]]].
      rewrite F1, F2, F3, F4. cbn [negb].
      destruct (matching_in _ _ _ _ w i Hm Hin) as [s [Hc Hsym]].
      assert (Hcomp : In (w, s) (complete u codes)) by (apply complete_in; split; [exact Hc|split; assumption]).
      destruct (complete u codes) as [|[w1 s1] rest] eqn:Ec; [destruct Hcomp|].
      assert (w1 = w /\ s1 = s) as [-> ->].
      { assert (H1 : In (w1, s1) (complete u codes)) by (rewrite Ec; left; reflexivity).
        apply complete_in in H1. destruct H1 as [Hc1 [_ P1]].
        destruct (matching_in_rev _ _ _ _ w1 s1 Hm Hc1) as [i1 [Hin1 Hs1]].
        assert (w1 = w /\ i1 = i) as [-> ->].
        { destruct (Nat.le_ge_cases (length w1) (length w)) as [Hle|Hle].
          - apply (Hpf w1 i1 w i Hin1 Hin). apply (prefix_comparable _ _ u); assumption.
          - destruct (Hpf w i w1 i1 Hin Hin1) as [-> ->]; [|split; reflexivity]. apply (prefix_comparable _ _ u); assumption. }
        split; [reflexivity|congruence]. }
      rewrite (ravail_rep e buf r q (length w) R F B0). destruct (renough (bits_of e buf) q (length w)); cbn [negb fst snd sym_result].
      * destruct (rskip_rep e buf r q (length w) Hb R F ltac:(unfold budget in *; lia)) as [r' [Er [R' [F' Hi]]]].
        rewrite Er. cbn [obind]. rewrite Nnat.Nat2N.id, (index_nth _ _ _ _ Hsym). cbn [obind]. exists r'. split; [reflexivity|].
        split; [exact R'|]. split; [exact F'|]. lia.
      * exists r. split; [reflexivity|exact Stay].
    + (* an escape *)
      assert (Hlb : (lbits (sub u B) <= 10)%nat) by (unfold lbits; lia).
      destruct (esc_entry_fields (N.of_nat o) _ Ho Hlb) as [F1 [F2 [F3 F4]]].
      rewrite F1, F2, F3, F4. cbn [negb].
      destruct (complete u codes) as [|[w1 s1] rest] eqn:Ec.
      2:{ exfalso. assert (H1 : In (w1, s1) (complete u codes)) by (rewrite Ec; left; reflexivity).
          apply complete_in in H1. destruct H1 as [Hc1 [L1 P1]].
          destruct (matching_in_rev _ _ _ _ w1 s1 Hm Hc1) as [i1 [Hin1 _]].
          exact (no_short_at_escape u B w1 i1 Hpf Hs1 Hin1 L1 P1). }
      assert (Hln : longer u codes <> []) by (intros E; apply (matching_nil _ _ _ _ Hml) in E; congruence).
      assert (Elook : look_ahead (longer u codes) = lbits (sub u B)) by apply (matching_look _ _ _ _ Hml).
      rewrite (ravail_rep e buf r q (lbits (sub u B)) R F B0).
      destruct (rskip_rep e buf r q (lbits B) Hb R F ltac:(unfold budget in *; lia)) as [r' [Er [R' [F' Hi]]]].
      assert (G : exists r2, rc_read_loop fuel e cb (word_reader r') (N.of_nat o) (lbits (sub u B))
          = Ret (word_reader r2, sym_result (snd (rq_decode rounds e m (bits_of e buf) (q_skip (bits_of e buf) q (lbits B)) (longer u codes)))) /\
        rep e buf r2 (fst (rq_decode rounds e m (bits_of e buf) (q_skip (bits_of e buf) q (lbits B)) (longer u codes))) /\ fine r2 /\
        N.of_nat (index r2) <= N.of_nat (Nat.max (index r') (length buf)) + N.of_nat (2 * rounds)).
      { apply (IH d fuel lo hi o (sub u B) (longer u codes) r' _ ltac:(lia) Ho V Hml (pf_sub u B Hpf) (nonempty_sub u B) Hs1).
        - pose proof (maxl_sub u B). lia.
        - intros w i Hin. apply sub_in in Hin. apply (Hidx (u ++ w)). apply Hin.
        - exact R'.
        - exact F'.
        - assert (Eb' : buffer r' = buf) by (destruct R'; assumption). unfold budget in *. rewrite Eb, Eb' in *. lia. }
      destruct (longer u codes) as [|c cs] eqn:El; [congruence|]. rewrite Elook.
      destruct (renough (bits_of e buf) q (lbits (sub u B))); cbn [negb fst snd sym_result].
      * rewrite Er. cbn [obind]. rewrite Nnat.Nat2N.id. destruct G as [r2 [G1 [G2 [G3 G4]]]]. exists r2. split; [exact G1|].
        split; [exact G2|]. split; [exact G3|]. lia.
      * exists r. split; [reflexivity|exact Stay].
    + (* nothing *)
      rewrite N.eqb_refl.
      destruct (complete u codes) as [|[w1 s1] rest] eqn:Ec.
      2:{ exfalso. assert (H1 : In (w1, s1) (complete u codes)) by (rewrite Ec; left; reflexivity).
          apply complete_in in H1. destruct H1 as [Hc1 [L1 P1]].
          destruct (matching_in_rev _ _ _ _ w1 s1 Hm Hc1) as [i1 [Hin1 _]]. exact (Hno w1 i1 Hin1 L1 P1). }
      apply (matching_nil _ _ _ _ Hml) in Hs1. rewrite Hs1. exists r. split; [reflexivity|exact Stay].
Qed.

Lemma rc_read_queue : forall (S : Type) ord m (ds : list (desc S)) cb e buf r q,
  permuting ord -> valid_description m ds -> new_codebook ord ds m = Ret (Okay cb) -> bytes buf -> rep e buf r q -> fine r -> budget r 416 ->
  exists r', rc_read_cb e cb (word_reader r) = Ret (word_reader r', sym_result (snd (rq_decode 26 e m (bits_of e buf) q (all_codes m ds)))) /\
    rep e buf r' (fst (rq_decode 26 e m (bits_of e buf) q (all_codes m ds))) /\ fine r' /\
    N.of_nat (index r') <= N.of_nat (Nat.max (index r) (length buf)) + 52.
Proof.
  intros S ord m ds cb e buf r q Hord Hv Hcb Hb R F Bu.
  destruct (built S ord m ds cb Hord Hv Hcb) as [Hs [Hl [lo [hi Hsv]]]].
  unfold rc_read_cb. rewrite Hl. change 0%N with (N.of_nat 0) at 1.
  apply (rc_loop_queue S cb e m buf Hb 26 27 27 lo hi 0 _ _ r q ltac:(lia) ltac:(reflexivity) Hsv); try assumption.
  - rewrite Hs. apply numbered_matching. intros j d Hj. unfold used_syms. rewrite Nat.add_0_l.
    apply (map_nth_error d_sym). exact Hj.
  - apply number_pf. apply Hv.
  - apply number_nonempty.
  - destruct (codebook_used S ord m ds cb Hcb) as [d0 [Hd0 Hu0]]. apply In_nth_error in Hd0. destruct Hd0 as [j Hj].
    intros E. assert (Hi : In (word m d0, 0 + rank ds j)%nat (items_of m (number 0 ds))).
    { apply number_in. exists j, d0. repeat split; assumption. }
    rewrite E in Hi. destruct Hi.
  - apply maxl_le. intros w i Hin. apply number_in in Hin. destruct Hin as [j [d [Hj [Hu [-> _]]]]].
    unfold word. rewrite codeword_length. apply nth_error_In in Hj. destruct Hv as [Hfit _].
    destruct (Hfit d Hj Hu) as [Hle _]. destruct m; cbn [longest] in Hle; lia.
  - apply (valid_idx S m ds Hv).
Qed.

Lemma rc_steps_queue : forall (S : Type) ord m (ds : list (desc S)) cb e buf,
  permuting ord -> valid_description m ds -> new_codebook ord ds m = Ret (Okay cb) -> bytes buf ->
  forall steps r q, rep e buf r q -> fine r -> budget r (steps_skip steps) -> Forall step_ok steps ->
  exists r', rc_run_mixed e cb (word_reader r) steps = Ret (word_reader r', snd (rq_steps e m ds (bits_of e buf) q steps)) /\
    rep e buf r' (fst (rq_steps e m ds (bits_of e buf) q steps)) /\ fine r' /\ 8 * N.of_nat (index r') < W64.
Proof.
  intros S ord m ds cb e buf Hord Hv Hcb Hb. induction steps as [|st steps IH]; intros r q R F B Hok.
  - exists r. split; [reflexivity|]. split; [exact R|]. split; [exact F|]. unfold budget in B. lia.
  - inversion Hok as [|? ? H1 H2]; subst. assert (Eb : buffer r = buf) by (destruct R; assumption).
    assert (G : exists r1, (forall k, rc_run_mixed e cb (word_reader r) (st :: k) =
        (let! (r2, os) := rc_run_mixed e cb (word_reader r1) k in Ret (r2, snd (rq_step e m ds (bits_of e buf) q st) :: os))) /\
      rep e buf r1 (fst (rq_step e m ds (bits_of e buf) q st)) /\ fine r1 /\ budget r1 (steps_skip steps)).
    { destruct st as [op|d]; cbn [step_ok rq_step] in *.
      - assert (K : steps_skip (Call op :: steps) = op_skip op + steps_skip steps) by (destruct op; cbn [steps_skip op_skip]; lia). rewrite K in B.
        destruct (op_queue e buf r q op Hb R F ltac:(unfold budget in *; lia) H1) as [r1 [E [R1 [F1 Hi]]]]. exists r1.
        destruct (rq_op e (bits_of e buf) q op) as [q1 o]. cbn [fst snd] in *. split; [intros k; cbn [rc_run_mixed]; rewrite E; reflexivity|].
        split; [exact R1|]. split; [exact F1|]. assert (Eb1 : buffer r1 = buf) by (destruct R1; assumption). unfold budget in *. rewrite Eb, Eb1 in *. lia.
      - cbn [steps_skip] in B.
        destruct (rc_read_queue S ord m ds cb e buf r q Hord Hv Hcb Hb R F ltac:(unfold budget in *; lia)) as [r1 [E [R1 [F1 Hi]]]]. exists r1.
        destruct (rq_decode 26 e m (bits_of e buf) q (all_codes m ds)) as [q1 o]. cbn [fst snd] in *. split; [intros k; cbn [rc_run_mixed]; rewrite E; reflexivity|].
        split; [exact R1|]. split; [exact F1|]. assert (Eb1 : buffer r1 = buf) by (destruct R1; assumption). unfold budget in *. rewrite Eb, Eb1 in *. lia. }
    destruct G as [r1 [E [R1 [F1 B1]]]]. destruct (IH r1 _ R1 F1 B1 H2) as [r2 [E2 [R2 [F2 Hi2]]]]. exists r2.
    rewrite E, E2. cbn [obind rq_steps]. destruct (rq_step e m ds (bits_of e buf) q st) as [q1 o]. cbn [fst snd] in *.
    destruct (rq_steps e m ds (bits_of e buf) q1 steps) as [q2 os]. cbn [fst snd] in *. split; [reflexivity|]. split; [exact R2|]. split; assumption.
Qed.

Lemma release_codewords : forall (S : Type) ord m (ds : list (desc S)), permuting ord -> valid_description m ds ->
  (exists d, In d ds /\ used d) ->
  exists cb, rc_new_codebook ord ds m = Ret (Okay cb) /\
  forall e buf steps, bytes buf -> Forall step_ok steps -> 8 * N.of_nat (length buf) + steps_skip steps < 2 ^ 64 ->
  exists r, rc_mixed_from_new e cb buf steps = Ret (r, snd (rq_mixed e m ds buf steps)) /\
    w_left r = N.of_nat (length (waiting (fst (rq_mixed e m ds buf steps)))) /\
    rb_consumed r = N.of_nat (fetched (fst (rq_mixed e m ds buf steps)) - length (waiting (fst (rq_mixed e m ds buf steps)))).
Proof.
  intros S ord m ds Hord Hv Hu. destruct (proj1 (construction_total S ord m ds Hord Hv) Hu) as [cb Hcb]. exists cb. split.
  - apply release_construction; [exact Hord| |exact Hcb]. apply Forall_forall. intros d Hd.
    destruct (Nat.eq_dec (d_bits d) 0) as [->|N0]; [lia|]. destruct (proj1 Hv d Hd ltac:(unfold used; lia)) as [Hle _]. destruct m; cbn [longest] in Hle; lia.
  - intros e buf steps Hb Hok B. change (2 ^ 64) with W64 in B. destruct (new_rep e buf Hb) as [r0 [E0 R0]].
    set (r00 := mk_reader buf 0 0%N 0). assert (F0 : fine r00) by (split; cbn; lia).
    assert (B0 : budget r00 (steps_skip steps)) by (unfold budget, r00; cbn [index buffer]; lia).
    assert (W0 : within r00 r0 0) by (exact (refill64_within e r00 r0 F0 E0)).
    unfold rc_mixed_from_new, rb_new. change (mk_wreader buf 0 0 0) with (word_reader r00).
    rewrite (refill64_release e (word_reader r00) (word_reader r0)).
    + cbn [obind]. assert (Br : budget r0 (steps_skip steps)) by (destruct W0 as [W1 [_ [_ W2]]]; unfold budget in *; rewrite W1 in *; lia).
      destruct (rc_steps_queue S ord m ds cb e buf Hord Hv Hcb Hb steps r0 _ R0 (within_fine _ _ _ W0) Br Hok) as [r [E [R [F Hi]]]].
      exists (word_reader r). unfold rq_mixed. split; [exact E|]. split; [cbn [w_left word_reader]; destruct R as [_ _ R3 _ _ _]; rewrite R3; reflexivity|].
      exact (consumed_exact e buf r _ R Hi).
    + rewrite refill64_word; [unfold r00; unfold new in E0; rewrite E0; reflexivity|].
      apply roomy_safe; [exact F0|]. apply (budget_roomy r00 (steps_skip steps)); [exact B0|lia].
Qed.

(** ** Where the queue of [CbQueueSpec] does not panic *)

Lemma enough_agrees l q n b : enough l q n = Some b -> renough l q n = b.
Proof.
  unfold enough, renough, bits_left. destruct (Nat.leb_spec (fetched q) (length l)); intros E; [|discriminate E]. injection E as <-.
  replace (Z.of_nat (length l) - Z.of_nat (fetched q) + Z.of_nat (length (waiting q)))%Z with (Z.of_nat (length l - fetched q + length (waiting q))) by lia.
  generalize (length l - fetched q + length (waiting q))%nat. intros a. change (2 ^ 32)%Z with 4294967296%Z. change (2 ^ 32) with 4294967296.
  destruct (Z.leb_spec (Z.of_nat n) (Z.of_nat a mod 4294967296)); destruct (N.leb_spec (N.of_nat n) (N.of_nat a mod 4294967296)); try reflexivity; lia.
Qed.

Lemma decode_agrees (S : Type) e m l : forall rounds q (codes : pending S) x, q_decode rounds e m l q codes = Some x -> rq_decode rounds e m l q codes = x.
Proof.
  induction rounds as [|rounds IH]; intros q codes x E; cbn [q_decode rq_decode] in *; [discriminate E|].
  destruct (complete _ codes) as [|[w s] rest].
  - destruct (longer _ codes) as [|c rest]; [congruence|].
    destruct (enough l q (look_ahead (c :: rest))) as [[|]|] eqn:En; try discriminate E; rewrite (enough_agrees _ _ _ _ En); [exact (IH _ _ _ E)|congruence].
  - destruct (enough l q (length w)) as [[|]|] eqn:En; try discriminate E; rewrite (enough_agrees _ _ _ _ En); congruence.
Qed.

Lemma codewords_agree (S : Type) e m (ds : list (desc S)) l : forall msg q x,
  q_steps e m ds l q (map Codeword msg) = Some x -> rq_steps e m ds l q (map Codeword msg) = x.
Proof.
  induction msg as [|d msg IH]; intros q x E; cbn [map q_steps rq_steps q_step rq_step] in *; [congruence|].
  unfold q_codeword in E. destruct (q_decode 26 e m l q (all_codes m ds)) as [[q1 o]|] eqn:D; [|discriminate E].
  rewrite (decode_agrees _ _ _ _ _ _ _ _ D). destruct o as [s|].
  - destruct (q_steps e m ds l q1 (map Codeword msg)) as [[q2 os]|] eqn:Q; [|discriminate E]. rewrite (IH _ _ Q). congruence.
  - destruct (q_steps e m ds l q1 (map Codeword msg)) as [[q2 os]|] eqn:Q; [|discriminate E]. rewrite (IH _ _ Q). congruence.
Qed.

(** ** Messages *)

Lemma message_count (S : Type) m (msg : list (desc S)) : Forall used msg -> (length msg <= length (message_bits m msg))%nat.
Proof.
  intros H. unfold message_bits. induction H as [|d msg Hd H IH]; [cbn; lia|]. cbn [flat_map length]. rewrite app_length.
  assert (length (word m d) = d_bits d) as -> by apply codeword_length. unfold used in Hd. lia.
Qed.
Lemma message_skip (S : Type) (msg : list (desc S)) : steps_skip (map Codeword msg) = 6912 * N.of_nat (length msg).
Proof. induction msg as [|d msg IH]; [reflexivity|]. cbn [map steps_skip length]. rewrite IH. lia. Qed.

Lemma release_message : forall (S : Type) ord m (ds msg : list (desc S)), permuting ord -> valid_description m ds ->
  (exists d, In d ds /\ used d) -> Forall (fun d => In d ds /\ used d) msg -> N.of_nat (8 * length (encode m msg)) < 2 ^ 32 ->
  exists cb r, rc_new_codebook ord ds m = Ret (Okay cb) /\
    rc_mixed_from_new (reader_for m) cb (encode m msg) (map Codeword msg) = Ret (r, map (fun d => Sym (Okay (d_sym d))) msg) /\
    rb_consumed r = N.of_nat (length (message_bits m msg)).
Proof.
  intros S ord m ds msg Hord Hv Hu Hm Hlen. destruct (proj1 (construction_total S ord m ds Hord Hv) Hu) as [cb Hcb].
  destruct (message_round_trip S ord m ds msg cb Hord Hv Hcb Hm Hlen) as [r0 [r [E0 [E1 E2]]]].
  destruct (release_codewords S ord m ds Hord Hv Hu) as [cb' [Ecb' Hrun]].
  assert (Hbytes : bytes (encode m msg)) by apply pack_bytes.
  assert (Hok : Forall step_ok (map (@Codeword S) msg)) by (apply Forall_forall; intros st Hst; apply in_map_iff in Hst; destruct Hst as [d [<- _]]; exact I).
  assert (Hcount : (length msg <= 8 * length (encode m msg))%nat).
  { apply Nat.le_trans with (length (message_bits m msg)).
    - apply message_count. eapply Forall_impl; [|exact Hm]. intros d [_ H]. exact H.
    - unfold encode. cbv zeta. rewrite pack_length. generalize (length (message_bits m msg)). clear. intros n. lia. }
  change (2 ^ 32) with 4294967296 in Hlen.
  assert (Hb : 8 * N.of_nat (length (encode m msg)) + steps_skip (map Codeword msg) < 2 ^ 64).
  { rewrite message_skip. change (2 ^ 64) with 18446744073709551616. lia. }
  destruct (Hrun (reader_for m) (encode m msg) (map Codeword msg) Hbytes Hok Hb) as [w [F1 [_ F3]]].
  destruct (codeword_queue_exact S ord m ds cb (reader_for m) (encode m msg) (map Codeword msg) Hord Hv Hcb Hbytes Hok) as [r0' [E0' Q]].
  rewrite E0 in E0'. injection E0' as <-. unfold rq_mixed, q_mixed in *.
  destruct (q_steps (reader_for m) m ds _ _ (map Codeword msg)) as [[q outs]|] eqn:D; [|rewrite E1 in Q; discriminate Q].
  rewrite (codewords_agree _ _ _ _ _ _ _ _ D) in F1, F3. cbn [fst snd] in *. destruct Q as [r2 [Q1 [_ Q3]]]. rewrite E1 in Q1.
  assert (outs = map (fun d => Sym (Okay (d_sym d))) msg /\ r2 = r) as [-> ->] by (split; congruence).
  rewrite E2 in Q3. assert (Q4 : (fetched q - length (waiting q) = length (message_bits m msg))%nat) by congruence. rewrite Q4 in F3.
  exists cb', w. split; [exact Ecb'|]. split; [exact F1|exact F3].
Qed.

(** ** Witnesses *)

Lemma permuting_id : permuting (fun _ cc => cc).
Proof. intros path cc. apply Permutation_refl. Qed.

Definition long_desc : list (desc nat) := [mk_desc 1 42 7%nat].

Lemma long_witness : exists ord (ds : list (desc nat)) d cb buf r, permuting ord /\ lengths_u8 ds /\ prefix_free MSB ds /\ In d ds /\
  rc_new_codebook ord ds MSB = Ret (Okay cb) /\ bytes buf /\ (d_bits d + 64 <= 8 * length buf)%nat /\
  window (bits_of BE buf) 0 (d_bits d) = word MSB d /\ rc_mixed_from_new BE cb buf [Codeword d] = Ret (r, [Sym (Error InvalidCode)]) /\
  exists buf' r', bytes buf' /\ window (bits_of BE buf') 0 (d_bits d) <> word MSB d /\
    rc_mixed_from_new BE cb buf' [Codeword d] = Ret (r', [Sym (Okay (d_sym d))]).
Proof.
  exists (fun _ cc => cc), long_desc, (mk_desc 1 42 7%nat). eexists _, [0; 0; 0; 0; 0; 64; 0; 0; 0; 0; 0; 0; 0; 0; 0; 0], _.
  split; [exact permuting_id|]. split; [repeat constructor; cbn; lia|].
  split. { intros [|[|i]] [|[|j]] a b Ha Hb Hij; cbn in Ha, Hb; try discriminate; congruence. }
  split; [left; reflexivity|]. split; [vm_compute; reflexivity|]. split; [repeat constructor|]. split; [cbn; lia|].
  split; [vm_compute; reflexivity|]. split; [vm_compute; reflexivity|].
  exists [0; 64; 0; 0; 0; 0; 0; 0; 0; 0; 0; 0; 0; 0; 0; 0]. eexists. split; [repeat constructor|]. split; [vm_compute; discriminate|].
  vm_compute. reflexivity.
Qed.

Lemma repeat_reads (S : Type) e (cb : codebook S) r d s : rc_read_cb e cb r = Ret (r, Okay s) ->
  forall k, rc_run_mixed e cb r (repeat (Codeword d) k) = Ret (r, repeat (Sym (Okay s)) k).
Proof. intros E. induction k as [|k IH]; [reflexivity|]. cbn [repeat rc_run_mixed]. rewrite E. cbn [obind]. rewrite IH. reflexivity. Qed.

Lemma beyond_witness : exists ord m (ds : list (desc nat)) cb buf n k r s, permuting ord /\ valid_description m ds /\
  new_codebook ord ds m = Ret (Okay cb) /\ rc_new_codebook ord ds m = Ret (Okay cb) /\ bytes buf /\
  rc_mixed_from_new (reader_for m) cb buf [Call (OpSkip n); Call (OpSkip k)] = Ret (r, [Out OutUnit; Out OutUnit]) /\
  8 * N.of_nat (length buf) < rb_consumed r /\
  (forall d times, rc_run_mixed (reader_for m) cb r (repeat (Codeword d) times) = Ret (r, repeat (Sym (Okay s)) times)) /\
  (forall d, mixed_from_new (reader_for m) cb buf [Call (OpSkip n); Call (OpSkip k); Codeword d] = Panic).
Proof.
  exists (fun _ cc => cc), MSB, (demo_desc MSB). eexists _, (repeat 255 8), 64%nat, 200%nat, _, 10%nat. split; [exact permuting_id|].
  split; [apply validb_sound; vm_compute; reflexivity|]. split; [vm_compute; reflexivity|]. split; [vm_compute; reflexivity|].
  split; [repeat constructor|]. split; [vm_compute; reflexivity|]. split; [vm_compute; reflexivity|].
  split; [intros d; apply repeat_reads; vm_compute; reflexivity|]. intros d. vm_compute. reflexivity.
Qed.

(** ** At the end of a buffer of whole blocks *)

Lemma mixed_app (S : Type) e (cb : codebook S) : forall steps r r1 o1 k, run_mixed e cb r steps = Ret (r1, o1) ->
  run_mixed e cb r (steps ++ k) = (let! (r2, o2) := run_mixed e cb r1 k in Ret (r2, o1 ++ o2)).
Proof.
  induction steps as [|[op|d] steps IH]; intros r r1 o1 k E; cbn [run_mixed app] in *.
  - injection E as <- <-. destruct (run_mixed e cb r k) as [[r2 o2]| |]; reflexivity.
  - destruct (run_op e r op) as [[r' o]| |]; cbn [obind] in *; try discriminate E.
    destruct (run_mixed e cb r' steps) as [[r'' os]| |] eqn:M; cbn [obind] in E; try discriminate E. injection E as <- <-.
    rewrite (IH _ _ _ k M). destruct (run_mixed e cb r'' k) as [[r2 o2]| |]; reflexivity.
  - destruct (read_cb e cb r) as [[r' o]| |]; cbn [obind] in *; try discriminate E.
    destruct (run_mixed e cb r' steps) as [[r'' os]| |] eqn:M; cbn [obind] in E; try discriminate E. injection E as <- <-.
    rewrite (IH _ _ _ k M). destruct (run_mixed e cb r'' k) as [[r2 o2]| |]; reflexivity.
Qed.

Lemma end_rejects : forall (S : Type) ord m (ds : list (desc S)) cb buf steps d,
  permuting ord -> valid_description m ds -> new_codebook ord ds m = Ret (Okay cb) -> typed_codebook cb ->
  bytes buf -> (length buf mod 8 = 0)%nat -> N.of_nat (8 * length buf) < 2 ^ 32 -> Forall path64_step steps ->
  steps_within m ds (bits_of (reader_for m) buf) (8 * length buf) 0 steps ->
  fst (spec_steps m (bits_of (reader_for m) buf) 0 steps) = (8 * length buf)%nat ->
  8 * N.of_nat (length buf) + steps_skip (steps ++ [Codeword d; Call OpConsumed]) < 2 ^ 64 -> Forall step_arg_fits steps ->
  exists r, rc_mixed_from_new (reader_for m) cb buf (steps ++ [Codeword d; Call OpConsumed])
      = Ret (r, snd (spec_steps m (bits_of (reader_for m) buf) 0 steps) ++ [Sym (Error InvalidCode); Out (OutCount (8 * length buf))]).
Proof.
  intros S ord m ds cb buf steps d Hord Hv Hcb Hty Hb Hm8 H32 Hp Hw Hend Hbud Hfit.
  destruct (blocks_histories S ord m ds cb buf steps Hord Hv Hcb Hb Hm8 H32 Hp Hw) as [r0 [r [E0 [E1 E2]]]].
  destruct (block_rejects S ord m ds cb buf steps r0 r _ _ Hord Hv Hcb Hb Hm8 H32 Hp Hw E0 E1 eq_refl (or_introl Hend)) as [r' [E3 E4]].
  exists (word_reader r'). apply release_histories; [exact Hty|exact Hbud|apply Forall_app; split; [exact Hfit|repeat constructor]|].
  unfold mixed_from_new. rewrite E0. cbn [obind]. rewrite (mixed_app S _ cb _ _ _ _ _ E1). cbn [run_mixed]. rewrite E3. cbn [obind run_op].
  rewrite E4. cbn [obind]. rewrite Hend. reflexivity.
Qed.
