(** Proofs for C197. *)
From Coq Require Import List Arith NArith ZArith Bool Lia.
From Coq Require Import ZifyBool ZifyNat ZifyN.
From Verif Require Import Base BitModel BitSpec BitQueueSpec BitProofs BitQueueProofs CodebookModel CodebookSpec CodebookProofs CbQueueSpec CbQueueProofs CompleteProofs CodebookExamples CbLoopSpec.
From Verif Require CompleteSpec.
Import ListNotations.
Local Open Scope nat_scope.
Ltac Zify.zify_post_hook ::= Z.div_mod_to_equations.

(** Bits that can still be fetched and read. *)
Definition mu (l : list bool) (q : queue) : nat := length (waiting q) + 64 * ((length l - fetched q) / 64).

Lemma skip_facts : forall l q n, 1 <= n <= 10 -> fetched q <= length l -> length (waiting q) <= fetched q ->
  fetched (q_skip l q n) <= length l /\ length (waiting (q_skip l q n)) <= fetched (q_skip l q n) /\
  (fetched (q_skip l q n)) mod 64 = fetched q mod 64 /\
  (mu l q = 0 -> q_skip l q n = q) /\ (0 < mu l q -> mu l (q_skip l q n) < mu l q).
Proof.
  intros l [w F] n Hn HF HW. unfold q_skip, mu. cbn [waiting fetched] in *. destruct (Nat.leb_spec n (length w)) as [H|H].
  - unfold drop. cbn [waiting fetched]. rewrite skipn_length. repeat split; try lia.
  - replace (64 <? n - length w) with false by lia. rewrite Nat.add_0_r. unfold fetch64, drop. cbn [waiting fetched].
    destruct (Nat.leb_spec (F + 64) (length l)) as [G|G]; cbn [waiting fetched]; rewrite skipn_length.
    + rewrite window_length by lia. repeat split; try lia.
    + rewrite skipn_length. repeat split; try lia. intros Z. assert (w = []) by (destruct w; [reflexivity|cbn [length] in Z; lia]). subst w.
      rewrite !skipn_nil. reflexivity.
Qed.

Lemma look_in : forall (S : Type) (codes : pending S) w s, In (w, s) codes -> length w <= fold_right Nat.max 0 (map (fun c => length (fst c)) codes).
Proof.
  intros S codes w s. induction codes as [|c codes IH]; intros H; [destruct H|]. cbn [map fold_right]. destruct H as [->|H]; [cbn [fst]; lia|]. specialize (IH H). lia.
Qed.

Lemma look_le : forall (S : Type) (codes : pending S) n, (forall w s, In (w, s) codes -> length w <= n) -> fold_right Nat.max 0 (map (fun c => length (fst c)) codes) <= n.
Proof.
  intros S codes n H. induction codes as [|[w s] codes IH]; cbn [map fold_right fst]; [lia|].
  pose proof (H w s (or_introl eq_refl)). assert (K : forall w s, In (w, s) codes -> length w <= n) by (intros w' s' I; apply (H w' s'); right; exact I). specialize (IH K). lia.
Qed.

Lemma longer_in : forall (S : Type) u (codes : pending S) w s, In (w, s) (longer u codes) <->
  exists w0, In (w0, s) codes /\ 10 < length w0 /\ firstn 10 w0 = u /\ w = skipn 10 w0.
Proof.
  intros S u codes w s. unfold longer. rewrite in_flat_map. split.
  - intros [[w0 s0] [I H]]. cbn [fst snd] in H. unfold same_bits in H. destruct (Nat.ltb_spec 10 (length w0)) as [L|L]; [|destruct H].
    destruct (list_eq_dec bool_dec (firstn 10 w0) u) as [E|E]; cbn [andb] in H; [|destruct H]. destruct H as [H|[]]. injection H as <- <-. exists w0. auto.
  - intros [w0 [I [L [E ->]]]]. exists (w0, s). split; [exact I|]. cbn [fst snd]. unfold same_bits. replace (10 <? length w0) with true by lia.
    destruct (list_eq_dec bool_dec (firstn 10 w0) u) as [_|N]; [left; reflexivity|contradiction].
Qed.

Definition zeros_only (w : list bool) : Prop := w = repeat false (length w).

Lemma rev_repeat_false : forall n, rev (repeat false n) = repeat false n.
Proof.
  induction n as [|n IH]; [reflexivity|]. cbn [repeat rev]. rewrite IH. replace [false] with (repeat false 1) by reflexivity. rewrite <- repeat_app.
  replace (n + 1) with (S n) by lia. reflexivity.
Qed.

Lemma written_zeros : forall e m n, as_written e m (repeat false n) = repeat false n.
Proof. intros [] [] n; cbn [as_written]; try reflexivity; apply rev_repeat_false. Qed.

Lemma zeros_prefix : forall w n, is_prefix w (repeat false n) -> zeros_only w.
Proof.
  intros w. induction w as [|b w IH]; intros n [c H]; [reflexivity|]. destruct n as [|n]; [discriminate H|]. cbn [repeat app] in H. injection H as <- H.
  unfold zeros_only. cbn [length repeat]. f_equal. apply (IH n). exists c. exact H.
Qed.

Lemma stuck_get : forall l q n, mu l q = 0 -> fetched q <= length l -> snd (q_get32 l q n) = repeat false n.
Proof.
  intros l [w F] n M HF. unfold mu in M. cbn [waiting fetched] in *. assert (w = []) by (destruct w; [reflexivity|cbn [length] in M; lia]). subst w. unfold q_get32.
  destruct (Nat.eqb_spec n 0) as [->|Hn]; [reflexivity|]. cbn [waiting length snd]. replace (0 <=? n) with true by lia.
  unfold fetch32. cbn [fetched]. replace (F + 64 <=? length l) with false by (cbn [length] in M; lia). unfold front. cbn [waiting length]. rewrite firstn_nil, Nat.sub_0_r. reflexivity.
Qed.

(** What a successful read does to the queue. *)
Lemma decode_success : forall (S : Type) e m l rounds (codes : pending S) q q' s, (forall w s, In (w, s) codes -> w <> []) ->
  length (waiting q) <= fetched q -> q_decode rounds e m l q codes = Some (q', Some s) ->
  fetched q' <= length l /\ length (waiting q') <= fetched q' /\ fetched q' mod 64 = fetched q mod 64 /\
  (0 < mu l q -> mu l q' < mu l q) /\
  (mu l q = 0 -> q' = q /\ fetched q < length l /\ exists w, In (w, s) codes /\ zeros_only w).
Proof.
  intros S e m l. induction rounds as [|rounds IH]; intros codes q q' s Hne HW H; [discriminate H|]. cbn [q_decode] in H.
  set (n := look_ahead codes) in *. set (u := as_written e m (snd (q_get32 l q n))) in *.
  destruct (complete u codes) as [|[w s0] cs] eqn:C.
  - destruct (longer u codes) as [|x rest] eqn:R; [discriminate H|]. rewrite <- R in H.
    assert (Hx : In x (longer u codes)) by (rewrite R; left; reflexivity). destruct x as [w1 s1]. apply longer_in in Hx as [w0 [I0 [L0 _]]].
    assert (Hn : n = 10). { unfold n, look_ahead. pose proof (look_in S codes w0 s1 I0). lia. }
    unfold enough in H. destruct (Nat.leb_spec (fetched q) (length l)) as [HF|HF]; [|discriminate H].
    destruct (N.of_nat _ <=? _)%N eqn:EN; [|discriminate H]. rewrite Hn in H.
    destruct (skip_facts l q 10 ltac:(lia) HF HW) as [A1 [A2 [A3 [A4 A5]]]].
    destruct (IH (longer u codes) (q_skip l q 10) q' s) as [B1 [B2 [B3 [B4 B5]]]]; [|exact A2|exact H|].
    { intros w s' I. apply longer_in in I as [w2 [_ [L2 [_ ->]]]]. intros E. apply (f_equal (@length bool)) in E. rewrite skipn_length in E. cbn [length] in E. lia. }
    split; [exact B1|]. split; [exact B2|]. split; [lia|]. split.
    + intros M. specialize (A5 M). destruct (Nat.eq_dec (mu l (q_skip l q 10)) 0) as [Z|Z]; [destruct (B5 Z) as [-> _]; exact A5|]. lia.
    + intros M. specialize (A4 M). rewrite A4 in *. destruct (B5 M) as [-> [B6 [w [I Z]]]]. split; [reflexivity|]. split; [exact B6|].
      apply longer_in in I as [w2 [I2 [L2 [E2 ->]]]]. exists w2. split; [exact I2|].
      assert (Eu : u = repeat false 10). { unfold u. rewrite (stuck_get l q n M HF), written_zeros, Hn. reflexivity. }
      unfold zeros_only in *. rewrite <- (firstn_skipn 10 w2) at 1. rewrite E2, Eu, Z, skipn_length, <- repeat_app. f_equal. lia.
  - assert (I : In (w, s0) (complete u codes)) by (rewrite C; left; reflexivity). apply complete_in in I as [I [L P]].
    assert (Hw : 1 <= length w). { destruct w; [destruct (Hne [] s0 I eq_refl)|cbn [length]; lia]. }
    unfold enough in H. destruct (Nat.leb_spec (fetched q) (length l)) as [HF|HF]; [|discriminate H].
    destruct (N.of_nat _ <=? _)%N eqn:EN; [|discriminate H]. injection H as <- <-.
    destruct (skip_facts l q (length w) ltac:(lia) HF HW) as [A1 [A2 [A3 [A4 A5]]]].
    split; [exact A1|]. split; [exact A2|]. split; [exact A3|]. split; [exact A5|].
    intros M. split; [exact (A4 M)|]. split.
    + apply N.leb_le in EN. assert (W0 : length (waiting q) = 0) by (unfold mu in M; lia). rewrite W0 in EN.
      destruct (Nat.eq_dec (fetched q) (length l)) as [E|E]; [|lia]. rewrite E, Nat.sub_diag in EN. cbn in EN. lia.
    + exists w. split; [exact I|]. apply (zeros_prefix w n). unfold u in P. rewrite (stuck_get l q n M HF), written_zeros in P. exact P.
Qed.

(** Reads do not panic inside the buffer. *)
Lemma decode_total : forall (S : Type) e m l rounds (codes : pending S) q, (forall w s, In (w, s) codes -> length w <= 10 * rounds) -> 0 < rounds ->
  fetched q <= length l -> length (waiting q) <= fetched q -> exists q' o, q_decode rounds e m l q codes = Some (q', o).
Proof.
  intros S e m l. induction rounds as [|rounds IH]; intros codes q Hl Hr HF HW; [lia|]. cbn [q_decode].
  set (n := look_ahead codes) in *. set (u := as_written e m (snd (q_get32 l q n))) in *.
  destruct (complete u codes) as [|[w s0] cs].
  - destruct (longer u codes) as [|x rest] eqn:R; [eexists _, _; reflexivity|]. rewrite <- R.
    assert (Hx : In x (longer u codes)) by (rewrite R; left; reflexivity). destruct x as [w1 s1]. apply longer_in in Hx as [w0 [I0 [L0 _]]].
    assert (Hn : n = 10). { unfold n, look_ahead. pose proof (look_in S codes w0 s1 I0). lia. }
    unfold enough. replace (fetched q <=? length l) with true by lia. destruct (N.of_nat _ <=? _)%N; [|eexists _, _; reflexivity].
    rewrite Hn. destruct (skip_facts l q 10 ltac:(lia) HF HW) as [A1 [A2 _]]. pose proof (Hl w0 s1 I0). apply IH; try assumption; [|lia].
    intros w s I. apply longer_in in I as [w2 [I2 [_ [_ ->]]]]. rewrite skipn_length. specialize (Hl w2 s I2). lia.
  - unfold enough. replace (fetched q <=? length l) with true by lia. destruct (N.of_nat _ <=? _)%N; eexists _, _; reflexivity.
Qed.

Lemma all_codes_in : forall (S : Type) m (ds : list (desc S)) w s, In (w, s) (all_codes m ds) <-> exists d, In d ds /\ used d /\ w = word m d /\ s = d_sym d.
Proof.
  intros S m ds w s. unfold all_codes. rewrite in_map_iff. split.
  - intros [d [E I]]. injection E as <- <-. apply filter_In in I as [I U]. exists d. unfold used. split; [exact I|]. split; [lia|auto].
  - intros [d [I [U [-> ->]]]]. exists d. split; [reflexivity|]. apply filter_In. split; [exact I|]. unfold used in U. lia.
Qed.

Lemma codes_nonempty : forall (S : Type) m (ds : list (desc S)) w s, In (w, s) (all_codes m ds) -> w <> [].
Proof.
  intros S m ds w s H. apply all_codes_in in H as [d [_ [U [-> _]]]]. unfold used in U. rewrite <- (word_len S m d) in U. intros E. rewrite E in U. cbn in U. lia.
Qed.

Lemma codes_short : forall (S : Type) m (ds : list (desc S)) w s, valid_description m ds -> In (w, s) (all_codes m ds) -> length w <= 10 * 26.
Proof.
  intros S m ds w s [Hf _] H. apply all_codes_in in H as [d [I [U [-> _]]]]. rewrite word_len. destruct (Hf d I U) as [K _]. destruct m; cbn [longest] in K; lia.
Qed.

Lemma zero_word : forall (S : Type) m (ds : list (desc S)) d, codes_fit m ds -> In d ds -> used d -> (zeros_only (word m d) <-> d_code d = 0%N).
Proof.
  intros S m ds d Hf I U. destruct (Hf d I U) as [_ [Hc _]]. assert (V : value (reader_for m) (word m d) = d_code d) by (apply value_codeword; exact Hc).
  assert (Z : forall n, codeword m 0 n = repeat false n).
  { intros n. unfold codeword. assert (K : map (fun k => N.testbit 0 (N.of_nat k)) (seq 0 n) = repeat false n).
    { generalize 0. induction n as [|n IH]; intros k; [reflexivity|]. cbn [seq map repeat]. f_equal. apply IH. }
    rewrite K. destruct m; [apply rev_repeat_false|reflexivity]. }
  split.
  - intros E. rewrite <- V. unfold zeros_only in E. rewrite E, <- Z. apply value_codeword. apply pow2_pos.
  - intros E. unfold zeros_only. rewrite word_len. unfold word. rewrite E. apply Z.
Qed.

(** ** Loops that end *)
Section Ends.
Context {S : Type} (ord : order) (m : mode) (ds : list (desc S)) (cb : codebook S) (e : endian) (buf : list N).
Hypothesis Hord : permuting ord.
Hypothesis Hv : valid_description m ds.
Hypothesis Hcb : new_codebook ord ds m = Ret (Okay cb).
Hypothesis Hb : bytes buf.
Let l := bits_of e buf.
Variable P : queue -> Prop.
Hypothesis Hstep : forall q q' s, P q -> q_codeword e m ds l q = Some (q', Some s) -> P q'.
Hypothesis Hstuck : forall q q' s, P q -> mu l q = 0 -> q_codeword e m ds l q <> Some (q', Some s).

Lemma loop_ends : forall k r q, rep e buf r q -> P q -> fetched q <= length l -> mu l q <= k ->
  exists r' syms, read_all (k + 1) e cb r = Ret (Some (r', syms)) /\ length syms <= k.
Proof.
  induction k as [|k IH]; intros r q R Q HF M; cbn [Nat.add read_all];
    pose proof (read_cb_queue S ord m ds cb e buf r q Hord Hv Hcb Hb R) as G; fold l in G;
    destruct (decode_total S e m l 26 (all_codes m ds) q (fun w s => codes_short S m ds w s Hv) ltac:(lia) HF (rep_pos _ _ _ _ R)) as [q' [o E]];
    change (q_codeword e m ds l q = Some (q', o)) in E; rewrite E in G; destruct G as [r1 [E1 R1]]; rewrite E1; cbn [obind]; destruct o as [s|]; cbn [sym_result];
    try (exists r1, []; split; [reflexivity|cbn [length]; lia]).
  - exfalso. apply (Hstuck q q' s Q); [lia|exact E].
  - destruct (Nat.eq_dec (mu l q) 0) as [Z|Z]; [exfalso; apply (Hstuck q q' s Q Z); exact E|].
    destruct (decode_success S e m l 26 (all_codes m ds) q q' s (codes_nonempty S m ds) (rep_pos _ _ _ _ R) E) as [B1 [_ [_ [B4 _]]]].
    destruct (IH r1 q' R1 (Hstep q q' s Q E) B1 ltac:(lia)) as [r2 [syms [E2 L2]]]. rewrite E2. cbn [obind]. exists r2, (s :: syms). split; [reflexivity|]. cbn [length]. lia.
Qed.
End Ends.

Lemma available_fetched : forall e buf r q a, rep e buf r q -> available r = Ret a ->
  fetched q <= length (bits_of e buf) /\ a = length (bits_of e buf) - fetched q + length (waiting q).
Proof.
  intros e buf r q a H E. unfold available, csub in E. rewrite (rep_left _ _ _ _ H), (rep_buffer _ _ _ _ H) in E. pose proof (rep_index _ _ _ _ H). rewrite bits_of_length.
  destruct (Nat.leb_spec (index r) (length buf)); cbn [obind] in E; [|discriminate E]. injection E as <-. lia.
Qed.

Lemma loop_dichotomy : forall (S : Type) ord m (ds : list (desc S)) cb e buf, permuting ord -> valid_description m ds -> new_codebook ord ds m = Ret (Okay cb) -> bytes buf ->
  forall k r q, rep e buf r q -> fetched q <= length (bits_of e buf) -> mu (bits_of e buf) q <= k ->
  (exists r' syms, read_all (k + 1) e cb r = Ret (Some (r', syms)) /\ length syms <= k) \/ (forall fuel, read_all fuel e cb r = Ret None).
Proof.
  intros S ord m ds cb e buf Hord Hv Hcb Hb k. set (l := bits_of e buf).
  assert (K : forall r q, rep e buf r q -> fetched q <= length l -> exists q' o r1, q_codeword e m ds l q = Some (q', o) /\ read_cb e cb r = Ret (r1, sym_result o) /\ rep e buf r1 q').
  { intros r q R HF. pose proof (read_cb_queue S ord m ds cb e buf r q Hord Hv Hcb Hb R) as G. fold l in G.
    destruct (decode_total S e m l 26 (all_codes m ds) q (fun w s => codes_short S m ds w s Hv) ltac:(lia) HF (rep_pos _ _ _ _ R)) as [q' [o E]].
    change (q_codeword e m ds l q = Some (q', o)) in E. rewrite E in G. destruct G as [r1 [E1 R1]]. exists q', o, r1. auto. }
  assert (Z : forall r q q' s, rep e buf r q -> fetched q <= length l -> mu l q = 0 -> q_codeword e m ds l q = Some (q', Some s) -> forall fuel, read_all fuel e cb r = Ret None).
  { intros r q q' s R HF M E fuel. revert r R. induction fuel as [|fuel IH]; intros r R; [reflexivity|]. cbn [read_all].
    destruct (K r q R HF) as [q2 [o [r1 [E2 [E1 R1]]]]]. rewrite E in E2. injection E2 as <- <-. rewrite E1. cbn [obind sym_result].
    destruct (decode_success S e m l 26 (all_codes m ds) q q' s (codes_nonempty S m ds) (rep_pos _ _ _ _ R) E) as [_ [_ [_ [_ B]]]]. destruct (B M) as [-> _]. rewrite (IH r1 R1). reflexivity. }
  induction k as [|k IH]; intros r q R HF M; destruct (K r q R HF) as [q' [o [r1 [E [E1 R1]]]]].
  - destruct o as [s|]; [right; apply (Z r q q' s R HF ltac:(lia) E)|]. left. cbn [Nat.add read_all]. rewrite E1. cbn [obind sym_result]. exists r1, []. split; [reflexivity|cbn; lia].
  - destruct o as [s|].
    + destruct (Nat.eq_dec (mu l q) 0) as [M0|M0]; [right; apply (Z r q q' s R HF M0 E)|].
      destruct (decode_success S e m l 26 (all_codes m ds) q q' s (codes_nonempty S m ds) (rep_pos _ _ _ _ R) E) as [B1 [_ [_ [B4 _]]]].
      destruct (IH r1 q' R1 B1 ltac:(lia)) as [[r2 [syms [E2 L2]]]|E2].
      * left. cbn [Nat.add read_all]. rewrite E1. cbn [obind sym_result]. rewrite E2. cbn [obind]. exists r2, (s :: syms). split; [reflexivity|]. cbn [length]. lia.
      * right. intros [|fuel]; [reflexivity|]. cbn [read_all]. rewrite E1. cbn [obind sym_result]. rewrite E2. reflexivity.
    + left. cbn [Nat.add read_all]. rewrite E1. cbn [obind sym_result]. exists r1, []. split; [reflexivity|cbn; lia].
Qed.

Lemma loop_soon_or_never : forall (S : Type) ord m (ds : list (desc S)) cb e buf steps r0 r outs a,
  permuting ord -> valid_description m ds -> new_codebook ord ds m = Ret (Okay cb) -> bytes buf -> Forall step_ok steps ->
  new e buf = Ret r0 -> run_mixed e cb r0 steps = Ret (r, outs) -> available r = Ret a ->
  (exists r' syms, read_all (a + 1) e cb r = Ret (Some (r', syms)) /\ length syms <= a) \/ (forall fuel, read_all fuel e cb r = Ret None).
Proof.
  intros S ord m ds cb e buf steps r0 r outs a Hord Hv Hcb Hb Hok E0 E Ha.
  destruct (new_rep e buf Hb) as [r0' [E0' R0]]. assert (r0' = r0) by congruence. subst r0'.
  pose proof (mixed_queue S ord m ds cb e buf Hord Hv Hcb Hb steps r0 _ R0 Hok) as G.
  destruct (q_steps e m ds (bits_of e buf) _ steps) as [[q os]|]; [|congruence]. destruct G as [r' [E' R]]. assert (r' = r) by congruence. subst r'.
  destruct (available_fetched e buf r q a R Ha) as [HF HA].
  apply (loop_dichotomy S ord m ds cb e buf Hord Hv Hcb Hb a r q R HF). unfold mu. lia.
Qed.

Lemma loop_no_zero_word : forall (S : Type) ord m (ds : list (desc S)) cb e buf steps r0 r outs a,
  permuting ord -> valid_description m ds -> new_codebook ord ds m = Ret (Okay cb) -> bytes buf -> Forall step_ok steps ->
  new e buf = Ret r0 -> run_mixed e cb r0 steps = Ret (r, outs) -> available r = Ret a ->
  (forall d, In d ds -> used d -> d_code d <> 0%N) ->
  exists r' syms, read_all (a + 1) e cb r = Ret (Some (r', syms)) /\ length syms <= a.
Proof.
  intros S ord m ds cb e buf steps r0 r outs a Hord Hv Hcb Hb Hok E0 E Ha Hz.
  destruct (new_rep e buf Hb) as [r0' [E0' R0]]. assert (r0' = r0) by congruence. subst r0'.
  pose proof (mixed_queue S ord m ds cb e buf Hord Hv Hcb Hb steps r0 _ R0 Hok) as G.
  destruct (q_steps e m ds (bits_of e buf) _ steps) as [[q os]|]; [|congruence]. destruct G as [r' [E' R]]. assert (r' = r) by congruence. subst r'.
  destruct (available_fetched e buf r q a R Ha) as [HF HA].
  apply (loop_ends ord m ds cb e buf Hord Hv Hcb Hb (fun q => length (waiting q) <= fetched q)) with (q := q).
  - intros q1 q2 s Q K. apply (decode_success S e m _ 26 (all_codes m ds) q1 q2 s (codes_nonempty S m ds) Q K).
  - intros q1 q2 s Q M K. destruct (decode_success S e m _ 26 (all_codes m ds) q1 q2 s (codes_nonempty S m ds) Q K) as [_ [_ [_ [_ Z]]]].
    destruct (Z M) as [_ [_ [w [I W]]]]. apply all_codes_in in I as [d [I [U [-> _]]]]. apply (Hz d I U). apply (zero_word S m ds d (proj1 Hv) I U). exact W.
  - exact R.
  - exact (rep_pos _ _ _ _ R).
  - exact HF.
  - unfold mu. lia.
Qed.

Lemma start_facts : forall l, fetched (fetch64 l (mk_queue [] 0)) <= length l /\ length (waiting (fetch64 l (mk_queue [] 0))) <= fetched (fetch64 l (mk_queue [] 0)) /\
  fetched (fetch64 l (mk_queue [] 0)) mod 64 = 0 /\ mu l (fetch64 l (mk_queue [] 0)) <= length l.
Proof.
  intros l. unfold fetch64, mu. cbn [fetched]. destruct (Nat.leb_spec (0 + 64) (length l)); cbn [waiting fetched]; [rewrite window_length by lia|cbn [length]]; repeat split; try lia.
Qed.

Lemma loop_whole_blocks : forall (S : Type) ord m (ds : list (desc S)) cb e buf r0,
  permuting ord -> valid_description m ds -> new_codebook ord ds m = Ret (Okay cb) -> bytes buf -> length buf mod 8 = 0 -> new e buf = Ret r0 ->
  exists r' syms, read_all (8 * length buf + 1) e cb r0 = Ret (Some (r', syms)) /\ length syms <= 8 * length buf.
Proof.
  intros S ord m ds cb e buf r0 Hord Hv Hcb Hb H8 E0.
  destruct (new_rep e buf Hb) as [r0' [E0' R]]. assert (r0' = r0) by congruence. subst r0'.
  pose proof (bits_of_length e buf) as Lb. destruct (start_facts (bits_of e buf)) as [S1 [S2 [S3 S4]]]. rewrite Lb in S4.
  apply (loop_ends ord m ds cb e buf Hord Hv Hcb Hb (fun q => length (waiting q) <= fetched q /\ fetched q mod 64 = 0)) with (q := fetch64 (bits_of e buf) (mk_queue [] 0)).
  - intros q1 q2 s [Q1 Q2] K. destruct (decode_success S e m _ 26 (all_codes m ds) q1 q2 s (codes_nonempty S m ds) Q1 K) as [_ [A [B _]]]. split; [exact A|lia].
  - intros q1 q2 s [Q1 Q2] M K. destruct (decode_success S e m _ 26 (all_codes m ds) q1 q2 s (codes_nonempty S m ds) Q1 K) as [_ [_ [_ [_ Z]]]].
    destruct (Z M) as [_ [F _]]. unfold mu in M. lia.
  - exact R.
  - split; assumption.
  - exact S1.
  - exact S4.
Qed.

(** ** Loops that do not *)
Section Endless.
Context {S : Type} (ord : order) (m : mode) (ds : list (desc S)) (cb : codebook S) (e : endian) (buf : list N).
Hypothesis Hord : permuting ord.
Hypothesis Hv : valid_description m ds.
Hypothesis Hcb : new_codebook ord ds m = Ret (Okay cb).
Hypothesis Hb : bytes buf.
Let l := bits_of e buf.
Hypothesis H32 : (N.of_nat (length l) < 2 ^ 32)%N.
Variable G : pending S -> Prop.
Variable U : list bool -> Prop.
Variable Q : queue -> Prop.
Hypothesis HQ : forall q n, Q q -> n <= 10 -> Q (q_skip l q n) /\ U (as_written e m (snd (q_get32 l q n))).
Hypothesis HG : forall codes u, G codes -> length u = look_ahead codes -> U u -> complete u codes = [] -> longer u codes <> [] /\ G (longer u codes).
Variable T : nat.
Hypothesis HT : T <= length l mod 64.
(** Those found at once fit the bits that are always left. *)
Hypothesis HL : forall codes u w s cs, G codes -> length u = look_ahead codes -> U u -> complete u codes = (w, s) :: cs -> length w <= T.
Hypothesis HL' : forall codes u, G codes -> length u = look_ahead codes -> U u -> complete u codes = [] -> look_ahead (longer u codes) <= T.

Definition whole (q : queue) : Prop := fetched q <= length l /\ length (waiting q) <= fetched q /\ fetched q mod 64 = 0.

Lemma enough_whole : forall q n, whole q -> n <= T -> enough l q n = Some true.
Proof.
  intros q n [W1 [W2 W3]] Hn. unfold enough. replace (fetched q <=? length l) with true by lia. f_equal. apply N.leb_le.
  rewrite N.mod_small by lia. lia.
Qed.

Lemma decode_always : forall rounds codes q, (forall w s, In (w, s) codes -> length w <= 10 * rounds) -> (forall w s, In (w, s) codes -> w <> []) -> 0 < rounds -> G codes -> whole q -> Q q ->
  exists q' s, q_decode rounds e m l q codes = Some (q', Some s) /\ whole q' /\ Q q'.
Proof.
  induction rounds as [|rounds IH]; intros codes q Hl Hne Hr Hg W HQq; [lia|]. cbn [q_decode].
  set (n := look_ahead codes) in *. set (u := as_written e m (snd (q_get32 l q n))) in *.
  assert (Lu : length u = n) by (unfold u; rewrite as_written_length, q_get32_length; reflexivity).
  assert (Hn : n <= 10) by (unfold n, look_ahead; lia).
  assert (Hu : U u) by (apply (HQ q n HQq Hn)). destruct W as [W1 [W2 W3]].
  destruct (complete u codes) as [|[w s0] cs] eqn:C.
  - destruct (HG codes u Hg Lu Hu C) as [Hne' Hg']. destruct (longer u codes) as [|x rest] eqn:R; [contradiction|]. rewrite <- R in *.
    assert (Hx : In x (longer u codes)) by (rewrite R; left; reflexivity). destruct x as [w1 s1]. apply longer_in in Hx as [w0 [I0 [L0 _]]].
    assert (Hn10 : n = 10). { unfold n, look_ahead. pose proof (look_in S codes w0 s1 I0). lia. }
    rewrite (enough_whole q _ (conj W1 (conj W2 W3))) by (apply HL'; assumption). rewrite Hn10.
    destruct (skip_facts l q 10 ltac:(lia) W1 W2) as [A1 [A2 [A3 _]]]. pose proof (Hl w0 s1 I0). apply IH; try assumption.
    + intros w s I. apply longer_in in I as [w2 [I2 [_ [_ ->]]]]. rewrite skipn_length. specialize (Hl w2 s I2). lia.
    + intros w s I. apply longer_in in I as [w2 [_ [L2 [_ ->]]]]. intros E. apply (f_equal (@length bool)) in E. rewrite skipn_length in E. cbn [length] in E. lia.
    + lia.
    + split; [exact A1|]. split; [exact A2|]. lia.
    + apply (HQ q 10 HQq). lia.
  - assert (I : In (w, s0) (complete u codes)) by (rewrite C; left; reflexivity). apply complete_in in I as [I [L _]].
    assert (Hw : 1 <= length w). { destruct w; [destruct (Hne [] s0 I eq_refl)|cbn [length]; lia]. }
    rewrite (enough_whole q _ (conj W1 (conj W2 W3))) by (apply (HL codes u w s0 cs); assumption).
    destruct (skip_facts l q (length w) ltac:(lia) W1 W2) as [A1 [A2 [A3 _]]].
    eexists _, _. split; [reflexivity|]. split; [split; [exact A1|]; split; [exact A2|]; lia|]. apply (HQ q (length w) HQq). exact L.
Qed.

Lemma loop_endless : G (all_codes m ds) -> forall fuel r q, rep e buf r q -> whole q -> Q q -> read_all fuel e cb r = Ret None.
Proof.
  intros Hg. induction fuel as [|fuel IH]; intros r q R W HQq; [reflexivity|]. cbn [read_all].
  pose proof (read_cb_queue S ord m ds cb e buf r q Hord Hv Hcb Hb R) as K. fold l in K.
  destruct (decode_always 26 (all_codes m ds) q (fun w s => codes_short S m ds w s Hv) (codes_nonempty S m ds) ltac:(lia) Hg W HQq) as [q' [s [E [W' Q']]]].
  change (q_codeword e m ds l q = Some (q', Some s)) in E. rewrite E in K. destruct K as [r1 [E1 R1]]. rewrite E1. cbn [obind sym_result].
  rewrite (IH r1 q' R1 W' Q'). reflexivity.
Qed.
End Endless.

(** *** Complete codes *)
Lemma loop_complete : forall (S : Type) ord m (ds : list (desc S)) cb e buf r0 fuel,
  permuting ord -> valid_description m ds -> CompleteSpec.complete ds -> new_codebook ord ds m = Ret (Okay cb) -> bytes buf -> (N.of_nat (8 * length buf) < 2 ^ 32)%N ->
  Nat.min (CompleteSpec.longest_word ds) 10 <= 8 * (length buf mod 8) -> new e buf = Ret r0 -> read_all fuel e cb r0 = Ret None.
Proof.
  intros S ord m ds cb e buf r0 fuel Hord Hv Hc Hcb Hb H32 HT E0.
  destruct (new_rep e buf Hb) as [r0' [E0' R]]. assert (r0' = r0) by congruence. subst r0'.
  pose proof (bits_of_length e buf) as Lb. destruct (start_facts (bits_of e buf)) as [S1 [S2 [S3 _]]].
  set (T := 8 * (length buf mod 8)) in *.
  set (G := fun codes : pending S => look_ahead codes <= T /\
    forall v, fold_right Nat.max 0 (map (fun c => length (fst c)) codes) <= length v -> exists w s, In (w, s) codes /\ is_prefix w v).
  apply (loop_endless ord m ds cb e buf Hord Hv Hcb Hb) with (G := G) (U := fun _ => True) (Q := fun _ => True) (T := T) (q := fetch64 (bits_of e buf) (mk_queue [] 0)).
  - rewrite Lb. exact H32.
  - intros. split; exact I.
  - intros codes u [G1 G2] Lu _ C. set (M := fold_right Nat.max 0 (map (fun c => length (fst c)) codes)) in *.
    assert (HX : forall v, exists w s, In (w, s) (longer u codes) /\ is_prefix w (v ++ repeat false M)).
    { intros v. destruct (G2 (u ++ v ++ repeat false M)) as [w [s [I P]]]. { rewrite !app_length, repeat_length. lia. }
      pose proof (look_in S codes w s I) as Lw. fold M in Lw.
      assert (P' : length w <= length u -> is_prefix w u).
      { intros K. apply prefix_firstn in P. apply prefix_firstn. rewrite firstn_app in P. replace (length w - length u) with 0 in P by lia. cbn [firstn] in P. rewrite app_nil_r in P. exact P. }
      destruct (Nat.le_gt_cases (length w) 10) as [K|K].
      - exfalso. assert (I' : In (w, s) (complete u codes)).
        { apply complete_in. split; [exact I|]. split; [exact K|]. apply P'. rewrite Lu. unfold look_ahead. fold M. lia. }
        rewrite C in I'. destruct I'.
      - assert (Lu10 : length u = 10) by (rewrite Lu; unfold look_ahead; fold M; lia).
        exists (skipn 10 w), s. destruct P as [c P].
        assert (E1 : firstn 10 w = u).
        { assert (F : firstn 10 (u ++ v ++ repeat false M) = firstn 10 (w ++ c)) by (rewrite P; reflexivity).
          rewrite firstn_app, Lu10, Nat.sub_diag, firstn_all2, firstn_O, app_nil_r in F by lia. rewrite firstn_app in F. replace (10 - length w) with 0 in F by lia. rewrite firstn_O, app_nil_r in F. congruence. }
        split; [apply longer_in; exists w; auto|]. exists c.
        assert (F : skipn 10 (u ++ v ++ repeat false M) = skipn 10 (w ++ c)) by (rewrite P; reflexivity).
        rewrite skipn_app, Lu10, Nat.sub_diag, skipn_all2, skipn_O in F by lia. cbn [app] in F. rewrite skipn_app in F. replace (10 - length w) with 0 in F by lia. rewrite skipn_O in F. exact F. }
    split.
    + destruct (HX []) as [w [s [I _]]]. intros E. rewrite E in I. destruct I.
    + split.
      * destruct (HX []) as [w [s [I _]]]. apply longer_in in I as [w0 [I0 [L0 _]]]. pose proof (look_in S codes w0 s I0). unfold look_ahead in *. fold M in G1. fold M in H. lia.
      * intros v Lv. destruct (HX v) as [w [s [I P]]]. exists w, s. split; [exact I|]. pose proof (look_in S _ w s I) as Lw.
        apply prefix_firstn in P. apply prefix_firstn. rewrite firstn_app in P. replace (length w - length v) with 0 in P by lia. cbn [firstn] in P. rewrite app_nil_r in P. exact P.
  - rewrite Lb. unfold T. lia.
  - intros codes u w s cs [G1 _] Lu _ C. assert (I : In (w, s) (complete u codes)) by (rewrite C; left; reflexivity). apply complete_in in I as [I [L [c P]]].
    apply (f_equal (@length bool)) in P. rewrite app_length in P. lia.
  - intros codes u [G1 G2] _ _ C. destruct (longer u codes) as [|[w s] rest] eqn:Er; [cbn; lia|].
    assert (I : In (w, s) (longer u codes)) by (rewrite Er; left; reflexivity). apply longer_in in I as [w0 [I0 [L0 _]]]. pose proof (look_in S codes w0 s I0). unfold look_ahead in *. lia.
  - assert (HM : fold_right Nat.max 0 (map (fun c => length (fst c)) (all_codes m ds)) <= CompleteSpec.longest_word ds).
    { apply look_le. intros w s I. apply all_codes_in in I as [d [I [_ [-> _]]]]. rewrite word_len. apply longest_le. exact I. }
    split; [unfold look_ahead; lia|]. intros v Lv.
    destruct (complete_covers S m ds (v ++ repeat false (CompleteSpec.longest_word ds)) (proj1 (proj2 Hv)) Hc) as [d [I [U P]]]. { rewrite app_length, repeat_length. lia. }
    exists (word m d), (d_sym d). assert (I' : In (word m d, d_sym d) (all_codes m ds)) by (apply all_codes_in; exists d; auto). split; [exact I'|].
    pose proof (look_in S _ _ _ I') as Lw. apply prefix_firstn in P. apply prefix_firstn. rewrite firstn_app in P.
    replace (length (word m d) - length v) with 0 in P by lia. cbn [firstn] in P. rewrite app_nil_r in P. exact P.
  - exact R.
  - split; [exact S1|]. split; [exact S2|exact S3].
  - exact I.
Qed.

(** *** Zeros *)
Lemma firstn_false : forall n k, firstn n (repeat false k) = repeat false (Nat.min n k).
Proof. induction n as [|n IH]; intros [|k]; cbn [firstn repeat Nat.min]; try reflexivity. f_equal. apply IH. Qed.
Lemma skipn_false : forall n k, skipn n (repeat false k) = repeat false (k - n).
Proof. induction n as [|n IH]; intros [|k]; cbn [skipn repeat Nat.sub]; try reflexivity. apply IH. Qed.

Lemma zeros_skipn : forall n w, zeros_only w -> zeros_only (skipn n w).
Proof. intros n w H. unfold zeros_only in *. rewrite H, skipn_false, !repeat_length. reflexivity. Qed.

Lemma bits_zero : forall e n, bits_of e (repeat 0%N n) = repeat false (8 * n).
Proof.
  intros e n. unfold bits_of. induction n as [|n IH]; [reflexivity|]. cbn [repeat flat_map]. rewrite IH. replace (8 * S n) with (8 + 8 * n) by lia. rewrite repeat_app.
  f_equal. destruct e; reflexivity.
Qed.

Lemma zero_queue : forall N0 q n, zeros_only (waiting q) -> zeros_only (waiting (q_skip (repeat false N0) q n)) /\ snd (q_get32 (repeat false N0) q n) = repeat false n.
Proof.
  intros N0 [w F] n Hw. unfold zeros_only in Hw. cbn [waiting] in Hw. set (k := length w) in *. clearbody k. subst w. split.
  - unfold q_skip. cbn [waiting fetched]. rewrite repeat_length. destruct (n <=? k).
    + unfold drop. cbn [waiting]. apply zeros_skipn. unfold zeros_only. rewrite repeat_length. reflexivity.
    + destruct (if 64 <? n - k then _ else _) as [far rest]. unfold drop, fetch64. cbn [fetched waiting]. destruct (_ <=? _); cbn [waiting]; apply zeros_skipn; unfold zeros_only.
      * unfold window. rewrite skipn_false, firstn_false, repeat_length. reflexivity.
      * rewrite skipn_false, repeat_length. reflexivity.
  - unfold q_get32. destruct (Nat.eqb_spec n 0) as [->|Hn]; [reflexivity|]. cbn [snd waiting]. rewrite repeat_length.
    assert (K : forall j F', front (mk_queue (repeat false j) F') n = repeat false n).
    { intros j F'. unfold front. cbn [waiting]. rewrite firstn_false, repeat_length, <- repeat_app. f_equal. lia. }
    destruct (k <=? n); [|apply K]. unfold fetch32. cbn [fetched waiting]. destruct (_ <=? _); [|apply K].
    unfold window. rewrite skipn_false, firstn_false, <- repeat_app. apply K.
Qed.

Lemma loop_zeros : forall (S : Type) ord m (ds : list (desc S)) cb e n d r0 fuel,
  permuting ord -> valid_description m ds -> new_codebook ord ds m = Ret (Okay cb) -> (N.of_nat (8 * n) < 2 ^ 32)%N ->
  In d ds -> used d -> d_code d = 0%N -> Nat.min (d_bits d) 10 <= 8 * (n mod 8) -> new e (repeat 0%N n) = Ret r0 -> read_all fuel e cb r0 = Ret None.
Proof.
  intros S ord m ds cb e n d r0 fuel Hord Hv Hcb H32 Hd Hu Hz HT E0.
  assert (Hb : bytes (repeat 0%N n)). { apply Forall_forall. intros x Hx. apply repeat_spec in Hx. subst x. reflexivity. }
  destruct (new_rep e _ Hb) as [r0' [E0' R]]. assert (r0' = r0) by congruence. subst r0'.
  destruct (start_facts (bits_of e (repeat 0%N n))) as [S1 [S2 [S3 _]]].
  set (T := 8 * (n mod 8)) in *.
  set (G := fun codes : pending S => (exists w s, In (w, s) codes /\ zeros_only w) /\ (10 <= T \/ forall w s, In (w, s) codes -> zeros_only w -> length w <= T /\ length w <= 10)).
  set (U := fun u : list bool => zeros_only u).
  assert (HC : forall codes u, G codes -> length u = look_ahead codes -> U u -> complete u codes = [] -> 10 <= T /\ exists w s, In (w, s) codes /\ zeros_only w /\ 10 < length w /\ u = repeat false 10).
  { intros codes u [[w [s [I Z]]] Hor] Lu Uu C. pose proof (look_in S codes w s I) as Lw.
    unfold zeros_only in Z. unfold U, zeros_only in Uu.
    assert (K : 10 < length w).
    { destruct (Nat.le_gt_cases (length w) 10) as [K|K]; [|exact K]. exfalso. assert (I' : In (w, s) (complete u codes)).
      { apply complete_in. split; [exact I|]. split; [exact K|]. exists (repeat false (length u - length w)). rewrite Z at 1. rewrite <- repeat_app. rewrite Uu at 1. f_equal.
        rewrite Lu. unfold look_ahead. lia. }
      rewrite C in I'. destruct I'. }
    split; [destruct Hor as [Hor|Hor]; [exact Hor|]; specialize (Hor w s I Z); lia|]. exists w, s. split; [exact I|]. split; [exact Z|]. split; [exact K|].
    rewrite Uu. f_equal. rewrite Lu. unfold look_ahead. lia. }
  apply (loop_endless ord m ds cb e _ Hord Hv Hcb Hb) with (G := G) (U := U) (Q := fun q => zeros_only (waiting q)) (T := T) (q := fetch64 (bits_of e (repeat 0%N n)) (mk_queue [] 0)).
  - rewrite bits_of_length, repeat_length. exact H32.
  - intros q k Hq _. rewrite bits_zero. destruct (zero_queue (8 * n) q k Hq) as [A B]. split; [exact A|]. rewrite B, written_zeros. unfold U, zeros_only. rewrite repeat_length. reflexivity.
  - intros codes u Hg Lu Uu C. destruct (HC codes u Hg Lu Uu C) as [H10 [w [s [I [Z [K Eu]]]]]].
    assert (I' : In (skipn 10 w, s) (longer u codes)). { apply longer_in. exists w. split; [exact I|]. split; [exact K|]. split; [|reflexivity]. rewrite Eu, Z, firstn_false. f_equal. lia. }
    split; [intros E; rewrite E in I'; destruct I'|]. split; [exists (skipn 10 w), s; split; [exact I'|apply zeros_skipn; exact Z]|left; exact H10].
  - rewrite bits_of_length, repeat_length. unfold T. lia.
  - intros codes u w s cs [_ Hor] Lu Uu C. assert (I : In (w, s) (complete u codes)) by (rewrite C; left; reflexivity). apply complete_in in I as [I [L P]].
    destruct Hor as [Hor|Hor]; [lia|]. unfold U in Uu. rewrite Uu in P. apply zeros_prefix in P. apply (Hor w s I P).
  - intros codes u Hg Lu Uu C. destruct (HC codes u Hg Lu Uu C) as [H10 _]. unfold look_ahead. lia.
  - split.
    + exists (word m d), (d_sym d). split; [apply all_codes_in; exists d; auto|]. apply (zero_word S m ds d (proj1 Hv) Hd Hu). exact Hz.
    + destruct (Nat.le_gt_cases 10 T) as [K|K]; [left; exact K|right]. intros w s I Z. apply all_codes_in in I as [d' [I [U' [-> _]]]].
      pose proof (proj2 (zero_word S m ds d (proj1 Hv) Hd Hu) Hz) as Zd. rewrite word_len.
      apply In_nth_error in I as [i Ei]. apply In_nth_error in Hd as [j Ej]. unfold zeros_only in Z, Zd. rewrite word_len in Z, Zd.
      assert (P : forall a b : desc S, d_bits a <= d_bits b -> word m a = repeat false (d_bits a) -> word m b = repeat false (d_bits b) -> is_prefix (word m a) (word m b)).
      { intros a b L A B. exists (repeat false (d_bits b - d_bits a)). rewrite A, B, <- repeat_app. f_equal. lia. }
      destruct (Nat.eq_dec i j) as [->|Nij]; [assert (d' = d) by congruence; subst d'; lia|]. exfalso. destruct (Nat.le_gt_cases (d_bits d') (d_bits d)) as [L|L].
      * apply (proj1 (proj2 Hv) i j d' d Ei Ej Nij U' Hu). apply P; assumption.
      * apply (proj1 (proj2 Hv) j i d d' Ej Ei (fun E => Nij (eq_sym E)) Hu U'). apply P; [lia|assumption|assumption].
  - exact R.
  - split; [exact S1|]. split; [exact S2|exact S3].
  - unfold fetch64. cbn [fetched]. destruct (_ <=? _); cbn [waiting]; [|reflexivity]. rewrite bits_zero. unfold window, zeros_only. rewrite skipn_false, firstn_false, repeat_length. reflexivity.
Qed.

Lemma loop_ends_false : exists ord m (ds : list (desc nat)) cb buf r0,
  permuting ord /\ valid_description m ds /\ new_codebook ord ds m = Ret (Okay cb) /\ bytes buf /\
  new (reader_for m) buf = Ret r0 /\ available r0 = Ret 8 /\ forall fuel, read_all fuel (reader_for m) cb r0 = Ret None.
Proof.
  assert (Hv : valid_description MSB [mk_desc 0 1 1; mk_desc 1 1 2]) by (apply validb_sound; vm_compute; reflexivity).
  assert (Hp : permuting (fun _ cc => cc)) by (intros p cc; apply Permutation.Permutation_refl).
  destruct (new_codebook (fun _ cc => cc) [mk_desc 0 1 1; mk_desc 1 1 2] MSB) as [[cb|]| |] eqn:E; try (vm_compute in E; discriminate E).
  destruct (new BE [255%N]) as [r0| |] eqn:E0; try (vm_compute in E0; discriminate E0).
  exists (fun _ cc => cc), MSB, [mk_desc 0 1 1; mk_desc 1 1 2], cb, [255%N], r0.
  split; [exact Hp|]. split; [exact Hv|]. split; [exact E|]. split; [repeat constructor|]. split; [exact E0|]. split.
  - vm_compute in E0. injection E0 as <-. reflexivity.
  - intros fuel. apply (loop_complete nat (fun _ cc => cc) MSB [mk_desc 0 1 1; mk_desc 1 1 2] cb BE [255%N] r0 fuel Hp Hv); try assumption.
    + vm_compute. reflexivity.
    + repeat constructor.
    + vm_compute. reflexivity.
    + apply Nat.leb_le. vm_compute. reflexivity.
Qed.
