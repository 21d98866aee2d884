(** [read_cb] refines [q_codeword]. *)
From Coq Require Import List Arith NArith ZArith Bool Lia Permutation.
From Coq Require Import ZifyBool ZifyNat ZifyN.
From Verif Require Import Base BitModel BitSpec BitProofs BitProofs2 BitQueueSpec BitQueueProofs CodebookModel
  CodebookSpec CodebookProofs CodebookProofs2 CodebookProofs3 CodebookProofs4 CodebookProofs5 CbQueueSpec.
Import ListNotations.
Local Open Scope nat_scope.

(** Items (index into the symbols) and pending codes (symbols themselves). *)
Definition same_code {S : Type} (syms : list S) (x : item) (c : list bool * S) : Prop :=
  fst x = fst c /\ nth_error syms (snd x) = Some (snd c).

Definition matching {S : Type} (syms : list S) (B : list item) (codes : pending S) : Prop :=
  Forall2 (same_code syms) B codes.

Lemma matching_look : forall (S : Type) (syms : list S) B codes, matching syms B codes -> look_ahead codes = lbits B.
Proof.
  intros S syms B codes H. unfold look_ahead, lbits. f_equal.
  induction H as [|[w i] c B codes [H1 _] _ IH]; [reflexivity|]. cbn in *. rewrite IH, H1. reflexivity.
Qed.

Lemma matching_longer : forall (S : Type) (syms : list S) B codes u, matching syms B codes ->
  matching syms (sub u B) (longer u codes).
Proof.
  intros S syms B codes u H. unfold sub, longer. induction H as [|[w i] [w' s] B codes [H1 H2] _ IH]; [constructor|].
  cbn [flat_map fst snd] in *. subst w'. apply Forall2_app; [|exact IH]. unfold sub_one. cbn [fst snd].
  change (same_bits (firstn 10 w) u) with (bits_eqb (firstn 10 w) u).
  destruct ((10 <? length w) && bits_eqb (firstn 10 w) u); constructor; [|constructor].
  split; [reflexivity|exact H2].
Qed.

Lemma complete_in : forall (S : Type) u (codes : pending S) w s,
  In (w, s) (complete u codes) <-> In (w, s) codes /\ length w <= 10 /\ is_prefix w u.
Proof.
  intros S u codes w s. unfold complete. rewrite filter_In. cbn [fst]. rewrite andb_true_iff, Nat.leb_le.
  change same_bits with bits_eqb. rewrite bits_eqb_true, prefix_firstn. reflexivity.
Qed.

Lemma matching_in : forall (S : Type) (syms : list S) B codes w i, matching syms B codes -> In (w, i) B ->
  exists s, In (w, s) codes /\ nth_error syms i = Some s.
Proof.
  intros S syms B codes w i H Hin. induction H as [|x [w' s] B codes [H1 H2] _ IH]; [destruct Hin|].
  destruct Hin as [->|Hin].
  - cbn in H1, H2. subst w'. exists s. split; [left; reflexivity|exact H2].
  - destruct (IH Hin) as [s' [A C]]. exists s'. split; [right; exact A|exact C].
Qed.

Lemma matching_in_rev : forall (S : Type) (syms : list S) B codes w s, matching syms B codes -> In (w, s) codes ->
  exists i, In (w, i) B /\ nth_error syms i = Some s.
Proof.
  intros S syms B codes w s H Hin. induction H as [|[w' i] x B codes [H1 H2] _ IH]; [destruct Hin|].
  destruct Hin as [->|Hin].
  - cbn in H1, H2. subst w'. exists i. split; [left; reflexivity|exact H2].
  - destruct (IH Hin) as [s' [A C]]. exists s'. split; [right; exact A|exact C].
Qed.

Lemma matching_nil : forall (S : Type) (syms : list S) B codes, matching syms B codes -> (B = [] <-> codes = []).
Proof. intros S syms B codes H. destruct H; split; congruence. Qed.

Lemma value_as_written : forall e m u, value e u = value (reader_for m) (as_written e m u).
Proof.
  intros [] [] u; cbn [as_written reader_for value]; try reflexivity.
  - symmetry. apply value_be_rev.
  - rewrite <- (value_be_rev (rev u)), rev_involutive. reflexivity.
Qed.

Lemma as_written_length : forall e m u, length (as_written e m u) = length u.
Proof. intros [] [] u; cbn; rewrite ?rev_length; reflexivity. Qed.

Lemma q_get32_length : forall l q n, length (snd (q_get32 l q n)) = n.
Proof.
  intros l q n. unfold q_get32. destruct (Nat.eqb_spec n 0) as [->|H]; [reflexivity|]. cbn [snd]. apply front_length.
Qed.

Lemma peek32_rep : forall e buf r q n, bytes buf -> rep e buf r q -> n <= 32 ->
  peek_bits_32 e r n = Ret (r, value e (snd (q_get32 (bits_of e buf) q n))).
Proof.
  intros e buf r q n Hb H Hn. destruct (q_get32_rep e buf r q n Hb H Hn) as [r' [E _]].
  unfold peek_bits_32. rewrite E. reflexivity.
Qed.

Lemma available_enough : forall e buf r q n, rep e buf r q ->
  match enough (bits_of e buf) q n with
  | Some b => exists a, available r = Ret a /\ (N.of_nat a mod W32 <? N.of_nat n)%N = negb b
  | None => available r = Panic
  end.
Proof.
  intros e buf r q n H. unfold enough, available, csub. rewrite bits_of_length, (rep_left _ _ _ _ H), (rep_buffer _ _ _ _ H).
  pose proof (rep_index _ _ _ _ H).
  destruct (Nat.leb_spec (fetched q) (8 * length buf)), (Nat.leb_spec (index r) (length buf)); try lia; cbn [obind].
  - eexists. split; [reflexivity|]. replace ((length buf - index r) * 8 + length (waiting q)) with (8 * length buf - fetched q + length (waiting q)) by lia.
    change W32 with (2 ^ 32)%N. destruct (N.leb_spec (N.of_nat n) (N.of_nat (8 * length buf - fetched q + length (waiting q)) mod 2 ^ 32));
      destruct (N.ltb_spec (N.of_nat (8 * length buf - fetched q + length (waiting q)) mod 2 ^ 32) (N.of_nat n)); try reflexivity; lia.
  - reflexivity.
Qed.

Definition sym_result {S : Type} (o : option S) : result S codebook_error :=
  match o with Some s => Okay s | None => Error InvalidCode end.

Lemma read_loop_queue : forall (S : Type) (cb : codebook S) e m buf, bytes buf ->
  forall rounds d fuel lo hi off B codes r q, rounds <= fuel ->
  serves d (reader_for m) (cb_table cb) lo hi off B -> matching (cb_syms cb) B codes -> pf B -> nonempty B -> B <> [] ->
  maxl B <= 10 * rounds -> (forall w i, In (w, i) B -> (N.of_nat i < 2 ^ 24)%N) -> rep e buf r q ->
  match q_decode rounds e m (bits_of e buf) q codes with
  | Some (q', o) => exists r', read_loop fuel e cb r (N.of_nat off) (lbits B) = Ret (r', sym_result o) /\ rep e buf r' q'
  | None => read_loop fuel e cb r (N.of_nat off) (lbits B) = Panic
  end.
Proof.
  intros S cb e m buf Hb. induction rounds as [|rounds IH];
    intros d fuel lo hi off B codes r q Hf Hs Hm Hpf Hnw Hne Hmax Hidx R.
  - exfalso. destruct B as [|[w i] B]; [congruence|]. specialize (Hnw w i (or_introl eq_refl)).
    pose proof (maxl_in ((w, i) :: B) w i (or_introl eq_refl)). destruct w; [congruence|cbn in *; lia].
  - destruct d as [|d]; [destruct Hs|]. destruct fuel as [|fuel]; [lia|]. cbn [read_loop q_decode].
    rewrite (matching_look _ _ _ _ Hm).
    assert (HL : lbits B <= 10) by (unfold lbits; lia).
    rewrite (peek32_rep e buf r q (lbits B) Hb R ltac:(lia)). cbn [obind].
    set (u0 := snd (q_get32 (bits_of e buf) q (lbits B))).
    set (u := as_written e m u0).
    assert (Lu : length u = lbits B) by (unfold u, u0; rewrite as_written_length, q_get32_length; reflexivity).
    rewrite (value_as_written e m u0). fold u.
    replace (N.to_nat (value (reader_for m) u + N.of_nat off)) with (slot (reader_for m) off u) by (unfold slot; lia).
    destruct (Hs u Lu) as [x [Nx C]]. rewrite (index_nth _ _ _ _ Nx). cbn [obind].
    pose proof (matching_longer _ _ _ _ u Hm) as Hml.
    destruct C as [[w [i [Hin [Lw [Pw ->]]]]]|[[Hs1 [o [_ [_ [Ho [-> V]]]]]]|[-> [Hs1 Hno]]]].
    + apply lastin_in in Hin. (* a codeword of at most ten bits *)
      destruct (lut_entry_fields (N.of_nat i) (length w) (Hidx w i Hin) Lw) as [F1 [F2 [F3 F4]]].
      rewrite F1, F2, F3, F4. cbn [negb].
      destruct (matching_in _ _ _ _ w i Hm Hin) as [s [Hc Hsym]].
      assert (Hcomp : In (w, s) (complete u codes)) by (apply complete_in; split; [exact Hc|split; assumption]).
      destruct (complete u codes) as [|[w1 s1] rest] eqn:Ec; [destruct Hcomp|].
      assert (w1 = w /\ s1 = s) as [-> ->].
      { assert (H1 : In (w1, s1) (complete u codes)) by (rewrite Ec; left; reflexivity).
        apply complete_in in H1. destruct H1 as [Hc1 [_ P1]].
        destruct (matching_in_rev _ _ _ _ w1 s1 Hm Hc1) as [i1 [Hin1 Hs1]].
        assert (w1 = w /\ i1 = i) as [-> ->].
        { destruct (Nat.le_ge_cases (length w1) (length w)) as [Hle|Hle].
          - apply (Hpf w1 i1 w i Hin1 Hin). apply (prefix_comparable _ _ u); assumption.
          - destruct (Hpf w i w1 i1 Hin Hin1) as [-> ->]; [|split; reflexivity]. apply (prefix_comparable _ _ u); assumption. }
        split; [reflexivity|congruence]. }
      pose proof (available_enough e buf r q (length w) R) as Ha.
      destruct (enough (bits_of e buf) q (length w)) as [[|]|].
      * destruct Ha as [a [-> Hlt]]. cbn [obind]. rewrite Hlt. cbn [negb].
        rewrite !Nnat.Nat2N.id. destruct (q_skip_rep e buf r q (length w) Hb R) as [r' [Er R']].
        rewrite Er. cbn [obind]. rewrite (index_nth _ _ _ _ Hsym). cbn [obind]. exists r'. split; [reflexivity|exact R'].
      * destruct Ha as [a [-> Hlt]]. cbn [obind]. rewrite Hlt. cbn [negb]. exists r. split; [reflexivity|exact R].
      * rewrite Ha. reflexivity.
    + (* an escape *)
      assert (Hlb : lbits (sub u B) <= 10) by (unfold lbits; lia).
      destruct (esc_entry_fields (N.of_nat o) _ Ho Hlb) as [F1 [F2 [F3 F4]]].
      rewrite F1, F2, F3, F4. cbn [negb].
      destruct (complete u codes) as [|[w1 s1] rest] eqn:Ec.
      2:{ exfalso. assert (H1 : In (w1, s1) (complete u codes)) by (rewrite Ec; left; reflexivity).
          apply complete_in in H1. destruct H1 as [Hc1 [L1 P1]].
          destruct (matching_in_rev _ _ _ _ w1 s1 Hm Hc1) as [i1 [Hin1 _]].
          exact (no_short_at_escape u B w1 i1 Hpf Hs1 Hin1 L1 P1). }
      assert (Hln : longer u codes <> []) by (intros E; apply (matching_nil _ _ _ _ Hml) in E; congruence).
      assert (Elook : look_ahead (longer u codes) = lbits (sub u B)) by apply (matching_look _ _ _ _ Hml).
      assert (G : match (match enough (bits_of e buf) q (lbits (sub u B)) with
                         | Some true => q_decode rounds e m (bits_of e buf) (q_skip (bits_of e buf) q (lbits B)) (longer u codes)
                         | Some false => Some (q, None)
                         | None => None
                         end) with
        | Some (q', o0) => exists r', (let! avail := available r in
            if (N.of_nat avail mod W32 <? N.of_nat (lbits (sub u B)))%N then Ret (r, Error InvalidCode)
            else let! r'0 := skip_bits e r (lbits B) in
                 read_loop fuel e cb r'0 (N.of_nat o) (N.to_nat (N.of_nat (lbits (sub u B))))) = Ret (r', sym_result o0) /\ rep e buf r' q'
        | None => (let! avail := available r in
            if (N.of_nat avail mod W32 <? N.of_nat (lbits (sub u B)))%N then Ret (r, Error InvalidCode)
            else let! r'0 := skip_bits e r (lbits B) in
                 read_loop fuel e cb r'0 (N.of_nat o) (N.to_nat (N.of_nat (lbits (sub u B))))) = Panic
        end).
      { pose proof (available_enough e buf r q (lbits (sub u B)) R) as Ha.
        destruct (enough (bits_of e buf) q (lbits (sub u B))) as [[|]|].
        - destruct Ha as [a [-> Hlt]]. cbn [obind]. rewrite Hlt. cbn [negb].
          destruct (q_skip_rep e buf r q (lbits B) Hb R) as [r' [Er R']]. rewrite Er. cbn [obind].
          rewrite Nnat.Nat2N.id.
          apply (IH d fuel lo hi o (sub u B) (longer u codes) r' _ ltac:(lia) V Hml (pf_sub u B Hpf) (nonempty_sub u B) Hs1).
          + pose proof (maxl_sub u B). lia.
          + intros w i Hin. apply sub_in in Hin. apply (Hidx (u ++ w)). apply Hin.
          + exact R'.
        - destruct Ha as [a [-> Hlt]]. cbn [obind]. rewrite Hlt. cbn [negb]. exists r. split; [reflexivity|exact R].
        - rewrite Ha. reflexivity. }
      destruct (longer u codes) as [|c cs] eqn:El; [congruence|]. rewrite Elook. exact G.
    + (* nothing *)
      rewrite N.eqb_refl.
      destruct (complete u codes) as [|[w1 s1] rest] eqn:Ec.
      2:{ exfalso. assert (H1 : In (w1, s1) (complete u codes)) by (rewrite Ec; left; reflexivity).
          apply complete_in in H1. destruct H1 as [Hc1 [L1 P1]].
          destruct (matching_in_rev _ _ _ _ w1 s1 Hm Hc1) as [i1 [Hin1 _]]. exact (Hno w1 i1 Hin1 L1 P1). }
      apply (matching_nil _ _ _ _ Hml) in Hs1. rewrite Hs1. exists r. split; [reflexivity|exact R].
Qed.

Lemma numbered_matching : forall (S : Type) m (ds : list (desc S)) k syms,
  (forall j d, nth_error (filter (fun d => 0 <? d_bits d) ds) j = Some d -> nth_error syms (k + j) = Some (d_sym d)) ->
  matching syms (items_of m (number k ds)) (all_codes m ds).
Proof.
  intros S m ds. unfold all_codes. induction ds as [|d ds IH]; intros k syms H; [constructor|].
  cbn [filter] in *. cbn [number]. destruct (Nat.ltb_spec 0 (d_bits d)) as [Hu|Hu].
  - destruct (Nat.eqb_spec (d_bits d) 0); [lia|].
    rewrite items_cons. cbn [map c_code c_bits c_idx]. constructor.
    + split; [reflexivity|]. cbn [fst snd]. specialize (H 0 d eq_refl). rewrite Nat.add_0_r in H. exact H.
    + apply IH. intros j d' Hj. specialize (H (Datatypes.S j) d' Hj). replace (k + Datatypes.S j) with (k + 1 + j) in H by lia. exact H.
  - destruct (Nat.eqb_spec (d_bits d) 0); [|lia]. apply IH. exact H.
Qed.

Lemma read_cb_queue : forall (S : Type) ord m (ds : list (desc S)) cb e buf r q,
  permuting ord -> valid_description m ds -> new_codebook ord ds m = Ret (Okay cb) -> bytes buf -> rep e buf r q ->
  match q_codeword e m ds (bits_of e buf) q with
  | Some (q', o) => exists r', read_cb e cb r = Ret (r', sym_result o) /\ rep e buf r' q'
  | None => read_cb e cb r = Panic
  end.
Proof.
  intros S ord m ds cb e buf r q Hord Hv Hcb Hb R.
  destruct (built S ord m ds cb Hord Hv Hcb) as [Hs [Hl [lo [hi Hsv]]]].
  unfold read_cb, q_codeword. rewrite Hl. change 0%N with (N.of_nat 0).
  apply (read_loop_queue S cb e m buf Hb 26 27 27 lo hi 0 _ _ r q ltac:(lia) Hsv).
  - rewrite Hs. apply numbered_matching. intros j d Hj. unfold used_syms. rewrite Nat.add_0_l.
    apply (map_nth_error d_sym). exact Hj.
  - apply number_pf. apply Hv.
  - apply number_nonempty.
  - destruct (codebook_used S ord m ds cb Hcb) as [d0 [Hd0 Hu0]]. apply In_nth_error in Hd0. destruct Hd0 as [j Hj].
    intros E. assert (Hi : In (word m d0, 0 + rank ds j) (items_of m (number 0 ds))).
    { apply number_in. exists j, d0. repeat split; assumption. }
    rewrite E in Hi. destruct Hi.
  - apply maxl_le. intros w i Hin. apply number_in in Hin. destruct Hin as [j [d [Hj [Hu [-> _]]]]].
    unfold word. rewrite codeword_length. apply nth_error_In in Hj. destruct Hv as [Hfit _].
    destruct (Hfit d Hj Hu) as [Hle _]. destruct m; cbn [longest] in Hle; lia.
  - apply (valid_idx S m ds Hv).
  - exact R.
Qed.

Lemma mixed_queue : forall (S : Type) ord m (ds : list (desc S)) cb e buf,
  permuting ord -> valid_description m ds -> new_codebook ord ds m = Ret (Okay cb) -> bytes buf ->
  forall steps r q, rep e buf r q -> Forall step_ok steps ->
  match q_steps e m ds (bits_of e buf) q steps with
  | Some (q', os) => exists r', run_mixed e cb r steps = Ret (r', os) /\ rep e buf r' q'
  | None => run_mixed e cb r steps = Panic
  end.
Proof.
  intros S ord m ds cb e buf Hord Hv Hcb Hb. induction steps as [|[op|d] steps IH]; intros r q R Hok; cbn [q_steps run_mixed].
  - exists r. split; [reflexivity|exact R].
  - inversion Hok as [|? ? H1 H2]; subst. cbn [step_ok q_step] in *. pose proof (q_op_rep e buf r q op Hb R H1) as G.
    destruct (q_op e (bits_of e buf) q op) as [[q1 o]|].
    + destruct G as [r1 [E R1]]. rewrite E. cbn [obind]. specialize (IH r1 q1 R1 H2).
      destruct (q_steps e m ds (bits_of e buf) q1 steps) as [[q2 os]|].
      * destruct IH as [r2 [E2 R2]]. rewrite E2. cbn [obind]. exists r2. split; [reflexivity|exact R2].
      * rewrite IH. reflexivity.
    + rewrite G. reflexivity.
  - inversion Hok as [|? ? H1 H2]; subst. cbn [q_step] in *.
    pose proof (read_cb_queue S ord m ds cb e buf r q Hord Hv Hcb Hb R) as G.
    destruct (q_codeword e m ds (bits_of e buf) q) as [[q1 o]|].
    + destruct G as [r1 [E R1]]. rewrite E. cbn [obind]. specialize (IH r1 q1 R1 H2).
      destruct o as [s|]; cbn [sym_result];
        (destruct (q_steps e m ds (bits_of e buf) q1 steps) as [[q2 os]|];
         [destruct IH as [r2 [E2 R2]]; rewrite E2; cbn [obind]; exists r2; split; [reflexivity|exact R2]
         |rewrite IH; reflexivity]).
    + rewrite G. reflexivity.
Qed.

Lemma new_rep : forall e buf, bytes buf -> exists r0, new e buf = Ret r0 /\
  rep e buf r0 (fetch64 (bits_of e buf) (mk_queue [] 0)).
Proof.
  intros e buf Hb. unfold new. destruct (rep_refill64 e buf _ _ Hb (rep_start e buf)) as [r [E R]].
  exists r. split; [exact E|exact R].
Qed.

Lemma codeword_queue_exact : forall (S : Type) ord m (ds : list (desc S)) cb e buf steps,
  permuting ord -> valid_description m ds -> new_codebook ord ds m = Ret (Okay cb) -> bytes buf -> Forall step_ok steps ->
  exists r0, new e buf = Ret r0 /\
  match q_mixed e m ds buf steps with
  | Some (q, outs) => exists r, run_mixed e cb r0 steps = Ret (r, outs) /\
      left r = length (waiting q) /\ consumed r = Ret (fetched q - length (waiting q))
  | None => run_mixed e cb r0 steps = Panic
  end.
Proof.
  intros S ord m ds cb e buf steps Hord Hv Hcb Hb Hok. destruct (new_rep e buf Hb) as [r0 [E0 R0]].
  exists r0. split; [exact E0|]. pose proof (mixed_queue S ord m ds cb e buf Hord Hv Hcb Hb steps r0 _ R0 Hok) as G.
  unfold q_mixed. destruct (q_steps e m ds (bits_of e buf) _ steps) as [[q os]|]; [|exact G].
  destruct G as [r [E R]]. exists r. split; [exact E|]. split; [apply R|]. apply (rep_consumed e buf). exact R.
Qed.
