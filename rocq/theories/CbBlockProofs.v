(** Codeword reads on buffers whose length is a multiple of 8 bytes: exact up to
    the last bit. *)
From Coq Require Import List Arith NArith ZArith Bool Lia Permutation.
From Coq Require Import ZifyBool ZifyNat ZifyN.
From Verif Require Import Base BitModel BitSpec BitProofs BitProofs2 BitQueueSpec BitQueueProofs BitQueueProofs2
  CodebookModel CodebookSpec CodebookProofs CodebookProofs2 CodebookProofs3 CodebookProofs4 CodebookProofs5
  CbQueueSpec CbQueueProofs.
Import ListNotations.
Local Open Scope nat_scope.
Ltac Zify.zify_post_hook ::= Z.div_mod_to_equations.

Definition pfc {S : Type} (codes : pending S) : Prop :=
  forall w s w' s', In (w, s) codes -> In (w', s') codes -> is_prefix w w' -> w = w' /\ s = s'.

Lemma longer_in : forall (S : Type) u (codes : pending S) w s,
  In (w, s) (longer u codes) <-> length u = 10 /\ w <> [] /\ In (u ++ w, s) codes.
Proof.
  intros S u codes w s. unfold longer. rewrite in_flat_map. split.
  - intros [[x t] [Hin H]]. cbn [fst snd] in H.
    destruct ((10 <? length x) && same_bits (firstn 10 x) u) eqn:E; [|destruct H].
    apply andb_true_iff in E. destruct E as [E1 E2]. apply Nat.ltb_lt in E1.
    change same_bits with bits_eqb in E2. apply bits_eqb_true in E2. subst u.
    destruct H as [H|[]]. assert (Ew : w = skipn 10 x) by congruence. assert (Es : s = t) by congruence. subst w s. clear H.
    split; [rewrite firstn_length; lia|].
    split; [intros E; apply (f_equal (@length bool)) in E; rewrite skipn_length in E; cbn in E; lia|].
    rewrite firstn_skipn. exact Hin.
  - intros [Lu [Hw Hin]]. exists (u ++ w, s). split; [exact Hin|]. cbn [fst snd].
    assert (0 < length w) by (destruct w; [congruence|cbn; lia]).
    rewrite app_length. replace (10 <? length u + length w) with true by lia.
    rewrite firstn_app, Lu, Nat.sub_diag, firstn_O, app_nil_r, firstn_all2 by lia.
    change same_bits with bits_eqb. replace (bits_eqb u u) with true by (symmetry; apply bits_eqb_true; reflexivity).
    cbn [andb]. left. f_equal. rewrite skipn_app, Lu, Nat.sub_diag, skipn_all2 by lia. reflexivity.
Qed.

Lemma look_ahead_in : forall (S : Type) (codes : pending S) w s, In (w, s) codes ->
  Nat.min (length w) 10 <= look_ahead codes.
Proof.
  intros S codes w s H. unfold look_ahead.
  assert (length w <= fold_right Nat.max 0 (map (fun c => length (fst c)) codes)); [|lia].
  induction codes as [|c codes IH]; [destruct H|]. cbn [map fold_right]. destruct H as [->|H]; [cbn [fst]; lia|].
  specialize (IH H). lia.
Qed.

Lemma look_ahead_10 : forall (S : Type) (codes : pending S), look_ahead codes <= 10.
Proof. intros. unfold look_ahead. lia. Qed.

Lemma look_ahead_max : forall (S : Type) (codes : pending S), codes <> [] ->
  exists w s, In (w, s) codes /\ look_ahead codes = Nat.min (length w) 10.
Proof.
  intros S codes H. unfold look_ahead. induction codes as [|[w s] codes IH]; [congruence|]. cbn [map fold_right fst].
  destruct codes as [|c codes]; [exists w, s; split; [left; reflexivity|cbn; lia]|].
  destruct IH as [w' [s' [Hin E]]]; [discriminate|].
  destruct (Nat.le_ge_cases (fold_right Nat.max 0 (map (fun c => length (fst c)) (c :: codes))) (length w)).
  - exists w, s. split; [left; reflexivity|]. lia.
  - exists w', s'. split; [right; exact Hin|]. lia.
Qed.

Lemma pfc_longer : forall (S : Type) u (codes : pending S), pfc codes -> pfc (longer u codes).
Proof.
  intros S u codes H w s w' s' H1 H2 P. apply longer_in in H1, H2. destruct H1 as [_ [_ H1]], H2 as [_ [_ H2]].
  destruct (H _ _ _ _ H1 H2) as [E ->]; [destruct P as [c ->]; exists c; apply app_assoc|].
  apply app_inv_head in E. split; [exact E|reflexivity].
Qed.

Lemma all_codes_in : forall (S : Type) m (ds : list (desc S)) w s,
  In (w, s) (all_codes m ds) <-> exists d, In d ds /\ used d /\ w = word m d /\ s = d_sym d.
Proof.
  intros S m ds w s. unfold all_codes. rewrite in_map_iff. split.
  - intros [d [E H]]. injection E as <- <-. apply filter_In in H. destruct H as [H1 H2]. apply Nat.ltb_lt in H2.
    exists d. repeat split; assumption.
  - intros [d [H1 [H2 [-> ->]]]]. exists d. split; [reflexivity|]. apply filter_In. split; [exact H1|]. apply Nat.ltb_lt. exact H2.
Qed.

Lemma pfc_all : forall (S : Type) m (ds : list (desc S)), prefix_free m ds -> pfc (all_codes m ds).
Proof.
  intros S m ds H w s w' s' H1 H2 P. apply all_codes_in in H1, H2.
  destruct H1 as [a [Ha [Ua [-> ->]]]], H2 as [b [Hb [Ub [-> ->]]]].
  apply In_nth_error in Ha, Hb. destruct Ha as [i Hi], Hb as [j Hj].
  destruct (Nat.eq_dec i j) as [->|Hne].
  - assert (a = b) by congruence. subst b. split; reflexivity.
  - exfalso. exact (H i j a b Hi Hj Hne Ua Ub P).
Qed.

Lemma all_codes_fit : forall (S : Type) m (ds : list (desc S)) w s, codes_fit m ds -> In (w, s) (all_codes m ds) ->
  0 < length w.
Proof.
  intros S m ds w s H Hin. apply all_codes_in in Hin. destruct Hin as [d [H1 [H2 [-> _]]]].
  unfold word. rewrite codeword_length. destruct (H d H1 H2). unfold used in H2. lia.
Qed.

Lemma complete_unique : forall (S : Type) u (codes : pending S) w s, pfc codes ->
  In (w, s) codes -> length w <= 10 -> is_prefix w u -> exists rest, complete u codes = (w, s) :: rest.
Proof.
  intros S u codes w s Hpf Hin Hl Hp.
  assert (H : In (w, s) (complete u codes)) by (apply complete_in; repeat split; assumption).
  destruct (complete u codes) as [|[w1 s1] rest] eqn:E; [destruct H|].
  assert (H1 : In (w1, s1) (complete u codes)) by (rewrite E; left; reflexivity).
  apply complete_in in H1. destruct H1 as [Hin1 [_ P1]].
  assert (w1 = w /\ s1 = s) as [-> ->]; [|exists rest; reflexivity].
  destruct (Nat.le_ge_cases (length w1) (length w)).
  - apply (Hpf _ _ _ _ Hin1 Hin). apply (prefix_comparable _ _ u); assumption.
  - destruct (Hpf _ _ _ _ Hin Hin1) as [-> ->]; [|split; reflexivity]. apply (prefix_comparable _ _ u); assumption.
Qed.

Lemma complete_none : forall (S : Type) u (codes : pending S) w s, pfc codes -> In (w, s) codes -> w <> u ->
  is_prefix u w -> length u <= 10 -> complete u codes = [].
Proof.
  intros S u codes w s Hpf Hin Hne Hp Hl. destruct (complete u codes) as [|[w1 s1] rest] eqn:E; [reflexivity|exfalso].
  assert (H1 : In (w1, s1) (complete u codes)) by (rewrite E; left; reflexivity).
  apply complete_in in H1. destruct H1 as [Hin1 [_ P1]].
  destruct (Hpf _ _ _ _ Hin1 Hin (prefix_trans _ _ _ P1 Hp)) as [-> _].
  destruct P1 as [c ->]. destruct Hp as [c' E']. 
  assert (length c = 0) by (apply (f_equal (@length bool)) in E'; rewrite !app_length in E'; lia).
  destruct c; [|discriminate]. apply Hne. rewrite app_nil_r. reflexivity.
Qed.

(** ** The queue on blocks *)
Record blk (l : list bool) (q : queue) : Prop := {
  bk_len : length l mod 64 = 0;
  bk_clean : clean l q;
  bk_mod : fetched q mod 64 = 0;
  bk_64 : length (waiting q) <= 64
}.

Lemma blk_blocks : forall l q, blk l q -> blocks l q.
Proof.
  intros l q [H C M L]. constructor; try assumption. rewrite firstn_all2; [exact C|]. lia.
Qed.

Lemma blocks_blk : forall l q, length l mod 64 = 0 -> blocks l q -> blk l q.
Proof.
  intros l q H [C M L]. constructor; try assumption. rewrite firstn_all2 in C; [exact C|]. lia.
Qed.

Lemma blk_pos : forall l q, blk l q -> qpos q <= length l.
Proof. intros l q [_ C _ _]. pose proof (cl_fetched _ _ C). unfold qpos. lia. Qed.

Lemma blk_get32 : forall l q n, blk l q -> n <= 32 ->
  snd (q_get32 l q n) = window l (qpos q) n ++ repeat false (n - (length l - qpos q)).
Proof.
  intros l q n [H C M L] Hn. rewrite (get32_clean l q n C Hn).
  pose proof (cl_fetched _ _ C) as Hf. pose proof (cl_pos _ _ C) as Hp.
  unfold read_from, readable.
  replace (qpos q + length (waiting q)) with (fetched q) by (unfold qpos; lia).
  destruct (Nat.leb_spec n (length (waiting q))); cbn [orb].
  - replace (n - (length l - qpos q)) with 0 by (unfold qpos; lia). symmetry. apply app_nil_r.
  - destruct (Nat.leb_spec (fetched q + 64) (length l)).
    + replace (n - (length l - qpos q)) with 0 by (unfold qpos; lia). symmetry. apply app_nil_r.
    + assert (Ef : fetched q = length l) by lia.
      replace (length l - qpos q) with (length (waiting q)) by (unfold qpos; lia). f_equal.
      unfold window. rewrite !firstn_all2; [reflexivity| |]; rewrite skipn_length; unfold qpos; lia.
Qed.

Lemma blk_skip : forall l q n, blk l q -> n <= 64 -> qpos q + n <= length l ->
  blk l (q_skip l q n) /\ qpos (q_skip l q n) = qpos q + n.
Proof.
  intros l q n B Hn Hin. pose proof B as [H C M L]. pose proof (cl_fetched _ _ C) as Hf. pose proof (cl_pos _ _ C) as Hp.
  assert (E : qpos (q_skip l q n) = qpos q + n).
  { rewrite skip_target_spec by assumption. unfold skip_target, skip_far, skip_rest.
    replace (qpos q + length (waiting q)) with (fetched q) by (unfold qpos; lia).
    destruct (Nat.leb_spec n (length (waiting q))); [reflexivity|].
    destruct (Nat.ltb_spec 64 (n - length (waiting q))); [lia|].
    destruct (Nat.leb_spec (fetched q + 0 + 64) (length l)); [unfold qpos in *; lia|].
    exfalso. unfold qpos in Hin. lia. }
  split; [|exact E].
  constructor; [exact H|apply skip_clean; assumption| |].
  - unfold q_skip. destruct (Nat.leb_spec n (length (waiting q))); [exact M|].
    rewrite skip_parts. unfold skip_far, skip_rest. destruct (Nat.ltb_spec 64 (n - length (waiting q))); [lia|].
    unfold fetch64. cbn [waiting fetched]. destruct (_ <=? length l); cbn [drop fetched]; lia.
  - unfold q_skip. destruct (Nat.leb_spec n (length (waiting q))); [cbn [drop waiting]; rewrite skipn_length; lia|].
    rewrite skip_parts. unfold fetch64. cbn [waiting fetched]. destruct (_ <=? length l); cbn [drop waiting].
    + rewrite skipn_length. unfold window. rewrite firstn_length. lia.
    + rewrite !skipn_length. lia.
Qed.

Lemma blk_enough : forall l q n, blk l q -> (N.of_nat (length l) < 2 ^ 32)%N ->
  enough l q n = Some (n <=? length l - qpos q).
Proof.
  intros l q n [_ C _ _] Hl. pose proof (cl_fetched _ _ C) as Hf. pose proof (cl_pos _ _ C) as Hp.
  unfold enough. destruct (Nat.leb_spec (fetched q) (length l)); [|lia]. f_equal.
  replace (length l - fetched q + length (waiting q)) with (length l - qpos q) by (unfold qpos; lia).
  rewrite N.mod_small by (apply N.le_lt_trans with (N.of_nat (length l)); [lia|exact Hl]). lia.
Qed.

(** A codeword that stands at the position is found. *)
Lemma blk_decode : forall (S : Type) rounds m l, (N.of_nat (length l) < 2 ^ 32)%N ->
  forall q (codes : pending S) w s, blk l q -> pfc codes -> In (w, s) codes -> w <> [] -> length w <= 10 * rounds ->
  qpos q + length w <= length l -> window l (qpos q) (length w) = w ->
  exists q', q_decode rounds (reader_for m) m l q codes = Some (q', Some s) /\ blk l q' /\ qpos q' = qpos q + length w.
Proof.
  intros S rounds m l Hl. induction rounds as [|rounds IH]; intros q codes w s B Hpf Hin Hne Hr Hfit Hw.
  - destruct w; [congruence|cbn in Hr; lia].
  - cbn [q_decode]. pose proof (look_ahead_in _ _ _ _ Hin) as HL. pose proof (look_ahead_10 _ codes) as HL2.
    assert (Easw : forall u, as_written (reader_for m) m u = u) by (destruct m; reflexivity).
    rewrite Easw. rewrite (blk_get32 l q _ B) by lia.
    set (u := window l (qpos q) (look_ahead codes) ++ repeat false (look_ahead codes - (length l - qpos q))).
    destruct (Nat.le_gt_cases (length w) 10) as [Hs|Hs].
    + destruct (complete_unique S u codes w s Hpf Hin Hs) as [rest Ec].
      { unfold u. apply window_prefix; [exact Hw|lia]. }
      rewrite Ec, (blk_enough l q _ B Hl). replace (length w <=? length l - qpos q) with true by lia.
      destruct (blk_skip l q (length w) B ltac:(lia) Hfit) as [B' P'].
      eexists. split; [reflexivity|]. split; assumption.
    + assert (En : look_ahead codes = 10) by lia.
      assert (Eu : u = firstn 10 w).
      { unfold u. rewrite En. replace (10 - (length l - qpos q)) with 0 by lia. cbn [repeat]. rewrite app_nil_r.
        rewrite <- Hw, window_firstn by lia. reflexivity. }
      assert (Lu : length u = 10) by (rewrite Eu, firstn_length; lia).
      rewrite (complete_none S u codes w s Hpf Hin); try lia.
      2:{ intros E. rewrite E in Hs. lia. }
      2:{ rewrite Eu. apply prefix_of_firstn. }
      assert (Hin' : In (skipn 10 w, s) (longer u codes)).
      { apply longer_in. split; [exact Lu|]. split.
        - intros E. apply (f_equal (@length bool)) in E. rewrite skipn_length in E. cbn in E. lia.
        - rewrite Eu, firstn_skipn. exact Hin. }
      assert (Lr : length (skipn 10 w) = length w - 10) by apply skipn_length.
      pose proof (look_ahead_10 _ (longer u codes)) as HLr.
      rewrite En.
      destruct (blk_skip l q 10 B ltac:(lia) ltac:(lia)) as [B' P'].
      destruct (IH (q_skip l q 10) (longer u codes) (skipn 10 w) s B' (pfc_longer S u codes Hpf) Hin') as [q' [E' [B2 P2]]].
      * intros E. rewrite E in Lr. cbn in Lr. lia.
      * lia.
      * rewrite P', Lr. lia.
      * rewrite P', Lr, <- (window_skipn l (qpos q) (length w) 10) by lia. rewrite Hw. reflexivity.
      * destruct (longer u codes) as [|c cs] eqn:El; [destruct Hin'|].
        rewrite (blk_enough l q _ B Hl). replace (look_ahead (c :: cs) <=? length l - qpos q) with true by lia.
        exists q'. split; [exact E'|]. split; [exact B2|]. rewrite P2, P', Lr. lia.
Qed.

(** Calls *)
Lemma blk_op : forall e l q op, blk l q -> path64_peek op -> qpos q + op_bits (qpos q) op <= length l ->
  exists q', q_op e l q op = Some (q', snd (spec_op e l (qpos q) op)) /\ blk l q' /\ qpos q' = fst (spec_op e l (qpos q) op).
Proof.
  intros e l q op B Hop Hfit.
  assert (El : firstn (64 * (length l / 64)) l = l) by (apply firstn_all2; pose proof (bk_len _ _ B); lia).
  assert (R64 : forall op', read64 op' -> exists q', q_op e l q op' = Some (q', snd (clamp_op e l (qpos q) op')) /\
            blk l q' /\ qpos q' = fst (clamp_op e l (qpos q) op')).
  { intros op' H'. destruct (blocks_step e l q op' H' (blk_blocks _ _ B)) as [q' [E [B' P']]]. rewrite El in *.
    exists q'. split; [exact E|]. split; [apply blocks_blk; [apply B|exact B']|exact P']. }
  destruct Hop as [Hop|[n [-> Hn]]].
  - destruct op as [|n|n| |n|n|n| | |]; cbn [path64] in Hop; try contradiction; cbn [op_bits] in Hfit; cbn [spec_op fst snd].
    + destruct (R64 OpGetBit I) as [q' [E [B' P']]]. exists q'. cbn [clamp_op fst snd] in *. rewrite Nat.min_l in P' by lia.
      split; [exact E|split; assumption].
    + destruct (R64 (OpGet64 n) Hop) as [q' [E [B' P']]]. exists q'. cbn [clamp_op fst snd] in *. rewrite Nat.min_l in P' by lia.
      replace (n - (length l - qpos q)) with 0 in E by lia. cbn [repeat] in E. rewrite app_nil_r in E.
      split; [exact E|split; assumption].
    + apply (R64 OpPeekBit I).
    + destruct (R64 (OpPeek64 n) Hop) as [q' [E [B' P']]]. exists q'. cbn [clamp_op fst snd] in *.
      replace (n - (length l - qpos q)) with 0 in E by lia. cbn [repeat] in E. rewrite app_nil_r in E.
      split; [exact E|split; assumption].
    + destruct (blk_skip l q n B Hop Hfit) as [B' P']. eexists. split; [reflexivity|]. split; assumption.
    + apply (R64 OpAlign I).
    + apply (R64 OpConsumed I).
    + cbn [q_op]. pose proof (cl_fetched _ _ (bk_clean _ _ B)). pose proof (cl_pos _ _ (bk_clean _ _ B)).
      destruct (Nat.leb_spec (fetched q) (length l)); [|lia]. exists q.
      replace (length l - fetched q + length (waiting q)) with (length l - qpos q) by (unfold qpos; lia).
      split; [reflexivity|]. split; [exact B|reflexivity].
  - cbn [q_op spec_op fst snd op_bits] in *. rewrite (blk_get32 l q n B Hn).
    replace (n - (length l - qpos q)) with 0 by lia. cbn [repeat]. rewrite app_nil_r.
    exists q. split; [reflexivity|]. split; [exact B|reflexivity].
Qed.

Lemma blk_steps : forall (S : Type) m (ds : list (desc S)) l, valid_description m ds -> (N.of_nat (length l) < 2 ^ 32)%N ->
  forall steps q, blk l q -> Forall path64_step steps -> steps_within m ds l (length l) (qpos q) steps ->
  exists q', q_steps (reader_for m) m ds l q steps = Some (q', snd (spec_steps m l (qpos q) steps)) /\ blk l q' /\
    qpos q' = fst (spec_steps m l (qpos q) steps).
Proof.
  intros S m ds l Hv Hl. induction steps as [|[op|d] steps IH]; intros q B Hp Hs; cbn [q_steps spec_steps steps_within] in *.
  - exists q. split; [reflexivity|]. split; [exact B|reflexivity].
  - inversion Hp as [|? ? H1 H2]; subst. destruct Hs as [_ [Hfit Hs]]. cbn [path64_step q_step] in *.
    destruct (blk_op (reader_for m) l q op B H1 Hfit) as [q1 [E1 [B1 P1]]]. rewrite E1.
    destruct (spec_op (reader_for m) l (qpos q) op) as [p1 o]. cbn [fst snd] in *. rewrite <- P1 in *.
    destruct (IH q1 B1 H2 Hs) as [q2 [E2 [B2 P2]]]. rewrite E2.
    destruct (spec_steps m l (qpos q1) steps) as [p2 os]. cbn [fst snd] in *.
    exists q2. split; [reflexivity|]. split; assumption.
  - inversion Hp as [|? ? H1 H2]; subst. destruct Hs as [Hd [Hu [Hfit [Hw Hs]]]]. cbn [q_step].
    assert (Lw : length (word m d) = d_bits d) by (unfold word; apply codeword_length).
    assert (Hin : In (word m d, d_sym d) (all_codes m ds)) by (apply all_codes_in; exists d; repeat split; assumption).
    destruct (blk_decode S 26 m l Hl q (all_codes m ds) (word m d) (d_sym d) B) as [q1 [E1 [B1 P1]]];
      try (rewrite Lw); try assumption.
    + apply pfc_all. apply Hv.
    + intros E. rewrite E in Lw. cbn in Lw. unfold used in Hu. lia.
    + destruct Hv as [Hfit' _]. destruct (Hfit' d Hd Hu) as [Hle _]. destruct m; cbn [longest] in Hle; lia.
    + rewrite Lw in P1. unfold q_codeword. rewrite E1. rewrite <- P1 in *.
      destruct (IH q1 B1 H2 Hs) as [q2 [E2 [B2 P2]]]. rewrite E2.
      destruct (spec_steps m l (qpos q1) steps) as [p2 os]. cbn [fst snd] in *.
      exists q2. split; [reflexivity|]. split; assumption.
Qed.

Lemma path64_step_ok : forall (S : Type) (st : step S), path64_step st -> step_ok st.
Proof.
  intros S [op|d] H; [|exact I]. destruct H as [H|[n [-> H]]]; [|exact H]. destruct op; cbn in *; tauto.
Qed.

Lemma blk_new : forall l, length l mod 64 = 0 -> blk l (fetch64 l (mk_queue [] 0)) /\ qpos (fetch64 l (mk_queue [] 0)) = 0.
Proof.
  intros l H. destruct (fetch64_empty_clean l 0 (Nat.le_0_l _)) as [C P]. split; [|exact P].
  constructor; [exact H|exact C| |].
  - unfold fetch64. cbn [waiting fetched]. destruct (_ <=? _); reflexivity.
  - unfold fetch64. cbn [waiting fetched]. destruct (_ <=? _); cbn [waiting]; [|cbn [length]; lia].
    unfold window. rewrite firstn_length. lia.
Qed.

Lemma blocks_histories_rep : forall (S : Type) ord m (ds : list (desc S)) cb buf steps,
  permuting ord -> valid_description m ds -> new_codebook ord ds m = Ret (Okay cb) ->
  bytes buf -> length buf mod 8 = 0 -> (N.of_nat (8 * length buf) < 2 ^ 32)%N ->
  Forall path64_step steps ->
  steps_within m ds (bits_of (reader_for m) buf) (8 * length buf) 0 steps ->
  exists r0 r q, new (reader_for m) buf = Ret r0 /\
    run_mixed (reader_for m) cb r0 steps = Ret (r, snd (spec_steps m (bits_of (reader_for m) buf) 0 steps)) /\
    rep (reader_for m) buf r q /\ blk (bits_of (reader_for m) buf) q /\
    qpos q = fst (spec_steps m (bits_of (reader_for m) buf) 0 steps).
Proof.
  intros S ord m ds cb buf steps Hord Hv Hcb Hb H8 H32 Hp Hs.
  set (l := bits_of (reader_for m) buf) in *. assert (Ll : length l = 8 * length buf) by apply bits_of_length.
  rewrite <- Ll in Hs, H32. destruct (blk_new l ltac:(lia)) as [B0 P0].
  destruct (new_rep (reader_for m) buf Hb) as [r0 [E0 R0]]. fold l in R0.
  destruct (blk_steps S m ds l Hv H32 steps _ B0 Hp) as [q [Eq [B P]]]; [rewrite P0; exact Hs|]. rewrite P0 in *.
  assert (Hok : Forall step_ok steps) by (eapply Forall_impl; [apply path64_step_ok|exact Hp]).
  pose proof (mixed_queue S ord m ds cb (reader_for m) buf Hord Hv Hcb Hb steps r0 _ R0 Hok) as G.
  fold l in G. rewrite Eq in G. destruct G as [r [E R]]. exists r0, r, q.
  split; [exact E0|]. split; [exact E|]. split; [exact R|]. split; assumption.
Qed.

Lemma blocks_histories : forall (S : Type) ord m (ds : list (desc S)) cb buf steps,
  permuting ord -> valid_description m ds -> new_codebook ord ds m = Ret (Okay cb) ->
  bytes buf -> length buf mod 8 = 0 -> (N.of_nat (8 * length buf) < 2 ^ 32)%N ->
  Forall path64_step steps ->
  steps_within m ds (bits_of (reader_for m) buf) (8 * length buf) 0 steps ->
  exists r0 r, new (reader_for m) buf = Ret r0 /\
    run_mixed (reader_for m) cb r0 steps = Ret (r, snd (spec_steps m (bits_of (reader_for m) buf) 0 steps)) /\
    consumed r = Ret (fst (spec_steps m (bits_of (reader_for m) buf) 0 steps)).
Proof.
  intros S ord m ds cb buf steps H1 H2 H3 H4 H5 H6 H7 H8.
  destruct (blocks_histories_rep S ord m ds cb buf steps H1 H2 H3 H4 H5 H6 H7 H8) as [r0 [r [q [E0 [E [R [B P]]]]]]].
  exists r0, r. split; [exact E0|]. split; [exact E|]. rewrite (rep_consumed _ _ _ _ R). f_equal. exact P.
Qed.
