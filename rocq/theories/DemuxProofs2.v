(** [Context] over an [AccReader]. *)
From Coq Require Import List Arith NArith ZArith Bool Lia.
From Coq Require Import ZifyBool ZifyNat ZifyN.
From Verif Require Import Base AccModel AccSpec AccProofs AccProofs2 FormatModel DemuxModel DemuxSpec DemuxProofs.
Import ListNotations.
Local Open Scope nat_scope.

Section Source.
Context {S : Type}.
Variable i : io S.
Variable src : list N.
Variable good : S -> Prop.
Variable tell : S -> nat.
Hypothesis Hsrc : source_ok i src good tell.
Notation rep := (rep src good tell).
Notation bio := (acc_buffered i).

Lemma rep_prefix : forall a p, rep a p -> exists dat more,
  data a = Ret dat /\ skipn p src = dat ++ more /\ length dat = buffered a /\
  (length src <= p + buffered a -> more = []).
Proof.
  intros a p H. exists (firstn (buffered a) (skipn p src)), (skipn (buffered a) (skipn p src)).
  split; [apply (data_rep src good tell a p H)|]. split; [symmetry; apply firstn_skipn|].
  split; [apply (data_length src good tell a p H)|]. intros Hle. apply skipn_all2. rewrite skipn_length. lia.
Qed.

(** Growing by a positive amount and filling: more data, or the end of the source. *)
Lemma grow_fill : forall a p n, rep a p -> 0 < n -> exists a' res, fill_buf i (grow a n) = Ret (a', res) /\ rep a' p /\
  match res with
  | Okay d => data a' = Ret d /\ length d = buffered a' /\
      (buffered a < buffered a' \/ (buffered a' = buffered a /\ length src <= p + buffered a))
  | Error _ => True
  end.
Proof.
  intros a p n H Hn. pose proof (grow_rep src good tell a p n H) as Hg.
  destruct (fill_rep i src good tell Hsrc _ p Hg) as [a' [res [E [H' [L Hres]]]]].
  exists a', res. split; [exact E|]. split; [exact H'|]. destruct res as [d|e]; [|exact I].
  destruct Hres as [Hd [Hle Hsame]]. split; [exact Hd|]. split.
  - rewrite (data_rep src good tell a' p H') in Hd. injection Hd as <-. apply (data_length src good tell a' p H').
  - change (buffered (grow a n)) with (buffered a) in *.
    destruct (Nat.eq_dec (buffered a') (buffered a)) as [He|Hne]; [|lia].
    right. split; [exact He|]. destruct (Hsame He) as [Hf|Hf]; [|exact Hf].
    cbn [grow abuf] in Hf. rewrite app_length, repeat_length in Hf. pose proof (rp_end _ _ _ _ _ H).
    unfold buffered in Hf. lia.
Qed.

Lemma plain_forward : forall s, plain_seek s -> forward s.
Proof. intros [n|d|d] H; cbn in *; try exact I; try exact H. Qed.
Lemma plain_target : forall s len p, plain_seek s -> (0 <= target len p s)%Z.
Proof. intros [n|d|d] len p H; cbn in *; lia. Qed.

Section Parser.
Context {P D : Type}.
Variable ps : parser P D.
Hypothesis Hnf : never_fails i src good tell.
Notation dm := (parser_demuxer ps bio).

Lemma plain_seek_ok : forall a p s, rep a p -> plain_seek s ->
  exists a', seek i a s = Ret (a', Okay (Z.to_nat (target (length src) p s))) /\ rep a' (Z.to_nat (target (length src) p s)).
Proof.
  intros a p s H Hs. apply (seek_never_fails i src good tell Hsrc Hnf a p s); [exact H|apply plain_forward; exact Hs|].
  pose proof (plain_target s (length src) p Hs). lia.
Qed.

Lemma grow_fill_ok : forall a p n, rep a p -> 0 < n -> exists a' d, fill_buf i (grow a n) = Ret (a', Okay d) /\ rep a' p /\
  data a' = Ret d /\ length d = buffered a' /\
      (buffered a < buffered a' \/ (buffered a' = buffered a /\ length src <= p + buffered a)).
Proof.
  intros a p n H Hn. destruct (grow_fill a p n H Hn) as [a' [res [E [H' Hres]]]].
  destruct (fill_never_fails i src good tell Hsrc Hnf _ p (grow_rep src good tell a p n H)) as [a2 [d [E2 _]]].
  rewrite E in E2. injection E2 as <- ->. exists a', d. split; [exact E|]. split; [exact H'|exact Hres].
Qed.

Definition at_state (c : dctx P D (acc S)) (d : D) (p : nat) (info : global_info P) : Prop :=
  c_demuxer c = d /\ rep (c_reader c) p /\ c_info c = info.

Lemma at_intro : forall d a p info, rep a p -> at_state (mk_dctx d a info) d p info.
Proof. intros d a p info H. split; [reflexivity|]. split; [exact H|reflexivity]. Qed.

Section Events.
Hypothesis Hinc : incremental ps.

(** One round: what happens on [dat ++ more] when only [dat] is buffered. *)
Lemma round_cases : forall c d p info, at_state c d p info ->
  (exists c' r, round dm bio c = Ret (inl (c', r)) /\
     exists d' p' info', at_state c' d' p' info' /\ forall m, next_event ps src (Datatypes.S (Datatypes.S m)) d p info = Some (d', p', info', r)) \/
  (exists c', round dm bio c = Ret (inr c') /\ at_state c' d p info /\
     buffered (c_reader c) < buffered (c_reader c')) \/
  (exists c' d' p', round dm bio c = Ret (inr c') /\ at_state c' d' p' info /\
     forall m, next_event ps src (Datatypes.S m) d p info = next_event ps src m d' p' info).
Proof.
  intros c d p info [Hd [Hr Hi]]. destruct c as [d0 a info0]. cbn [c_demuxer c_reader c_info] in *. subst d0 info0.
  destruct (rep_prefix a p Hr) as [dat [more [Hdat [Hcat [Hlen Hend]]]]].
  unfold round, read_event_internal. cbn [parser_demuxer dm_event acc_buffered b_data b_seek b_fill b_grow c_demuxer c_reader c_info]. rewrite Hdat. cbn [obind].
  destruct (ps_event ps d dat) as [d' res] eqn:Ep.
  assert (Full : (forall n, res <> Error (MoreDataNeeded n)) -> ps_event ps d (skipn p src) = (d', res)).
  { intros Hf. rewrite Hcat. apply (inc_stable ps Hinc); assumption. }
  destruct res as [[s ev]|e]; cbn [obind].
  - specialize (Full ltac:(discriminate)). pose proof (inc_seek ps Hinc _ _ _ _ _ Ep) as Hs.
    destruct (plain_seek_ok a p s Hr Hs) as [a' [Es Hr']]. set (p' := Z.to_nat (target (length src) p s)) in *.
    cbn [b_seek]. rewrite Es. cbn [obind].
    assert (Emit : forall r, (forall k, ev <> MoreData k) -> r = Okay (stamped (register info ev) ev) ->
      exists c' r', Ret (@inl _ (dctx P D (acc S)) (mk_dctx d' a' (register info ev), r)) = Ret (inl (c', r')) /\
       exists d'0 p'0 info', at_state c' d'0 p'0 info' /\ forall m, next_event ps src (Datatypes.S (Datatypes.S m)) d p info = Some (d'0, p'0, info', r')).
    { intros r Hne ->. eexists _, _. split; [reflexivity|]. exists d', p', (register info ev). split; [apply at_intro; exact Hr'|].
      intros m. cbn [next_event]. rewrite Full. destruct ev as [?|?|k| |]; try reflexivity. destruct (Hne k eq_refl). }
    destruct ev as [pk|st|k| |].
    + left. cbn [register stamped] in Emit. destruct (t_timebase (p_t pk)) as [tb|] eqn:Et.
      * cbn [obind]. apply Emit; [discriminate|reflexivity].
      * rewrite find_first. destruct (first_stream (g_streams info) (p_stream_index pk)) as [st|] eqn:Ef; cbn [obind];
          (apply Emit; [discriminate|reflexivity]).
    + left. apply Emit; [discriminate|reflexivity].
    + clear Emit.
      destruct (rep_prefix a' p' Hr') as [dat' [more' [Hdat' [Hcat' [Hlen' Hend']]]]].
      cbn [obind c_reader c_demuxer c_info]. rewrite Hdat'. cbn [obind].
      destruct (Nat.leb_spec k (length dat')) as [Hk|Hk].
      * right. right. exists (mk_dctx d' a' info), d', p'. split; [reflexivity|]. split; [apply at_intro; exact Hr'|].
        intros m. cbn [next_event]. rewrite Full. reflexivity.
      * destruct (grow_fill_ok a' p' k Hr' ltac:(lia)) as [a3 [d3 [Ef [Hr3 [Hd3 [Hl3 Hcase]]]]]].
        cbn [b_fill b_grow]. rewrite Ef. cbn [obind]. rewrite Hd3. cbn [obind].
        destruct (Nat.leb_spec (length d3) (length dat')) as [Hle|Hgt].
        -- left. eexists _, _. split; [reflexivity|]. exists d', p', info. split; [apply at_intro; exact Hr3|].
           intros m. cbn [next_event]. rewrite Full. fold p'.
           destruct Hcase as [Hlt|[_ Hall]]; [lia|]. rewrite (Hend' Hall), app_nil_r in Hcat'. rewrite Hcat'.
           destruct (inc_skip ps Hinc _ _ _ _ _ Ep dat' Hk) as [mm Em]. rewrite Em. reflexivity.
        -- right. right. exists (mk_dctx d' a3 info), d', p'. split; [reflexivity|]. split; [apply at_intro; exact Hr3|].
           intros m. cbn [next_event]. rewrite Full. reflexivity.
    + left. apply Emit; [discriminate|reflexivity].
    + left. apply Emit; [discriminate|reflexivity].
  - destruct e as [|k|io].
    + left. eexists _, _. split; [reflexivity|]. exists d', p, info. split; [apply at_intro; exact Hr|].
      intros m. cbn [next_event]. rewrite (Full ltac:(discriminate)). reflexivity.
    + clear Full. destruct (inc_more ps Hinc _ _ _ _ Ep) as [-> Hk]. cbn [c_reader c_demuxer c_info]. rewrite Hdat. cbn [obind].
      destruct (Nat.leb_spec k (length dat)) as [Hk'|_]; [lia|].
      destruct (grow_fill_ok a p k Hr ltac:(lia)) as [a3 [d3 [Ef [Hr3 [Hd3 [Hl3 Hcase]]]]]].
      cbn [b_fill b_grow]. rewrite Ef. cbn [obind]. rewrite Hd3. cbn [obind].
      destruct (Nat.leb_spec (length d3) (length dat)) as [Hle|Hgt].
      * left. eexists _, _. split; [reflexivity|]. exists d, p, info. split; [apply at_intro; exact Hr3|].
        intros m. cbn [next_event]. destruct Hcase as [Hlt|[_ Hall]]; [lia|].
        rewrite (Hend Hall), app_nil_r in Hcat. rewrite Hcat, Ep. reflexivity.
      * right. left. exists (mk_dctx d a3 info). split; [reflexivity|]. split; [apply at_intro; exact Hr3|]. cbn [c_reader]. lia.
    + left. eexists _, _. split; [reflexivity|]. exists d', p, info. split; [apply at_intro; exact Hr|].
      intros m. cbn [next_event]. rewrite (Full ltac:(discriminate)). reflexivity.
Qed.

Lemma next_event_mono : forall n m d p info x, next_event ps src n d p info = Some x -> n <= m -> next_event ps src m d p info = Some x.
Proof.
  induction n as [|n IH]; intros m d p info x E Hm; [discriminate E|]. destruct m as [|m]; [lia|].
  cbn [next_event] in *. destruct (ps_event ps d (skipn p src)) as [d' [[s ev]|[|k|io]]]; try exact E.
  destruct ev; try exact E. apply IH; [exact E|lia].
Qed.

(** A call that returns agrees with the events of the source. *)
Lemma event_sound : forall n c d p info c' r, at_state c d p info -> read_event dm bio n c = Ret (c', Some r) ->
  exists m d' p' info', next_event ps src m d p info = Some (d', p', info', r) /\ at_state c' d' p' info'.
Proof.
  induction n as [|n IH]; intros c d p info c' r H E; [discriminate E|]. rewrite read_event_round in E.
  destruct (round_cases c d p info H) as [H1|[H1|H1]].
  - destruct H1 as [c1 [r1 [E1 [d' [p' [info' [H' Hn]]]]]]]. rewrite E1 in E. injection E as <- <-.
    exists 2, d', p', info'. split; [apply Hn|exact H'].
  - destruct H1 as [c1 [E1 [H' _]]]. rewrite E1 in E. apply (IH c1 d p info c' r H' E).
  - destruct H1 as [c1 [d1 [p1 [E1 [H' Hn]]]]]. rewrite E1 in E.
    destruct (IH c1 d1 p1 info c' r H' E) as [m [d' [p' [info' [En Hs]]]]].
    exists (Datatypes.S m), d', p', info'. split; [rewrite Hn; exact En|exact Hs].
Qed.

(** An event of the source is found. *)
Lemma event_complete : forall m c d p info d' p' info' r, at_state c d p info ->
  next_event ps src m d p info = Some (d', p', info', r) ->
  exists n c', read_event dm bio n c = Ret (c', Some r) /\ at_state c' d' p' info'.
Proof.
  induction m as [|m IHm]; intros c d p info d' p' info' r H E; [discriminate E|].
  remember (length src - p - buffered (c_reader c)) as gap eqn:Hgap.
  assert (Hg : length src - p - buffered (c_reader c) <= gap) by lia. clear Hgap. revert c H Hg.
  induction gap as [|gap IHg]; intros c H Hg; (destruct (round_cases c d p info H) as [H1|[H1|H1]];
   [destruct H1 as [c1 [r1 [E1 [d1 [p1 [info1 [H' Hn]]]]]]]; exists 1, c1;
      pose proof (next_event_mono _ (Datatypes.S (Datatypes.S m)) _ _ _ _ E ltac:(lia)) as E2; rewrite Hn in E2; injection E2 as <- <- <- <-;
      rewrite read_event_round, E1; split; [reflexivity|assumption]
   |destruct H1 as [c1 [E1 [H' Hlt]]]
   |destruct H1 as [c1 [d1 [p1 [E1 [H' Hn]]]]]; rewrite Hn in E;
      destruct (IHm c1 d1 p1 info d' p' info' r H' E) as [n [c' [En Hs]]];
      exists (Datatypes.S n), c'; rewrite read_event_round, E1; split; assumption]).
  - pose proof (rp_avail _ _ _ _ _ (proj1 (proj2 H'))). unfold buffered in *. lia.
  - destruct (IHg c1 H') as [n [c' [En Hs]]]; [lia|].
    exists (Datatypes.S n), c'. rewrite read_event_round, E1. split; assumption.
Qed.

Lemma events_sound : forall calls n c d p info c' rs, at_state c d p info -> read_events dm bio n calls c = Ret (c', Some rs) ->
  exists m d' p' info', all_events ps src m calls d p info = Some (d', p', info', rs) /\ at_state c' d' p' info'.
Proof.
  assert (Mono : forall calls n m d p info x, all_events ps src n calls d p info = Some x -> n <= m -> all_events ps src m calls d p info = Some x).
  { induction calls as [|calls IH]; intros n m d p info x E Hm; cbn [all_events] in *; [exact E|].
    destruct (next_event ps src n d p info) as [[[[d1 p1] info1] r]|] eqn:E1; [|discriminate E].
    rewrite (next_event_mono _ m _ _ _ _ E1 Hm).
    destruct (all_events ps src n calls d1 p1 info1) as [[[[d2 p2] info2] rs]|] eqn:E2; [|discriminate E].
    rewrite (IH n m _ _ _ _ E2 Hm). exact E. }
  induction calls as [|calls IH]; intros n c d p info c' rs H E; cbn [read_events] in E.
  - injection E as <- <-. exists 0, d, p, info. split; [reflexivity|exact H].
  - destruct (read_event dm bio n c) as [[c1 [r|]]| |] eqn:E1; try discriminate E. cbn [obind] in E.
    destruct (read_events dm bio n calls c1) as [[c2 [rs'|]]| |] eqn:E2; try discriminate E. cbn [obind] in E.
    injection E as <- <-.
    destruct (event_sound n c d p info c1 r H E1) as [m1 [d1 [p1 [info1 [En H1]]]]].
    destruct (IH n c1 d1 p1 info1 c2 rs' H1 E2) as [m2 [d2 [p2 [info2 [Ea H2]]]]].
    exists (m1 + m2), d2, p2, info2. split; [|exact H2]. cbn [all_events].
    rewrite (next_event_mono _ (m1 + m2) _ _ _ _ En) by lia. rewrite (Mono _ _ (m1 + m2) _ _ _ _ Ea) by lia. reflexivity.
Qed.

Lemma events_complete : forall calls m c d p info d' p' info' rs, at_state c d p info ->
  all_events ps src m calls d p info = Some (d', p', info', rs) ->
  exists n c', read_events dm bio n calls c = Ret (c', Some rs) /\ at_state c' d' p' info'.
Proof.
  induction calls as [|calls IH]; intros m c d p info d' p' info' rs H E; cbn [all_events] in E.
  - injection E as <- <- <- <-. exists 0, c. split; [reflexivity|exact H].
  - destruct (next_event ps src m d p info) as [[[[d1 p1] info1] r]|] eqn:E1; [|discriminate E].
    destruct (all_events ps src m calls d1 p1 info1) as [[[[d2 p2] info2] rs']|] eqn:E2; [|discriminate E].
    injection E as <- <- <- <-.
    destruct (event_complete m c d p info d1 p1 info1 r H E1) as [n1 [c1 [En1 H1]]].
    destruct (IH m c1 d1 p1 info1 d2 p2 info2 rs' H1 E2) as [n2 [c2 [En2 H2]]].
    exists (n1 + n2), c2. split; [|exact H2]. cbn [read_events].
    rewrite (read_event_mono dm bio n1 (n1 + n2) c c1 r En1) by lia. cbn [obind].
    rewrite (read_events_mono dm bio calls n2 (n1 + n2) c1 c2 rs' En2) by lia. reflexivity.
Qed.

(** Parsers that only skip forward always produce an event. *)
Lemma next_event_total : skips_forward ps -> forall d p info, exists m x, next_event ps src m d p info = Some x.
Proof.
  intros Hf d p info. remember (length src - p) as gap eqn:Hgap. assert (Hg : length src - p <= gap) by lia. clear Hgap.
  revert d p Hg. induction gap as [|gap IH]; intros d p Hg.
  - exists 1. cbn [next_event]. destruct (ps_event ps d (skipn p src)) as [d' [[s ev]|[|k|io]]] eqn:Ep; try (eexists; reflexivity).
    destruct ev; try (eexists; reflexivity). exfalso. destruct (Hf _ _ _ _ _ Ep) as [Hne _]. apply Hne. apply skipn_all2. lia.
  - destruct (ps_event ps d (skipn p src)) as [d' [[s ev]|[|k|io]]] eqn:Ep;
      try (exists 1; eexists; cbn [next_event]; rewrite Ep; reflexivity).
    destruct ev as [pk|st|n| |]; try (exists 1; eexists; cbn [next_event]; rewrite Ep; reflexivity).
    destruct (Hf _ _ _ _ _ Ep) as [Hne [k [Hk ->]]].
    destruct (IH d' (Z.to_nat (target (length src) p (Current k)))) as [m [x Em]]; [cbn [target]; lia|].
    exists (Datatypes.S m), x. cbn [next_event]. rewrite Ep. exact Em.
Qed.

End Events.

(** ** Headers *)

Section Headers.
Hypothesis Hinc : incremental_headers ps.

Lemma headers_cases : forall c d p info, at_state c d p info ->
  (exists c' r, hround dm bio c = Ret (inl (c', r)) /\
     exists d' info' res, ps_headers ps d (skipn p src) info = (d', info', res) /\
       (forall n, res <> Error (MoreDataNeeded n)) /\
       match res with
       | Okay s => r = Okay tt /\ at_state c' d' (Z.to_nat (target (length src) p s)) info'
       | Error e => r = Error e /\ at_state c' d' p info'
       end) \/
  (exists c', hround dm bio c = Ret (inr c') /\ at_state c' d p info /\
     buffered (c_reader c') < length (abuf (c_reader c')) /\
     (buffered (c_reader c) < length (abuf (c_reader c)) -> buffered (c_reader c) < buffered (c_reader c') \/ length src <= p + buffered (c_reader c')) /\
     (length src <= p + buffered (c_reader c') -> exists k, ps_headers ps d (skipn p src) info = (d, info, Error (MoreDataNeeded k)))).
Proof.
  intros c d p info [Hd [Hr Hi]]. destruct c as [d0 a info0]. cbn [c_demuxer c_reader c_info] in *. subst d0 info0.
  unfold hround, read_headers_internal. cbn [parser_demuxer dm_headers acc_buffered b_data b_seek b_fill b_grow c_demuxer c_reader c_info].
  destruct (fill_rep i src good tell Hsrc a p Hr) as [a1 [fr [Ef [Hr1 [L1 Hfr]]]]].
  destruct (fill_never_fails i src good tell Hsrc Hnf a p Hr) as [a2 [dd [Ef2 _]]]. rewrite Ef in Ef2. injection Ef2 as <- ->.
  rewrite Ef. cbn [obind]. destruct Hfr as [_ [Hmono Hsame]].
  destruct (rep_prefix a1 p Hr1) as [dat [more [Hdat [Hcat [Hlen Hend]]]]]. rewrite Hdat. cbn [obind].
  destruct (ps_headers ps d dat info) as [[d' info'] res] eqn:Ep.
  assert (Full : (forall n, res <> Error (MoreDataNeeded n)) -> ps_headers ps d (skipn p src) info = (d', info', res)).
  { intros Hf. rewrite Hcat. apply (inh_stable ps Hinc); assumption. }
  destruct res as [s|[|k|io]]; cbn [obind].
  - left. destruct (plain_seek_ok a1 p s Hr1 (inh_seek ps Hinc _ _ _ _ _ _ Ep)) as [a' [Es Hr']]. rewrite Es. cbn [obind].
    eexists _, _. split; [reflexivity|]. exists d', info', (Okay s). split; [apply Full; discriminate|]. split; [discriminate|].
    split; [reflexivity|]. apply at_intro. exact Hr'.
  - left. eexists _, _. split; [reflexivity|]. exists d', info', (Error InvalidData). split; [apply Full; discriminate|]. split; [discriminate|].
    split; [reflexivity|]. apply at_intro. exact Hr1.
  - right. destruct (inh_more ps Hinc _ _ _ _ _ _ Ep) as [-> [-> Hk]].
    eexists. split; [reflexivity|]. split; [apply at_intro; apply grow_rep; exact Hr1|]. cbn [c_reader c_demuxer c_info].
    change (buffered (grow a1 k)) with (buffered a1). split; [|split].
    + cbn [grow abuf]. rewrite app_length, repeat_length. pose proof (rp_end _ _ _ _ _ Hr1). unfold buffered. lia.
    + intros Hnfull. destruct (Nat.eq_dec (buffered a1) (buffered a)) as [He|He]; [|lia].
      destruct (Hsame He) as [Hx|Hx]; lia.
    + intros Hall. rewrite Hcat, (Hend Hall), app_nil_r. exists k. exact Ep.
  - left. eexists _, _. split; [reflexivity|]. exists d', info', (Error (Io io)). split; [apply Full; discriminate|]. split; [discriminate|].
    split; [reflexivity|]. apply at_intro. exact Hr1.
Qed.

(** Complete headers are found. *)
Lemma headers_complete : forall c d p info d' info' res, at_state c d p info ->
  ps_headers ps d (skipn p src) info = (d', info', res) -> (forall n, res <> Error (MoreDataNeeded n)) ->
  exists n c', match res with
  | Okay s => read_headers dm bio n c = Ret (c', Some (Okay tt)) /\ at_state c' d' (Z.to_nat (target (length src) p s)) info'
  | Error e => read_headers dm bio n c = Ret (c', Some (Error e)) /\ at_state c' d' p info'
  end.
Proof.
  intros c d p info d' info' res H E Hf.
  assert (G : forall gap c, at_state c d p info -> buffered (c_reader c) < length (abuf (c_reader c)) ->
    length src - p - buffered (c_reader c) <= gap ->
    exists n c', match res with
    | Okay s => read_headers dm bio n c = Ret (c', Some (Okay tt)) /\ at_state c' d' (Z.to_nat (target (length src) p s)) info'
    | Error e => read_headers dm bio n c = Ret (c', Some (Error e)) /\ at_state c' d' p info'
    end).
  { clear c H. induction gap as [|gap IH]; intros c H Hfull Hg; (destruct (headers_cases c d p info H) as [H1|H1];
      [destruct H1 as [c' [r [E1 [d1 [info1 [res1 [Ep [_ Hres]]]]]]]]; rewrite E in Ep; injection Ep as <- <- <-;
        exists 1, c'; destruct res as [s|e]; destruct Hres as [-> Hs]; rewrite read_headers_round, E1; split; [reflexivity|exact Hs|reflexivity|exact Hs]
      |destruct H1 as [c' [E1 [H' [Hf' [Hprog Hall]]]]]]).
    - exfalso. pose proof (rp_avail _ _ _ _ _ (proj1 (proj2 H'))) as Ha. change (aend (c_reader c') - apos (c_reader c')) with (buffered (c_reader c')) in Ha.
      destruct (Hall ltac:(lia)) as [k Ek]. rewrite E in Ek. injection Ek as _ _ ->. apply (Hf k). reflexivity.
    - destruct (Hprog Hfull) as [Hlt|Hge].
      + destruct (IH c' H' Hf' ltac:(lia)) as [n [c2 G]]. exists (Datatypes.S n), c2. rewrite read_headers_round, E1. exact G.
      + destruct (Hall Hge) as [k Ek]. rewrite E in Ek. injection Ek as _ _ ->. destruct (Hf k). reflexivity. }
  destruct (headers_cases c d p info H) as [H1|H1].
  - destruct H1 as [c' [r [E1 [d1 [info1 [res1 [Ep [_ Hres]]]]]]]]. rewrite E in Ep. injection Ep as <- <- <-.
    exists 1, c'. destruct res as [s|e]; destruct Hres as [-> Hs]; rewrite read_headers_round, E1; (split; [reflexivity|exact Hs]).
  - destruct H1 as [c' [E1 [H' [Hf' _]]]]. destruct (G _ c' H' Hf' (le_n _)) as [n [c2 G']].
    exists (Datatypes.S n), c2. rewrite read_headers_round, E1. exact G'.
Qed.

(** Incomplete headers are never given up. *)
Lemma headers_hang : forall c d p info k, at_state c d p info ->
  ps_headers ps d (skipn p src) info = (d, info, Error (MoreDataNeeded k)) ->
  forall n, exists c', read_headers dm bio n c = Ret (c', None).
Proof.
  intros c d p info k H E n. revert c H. induction n as [|n IH]; intros c H.
  - exists c. reflexivity.
  - rewrite read_headers_round. destruct (headers_cases c d p info H) as [H1|H1].
    + destruct H1 as [c' [r [_ [d1 [info1 [res1 [Ep [Hf _]]]]]]]]. rewrite E in Ep. injection Ep as _ _ <-. destruct (Hf k). reflexivity.
    + destruct H1 as [c' [-> [H' _]]]. apply IH. exact H'.
Qed.

Lemma headers_sound : forall n c d p info c' r, at_state c d p info -> read_headers dm bio n c = Ret (c', Some r) ->
  exists d' info' res, ps_headers ps d (skipn p src) info = (d', info', res) /\
       (forall n, res <> Error (MoreDataNeeded n)) /\
       match res with
       | Okay s => r = Okay tt /\ at_state c' d' (Z.to_nat (target (length src) p s)) info'
       | Error e => r = Error e /\ at_state c' d' p info'
       end.
Proof.
  induction n as [|n IH]; intros c d p info c' r H E; [discriminate E|]. rewrite read_headers_round in E.
  destruct (headers_cases c d p info H) as [H1|H1].
  - destruct H1 as [c1 [r1 [E1 H1]]]. rewrite E1 in E. injection E as <- <-. exact H1.
  - destruct H1 as [c1 [E1 [H' _]]]. rewrite E1 in E. apply (IH c1 d p info c' r H' E).
Qed.

End Headers.
End Parser.

(** ** End of file with an arbitrary demuxer *)

Section AnyDemuxer.
Context {P D : Type}.
Variable dm : demuxer_fns P D (acc S).
Hypothesis Hdm : contract_demuxer i dm.
Hypothesis Hsk : contract_seeks dm.

Definition somewhere (a : acc S) : Prop := exists p, rep a p.

Lemma legal_somewhere : forall a ops a' outs, somewhere a -> acc_legal i a ops -> acc_run i a ops = Ret (a', outs) -> somewhere a'.
Proof.
  intros a ops a' outs [p H] Hl E. destruct (run_rep i src good tell Hsrc ops a p H Hl) as [a1 [o1 [p1 [E1 [H1 _]]]]].
  rewrite E in E1. injection E1 as <- <-. exists p1. exact H1.
Qed.

Lemma internal_somewhere : forall c c' r, somewhere (c_reader c) -> read_event_internal dm bio c = Ret (c', r) -> somewhere (c_reader c').
Proof.
  intros c c' r H E. destruct (internal_spec dm bio c c' r E) as [d' [r' [raw [Ed [_ Hc]]]]].
  destruct (Hdm _ _ _ _ _ Ed) as [ops [outs [Hl Hrun]]]. pose proof (legal_somewhere _ _ _ _ H Hl Hrun) as [p1 Hr'].
  destruct Hc as [[e [_ [_ [-> _]]]]|[[s [ev [r'' [e [-> [Es [_ [-> _]]]]]]]]|[s [ev [r'' [q [-> [Es [-> _]]]]]]]]].
  - exists p1. exact Hr'.
  - cbn [acc_buffered b_seek] in Es. destruct (seek_rep i src good tell Hsrc r' p1 s Hr' (Hsk _ _ _ _ _ _ Ed)) as [a2 [res [E2 [_ Hres]]]].
    rewrite Es in E2. injection E2 as <- <-. destruct Hres as [[Hres _]|[n [_ Hres]]]; eexists; exact Hres.
  - cbn [acc_buffered b_seek] in Es. destruct (seek_rep i src good tell Hsrc r' p1 s Hr' (Hsk _ _ _ _ _ _ Ed)) as [a2 [res [E2 [_ Hres]]]].
    rewrite Es in E2. injection E2 as <- <-. destruct Hres as [_ Hres]. eexists; exact Hres.
Qed.

Lemma round_somewhere : forall c c', somewhere (c_reader c) -> round dm bio c = Ret (inr c') -> somewhere (c_reader c').
Proof.
  intros c c' H E. unfold round in E.
  destruct (read_event_internal dm bio c) as [[c1 res]| |] eqn:Ei; try discriminate E. cbn [obind] in E.
  pose proof (internal_somewhere c c1 res H Ei) as H1.
  destruct res as [ev|[|needed|e]]; try discriminate E. cbn [acc_buffered b_data b_fill b_grow] in E.
  destruct (data (c_reader c1)) as [dat| |] eqn:Edat; try discriminate E. cbn [obind] in E.
  destruct (needed <=? length dat); [injection E as <-; exact H1|].
  destruct H1 as [p1 H1]. destruct (fill_rep i src good tell Hsrc _ p1 (grow_rep src good tell _ p1 needed H1)) as [a3 [fr [Ef [Hr3 _]]]].
  rewrite Ef in E. cbn [obind] in E. destruct fr as [d|e]; [|discriminate E].
  destruct (data a3) as [d3| |]; try discriminate E. cbn [obind] in E. destruct (length d3 <=? length dat); [discriminate E|].
  injection E as <-. exists p1. exact Hr3.
Qed.

(** The context answers end of file because the demuxer did, or at the end of the
    source. *)
Lemma eof_honest : forall n c c', somewhere (c_reader c) -> read_event dm bio n c = Ret (c', Some (Okay Eof)) ->
  (exists d r r' s q, dm_event dm d r = Ret (c_demuxer c', r', Okay (s, Eof)) /\ seek i r' s = Ret (c_reader c', Okay q)) \/
  (exists p dat, seek i (c_reader c') (Current 0) = Ret (c_reader c', Okay p) /\ data (c_reader c') = Ret dat /\
     dat = firstn (length dat) (skipn p src) /\ length src <= p + length dat).
Proof.
  induction n as [|n IH]; intros c c' H E; [discriminate E|]. rewrite read_event_round in E.
  destruct (round dm bio c) as [[[c1 r]|c1]| |] eqn:Er; try discriminate E; cbn [obind] in E.
  - injection E as <- ->. unfold round in Er.
    destruct (read_event_internal dm bio c) as [[c2 res]| |] eqn:Ei; try discriminate Er. cbn [obind] in Er.
    pose proof (internal_somewhere c c2 res H Ei) as [p H1].
    destruct res as [ev|[|needed|e]]; try discriminate Er.
    + injection Er as <- ->. left. destruct (internal_spec dm bio c c2 _ Ei) as [d' [r' [raw [Ed [Hd' Hc]]]]].
      destruct Hc as [[e [_ [Hx _]]]|[[s [ev [r'' [e [_ [_ [Hx _]]]]]]]|[s [ev [r'' [q [-> [Es [Hr'' [_ [[m [_ Hx]]|[_ Hx]]]]]]]]]]]]; try discriminate Hx.
      injection Hx as Hx. assert (ev = Eof).
      { destruct ev as [pk|st|m| |]; try discriminate Hx; [|reflexivity]. cbn [stamped] in Hx.
        destruct (t_timebase (p_t pk)); [discriminate Hx|]. destruct (first_stream _ _); discriminate Hx. }
      subst ev. exists (c_demuxer c), (c_reader c), r', s, q. rewrite Hd', Hr''. split; [exact Ed|exact Es].
    + right. cbn [acc_buffered b_data b_fill b_grow] in Er.
      destruct (rep_prefix (c_reader c2) p H1) as [dat [more [Hdat [Hcat [Hlen Hend]]]]]. rewrite Hdat in Er. cbn [obind] in Er.
      revert Er. destruct (Nat.leb_spec needed (length dat)) as [Hle|Hgt]; intros Er; [discriminate Er|].
      destruct (grow_fill (c_reader c2) p needed H1 ltac:(lia)) as [a3 [fr [Ef [Hr3 Hres]]]]. rewrite Ef in Er. cbn [obind] in Er.
      destruct fr as [d|e]; [|discriminate Er]. destruct Hres as [Hd3 [Hl3 Hcase]]. rewrite Hd3 in Er. cbn [obind] in Er.
      revert Er. destruct (Nat.leb_spec (length d) (length dat)) as [H3|H3]; intros Er; [|discriminate Er].
      injection Er as <-. cbn [c_reader]. exists p, d. split; [|split; [exact Hd3|]].
      * cbn [seek]. rewrite csub_ok by apply Hr3. cbn [obind Z.leb Z.compare Z.to_nat Nat.leb].
        pose proof (rp_index _ _ _ _ _ Hr3) as Hi. destruct a3 as [x1 x2 x3 x4 x5]. cbn [inner abuf apos aend aindex] in *.
        rewrite !Nat.add_0_r, Hi. reflexivity.
      * split; [|lia]. rewrite Hl3. rewrite (data_rep src good tell a3 p Hr3) in Hd3. injection Hd3 as <-. reflexivity.
  - apply (IH c1 c' (round_somewhere c c1 H Er) E).
Qed.

End AnyDemuxer.
End Source.
