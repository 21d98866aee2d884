(** [Context] over an [AccReader] whose source may fail. *)
From Coq Require Import List Arith NArith ZArith Bool Lia.
From Coq Require Import ZifyBool ZifyNat ZifyN.
From Verif Require Import Base AccModel AccSpec AccProofs AccProofs2 FormatModel DemuxModel DemuxSpec DemuxProofs DemuxProofs2 DemuxProofs3 DemuxExamples RetrySpec.
Import ListNotations.
Local Open Scope nat_scope.

(** ** Livelock and progress *)

Lemma small_request_hangs : forall (P D R : Type) (dm : demuxer_fns P D R) b (c : dctx P D R) dat needed,
  dm_event dm (c_demuxer c) (c_reader c) = Ret (c_demuxer c, c_reader c, Error (MoreDataNeeded needed)) ->
  b_data b (c_reader c) = Ret dat -> needed <= length dat ->
  forall n, read_event dm b n c = Ret (c, None).
Proof.
  intros P D R dm b [d r info] dat needed E Ed Hl. cbn [c_demuxer c_reader] in *. induction n as [|n IH]; [reflexivity|].
  rewrite read_event_S. unfold read_event_internal. cbn [c_demuxer c_reader c_info]. rewrite E. cbn [obind]. cbn [c_reader]. rewrite Ed. cbn [obind].
  destruct (Nat.leb_spec needed (length dat)); [exact IH|lia].
Qed.

Section Source.
Context {S : Type}.
Variable i : io S.
Variable src : list N.
Variable good : S -> Prop.
Variable tell : S -> nat.
Hypothesis Hsrc : source_ok i src good tell.
Notation rep := (rep src good tell).
Notation bio := (acc_buffered i).

Lemma large_request : forall (P D : Type) (dm : demuxer_fns P D (acc S)) (c : dctx P D (acc S)) p d' needed dat,
  rep (c_reader c) p ->
  dm_event dm (c_demuxer c) (c_reader c) = Ret (d', c_reader c, Error (MoreDataNeeded needed)) ->
  data (c_reader c) = Ret dat -> length dat < needed ->
  exists a', rep a' p /\
  ((exists e, forall n, read_event dm bio (Datatypes.S n) c = Ret (mk_dctx d' a' (c_info c), Some (Error (Io e)))) \/
   (exists dat', data a' = Ret dat' /\ length dat < length dat' /\
      forall n, read_event dm bio (Datatypes.S n) c = read_event dm bio n (mk_dctx d' a' (c_info c))) \/
   (length src <= p + length dat /\ data a' = Ret dat /\
      forall n, read_event dm bio (Datatypes.S n) c = Ret (mk_dctx d' a' (c_info c), Some (Okay Eof)))).
Proof.
  intros P D dm [d a info] p d' needed dat Hr E Hd Hl. cbn [c_demuxer c_reader c_info] in *.
  destruct (rep_prefix src good tell a p Hr) as [dat0 [more [Hd0 [Hcat [Hlen _]]]]].
  rewrite Hd in Hd0. injection Hd0 as <-.
  destruct (grow_fill i src good tell Hsrc a p needed Hr ltac:(lia)) as [a' [res [Ef [Hr' Hres]]]].
  exists a'. split; [exact Hr'|].
  assert (R : forall n, read_event dm bio (Datatypes.S n) (mk_dctx d a info) =
    match res with
    | Error e => Ret (mk_dctx d' a' info, Some (Error (Io e)))
    | Okay _ => let! d3 := data a' in
        if length d3 <=? length dat then Ret (mk_dctx d' a' info, Some (Okay Eof)) else read_event dm bio n (mk_dctx d' a' info)
    end).
  { intros n. rewrite read_event_S. unfold read_event_internal. cbn [c_demuxer c_reader c_info]. rewrite E. cbn [obind].
    cbn [acc_buffered b_data b_fill b_grow c_reader c_demuxer c_info]. rewrite Hd. cbn [obind].
    destruct (Nat.leb_spec needed (length dat)); [lia|]. rewrite Ef. cbn [obind]. destruct res; reflexivity. }
  destruct res as [d3|e].
  - destruct Hres as [Hd3 [Hl3 Hcase]]. rewrite Hd3 in R. cbn [obind] in R.
    destruct (Nat.leb_spec (length d3) (length dat)) as [Hle|Hgt].
    + right. right. split; [lia|]. split; [|exact R]. rewrite (data_rep src good tell a' p Hr').
      rewrite <- Hd, (data_rep src good tell a p Hr). f_equal. f_equal. lia.
    + right. left. exists d3. split; [exact Hd3|]. split; [exact Hgt|exact R].
  - left. exists e. exact R.
Qed.

Section Parser.
Context {P D : Type}.
Variable ps : parser P D.
Notation dm := (parser_demuxer ps bio).
Notation at_state := (at_state src good tell (P := P) (D := D)).

(** A seek within the buffered bytes does not touch the source. *)
Lemma within_seek_ok : forall a p s dat, rep a p -> data a = Ret dat -> within dat s ->
  exists a', seek i a s = Ret (a', Okay (Z.to_nat (target (length src) p s))) /\ rep a' (Z.to_nat (target (length src) p s)).
Proof.
  intros a p s dat H Hd [k [Hk ->]]. rewrite (data_rep src good tell a p H) in Hd. injection Hd as <-.
  rewrite (data_length src good tell a p H) in Hk.
  destruct (seek_rep i src good tell Hsrc a p (Current k) H ltac:(cbn; lia)) as [a' [res [E [_ Hres]]]].
  assert (exists q, res = Okay q) as [q ->].
  { cbn [seek] in E. rewrite csub_ok in E by apply H. cbn [obind] in E. destruct (Z.leb_spec 0 k); [|lia].
    unfold buffered in Hk. destruct (Nat.leb_spec (Z.to_nat k) (aend a - apos a)); [|lia].
    injection E as _ <-. eexists. reflexivity. }
  destruct Hres as [Hq Hr']. replace (Z.to_nat (target (length src) p (Current k))) with q by lia. exists a'. split; assumption.
Qed.

Section Events.
Hypothesis Hinc : incremental ps.

Definition round_answer (c : dctx P D (acc S)) d p info : Prop :=
  exists c' r, round dm bio c = Ret (inl (c', r)) /\
    exists d' p' info', at_state c' d' p' info' /\
      forall m, next_event ps src (Datatypes.S (Datatypes.S m)) d p info = Some (d', p', info', r).
Definition round_more (c : dctx P D (acc S)) d p info : Prop :=
  exists c', round dm bio c = Ret (inr c') /\ at_state c' d p info /\ buffered (c_reader c) < buffered (c_reader c').
Definition round_skip (c : dctx P D (acc S)) d p info : Prop :=
  exists c' d' p', round dm bio c = Ret (inr c') /\ at_state c' d' p' info /\
    (forall m, next_event ps src (Datatypes.S m) d p info = next_event ps src m d' p' info) /\
    exists dat more s k, skipn p src = dat ++ more /\ ps_event ps d dat = (d', Okay (s, MoreData k)) /\ p' = Z.to_nat (target (length src) p s).
Definition round_fail (c : dctx P D (acc S)) d p info : Prop :=
  exists c' e d' p', round dm bio c = Ret (inl (c', Error (Io e))) /\ at_state c' d' p' info /\
    ((d' = d /\ p' = p) \/
     (forall m, next_event ps src (Datatypes.S m) d p info = next_event ps src m d' p' info) \/
     ~ local_seeks ps).

Lemma round_any : forall c d p info, at_state c d p info ->
  round_answer c d p info \/ round_more c d p info \/ round_skip c d p info \/ round_fail c d p info.
Proof.
  intros c d p info [Hd [Hr Hi]]. destruct c as [d0 a info0]. cbn [c_demuxer c_reader c_info] in *. subst d0 info0.
  destruct (rep_prefix src good tell a p Hr) as [dat [more [Hdat [Hcat [Hlen Hend]]]]].
  unfold round_answer, round_more, round_skip, round_fail, round, read_event_internal.
  cbn [parser_demuxer dm_event acc_buffered b_data b_seek b_fill b_grow c_demuxer c_reader c_info]. rewrite Hdat. cbn [obind].
  destruct (ps_event ps d dat) as [d' res] eqn:Ep.
  assert (Full : (forall n, res <> Error (MoreDataNeeded n)) -> ps_event ps d (skipn p src) = (d', res)).
  { intros Hf. rewrite Hcat. apply (inc_stable ps Hinc); assumption. }
  destruct res as [[s ev]|e]; cbn [obind].
  - specialize (Full ltac:(discriminate)). pose proof (inc_seek ps Hinc _ _ _ _ _ Ep) as Hs.
    destruct (seek_rep i src good tell Hsrc a p s Hr (plain_forward s Hs)) as [a' [sr [Es [_ Hsr]]]].
    cbn [b_seek]. rewrite Es. cbn [obind]. destruct sr as [q|e]; cycle 1.
    { right. right. right. cbn [obind].
      assert (NL : ~ local_seeks ps).
      { intros HL. destruct (within_seek_ok a p s dat Hr Hdat (HL _ _ _ _ _ Ep)) as [a2 [E2 _]]. rewrite Es in E2. discriminate E2. }
      destruct Hsr as [[Hsr _]|[q [_ Hsr]]]; eexists _, _, d', _; (split; [reflexivity|]); (split; [apply at_intro; exact Hsr|]);
        right; right; exact NL. }
    destruct Hsr as [Hq Hr']. set (p' := Z.to_nat (target (length src) p s)) in *. replace q with p' in * by lia. clear q Hq.
    assert (Emit : forall r, (forall k, ev <> MoreData k) -> r = Okay (stamped (register info ev) ev) ->
      exists c' r', Ret (@inl _ (dctx P D (acc S)) (mk_dctx d' a' (register info ev), r)) = Ret (inl (c', r')) /\
       exists d'0 p'0 info', at_state c' d'0 p'0 info' /\ forall m, next_event ps src (Datatypes.S (Datatypes.S m)) d p info = Some (d'0, p'0, info', r')).
    { intros r Hne ->. eexists _, _. split; [reflexivity|]. exists d', p', (register info ev). split; [apply at_intro; exact Hr'|].
      intros m. cbn [next_event]. rewrite Full. destruct ev as [?|?|k| |]; try reflexivity. destruct (Hne k eq_refl). }
    destruct ev as [pk|st|k| |].
    + left. cbn [register stamped] in Emit. destruct (t_timebase (p_t pk)) as [tb|] eqn:Et.
      * cbn [obind]. apply Emit; [discriminate|reflexivity].
      * rewrite find_first. destruct (first_stream (g_streams info) (p_stream_index pk)) as [st|] eqn:Ef; cbn [obind];
          (apply Emit; [discriminate|reflexivity]).
    + left. apply Emit; [discriminate|reflexivity].
    + clear Emit.
      destruct (rep_prefix src good tell a' p' Hr') as [dat' [more' [Hdat' [Hcat' [Hlen' Hend']]]]].
      cbn [obind c_reader c_demuxer c_info]. rewrite Hdat'. cbn [obind].
      assert (Shift : forall m, next_event ps src (Datatypes.S m) d p info = next_event ps src m d' p' info).
      { intros m. cbn [next_event]. rewrite Full. reflexivity. }
      destruct (Nat.leb_spec k (length dat')) as [Hk|Hk].
      * right. right. left. exists (mk_dctx d' a' info), d', p'. split; [reflexivity|]. split; [apply at_intro; exact Hr'|].
        split; [exact Shift|]. exists dat, more, s, k. split; [exact Hcat|]. split; [exact Ep|reflexivity].
      * destruct (grow_fill i src good tell Hsrc a' p' k Hr' ltac:(lia)) as [a3 [fr [Ef [Hr3 Hfr]]]].
        cbn [b_fill b_grow]. rewrite Ef. cbn [obind]. destruct fr as [d3|e].
        -- destruct Hfr as [Hd3 [Hl3 Hcase]]. rewrite Hd3. cbn [obind].
           destruct (Nat.leb_spec (length d3) (length dat')) as [Hle|Hgt].
           ++ left. eexists _, _. split; [reflexivity|]. exists d', p', info. split; [apply at_intro; exact Hr3|].
              intros m. rewrite Shift. cbn [next_event]. destruct Hcase as [Hlt|[_ Hall]]; [lia|].
              rewrite (Hend' Hall), app_nil_r in Hcat'. rewrite Hcat'.
              destruct (inc_skip ps Hinc _ _ _ _ _ Ep dat' Hk) as [mm Em]. rewrite Em. reflexivity.
           ++ right. right. left. exists (mk_dctx d' a3 info), d', p'. split; [reflexivity|]. split; [apply at_intro; exact Hr3|].
              split; [exact Shift|]. exists dat, more, s, k. split; [exact Hcat|]. split; [exact Ep|reflexivity].
        -- right. right. right. eexists _, _, d', p'. split; [reflexivity|]. split; [apply at_intro; exact Hr3|].
           right. left. exact Shift.
    + left. apply Emit; [discriminate|reflexivity].
    + left. apply Emit; [discriminate|reflexivity].
  - destruct e as [|k|io].
    + left. eexists _, _. split; [reflexivity|]. exists d', p, info. split; [apply at_intro; exact Hr|].
      intros m. cbn [next_event]. rewrite (Full ltac:(discriminate)). reflexivity.
    + clear Full. destruct (inc_more ps Hinc _ _ _ _ Ep) as [-> Hk]. cbn [c_reader c_demuxer c_info]. rewrite Hdat. cbn [obind].
      destruct (Nat.leb_spec k (length dat)) as [Hk'|_]; [lia|].
      destruct (grow_fill i src good tell Hsrc a p k Hr ltac:(lia)) as [a3 [fr [Ef [Hr3 Hfr]]]].
      cbn [b_fill b_grow]. rewrite Ef. cbn [obind]. destruct fr as [d3|e].
      * destruct Hfr as [Hd3 [Hl3 Hcase]]. rewrite Hd3. cbn [obind].
        destruct (Nat.leb_spec (length d3) (length dat)) as [Hle|Hgt].
        -- left. eexists _, _. split; [reflexivity|]. exists d, p, info. split; [apply at_intro; exact Hr3|].
           intros m. cbn [next_event]. destruct Hcase as [Hlt|[_ Hall]]; [lia|].
           rewrite (Hend Hall), app_nil_r in Hcat. rewrite Hcat, Ep. reflexivity.
        -- right. left. exists (mk_dctx d a3 info). split; [reflexivity|]. split; [apply at_intro; exact Hr3|]. cbn [c_reader]. lia.
      * right. right. right. eexists _, _, d, p. split; [reflexivity|]. split; [apply at_intro; exact Hr3|]. left. split; reflexivity.
    + left. eexists _, _. split; [reflexivity|]. exists d', p, info. split; [apply at_intro; exact Hr|].
      intros m. cbn [next_event]. rewrite (Full ltac:(discriminate)). reflexivity.
Qed.

(** Every call returns, whatever fails. *)
Lemma event_returns : skips_forward ps -> forall c d p info, at_state c d p info ->
  exists n c' r d' p' info', read_event dm bio n c = Ret (c', Some r) /\ at_state c' d' p' info'.
Proof.
  intros Hf c d p info. remember (length src - p) as gap eqn:Hgap. assert (Hg : length src - p <= gap) by lia. clear Hgap.
  revert c d p Hg. induction gap as [gap IHs] using lt_wf_ind. intros c d p Hg.
  remember (length src - p - buffered (c_reader c)) as left eqn:Hleft.
  assert (Hl : length src - p - buffered (c_reader c) <= left) by lia. clear Hleft. revert c Hl.
  induction left as [left IHl] using lt_wf_ind. intros c Hl H.
  destruct (round_any c d p info H) as [H1|[H1|[H1|H1]]].
  - destruct H1 as [c1 [r1 [E1 [d1 [p1 [info1 [H' _]]]]]]]. exists 1, c1, r1, d1, p1, info1. rewrite read_event_round, E1. split; [reflexivity|exact H'].
  - destruct H1 as [c1 [E1 [H' Hlt]]]. pose proof (rp_avail _ _ _ _ _ (proj1 (proj2 H'))) as Ha.
    change (aend (c_reader c1) - apos (c_reader c1)) with (buffered (c_reader c1)) in Ha.
    destruct (IHl (length src - p - buffered (c_reader c1)) ltac:(lia) c1 (le_n _) H') as [n [c' [r [d' [p' [info' [En Hs]]]]]]].
    exists (Datatypes.S n), c', r, d', p', info'. rewrite read_event_round, E1. split; assumption.
  - destruct H1 as [c1 [d1 [p1 [E1 [H' [_ [dat [more [s [k [Hcat [Ep ->]]]]]]]]]]]].
    destruct (Hf _ _ _ _ _ Ep) as [Hne [z [Hz ->]]].
    assert (p < length src).
    { destruct (Nat.le_gt_cases (length src) p) as [Hle|]; [|assumption]. rewrite (skipn_all2 src Hle) in Hcat. symmetry in Hcat.
      apply app_eq_nil in Hcat. destruct Hcat. contradiction. }
    cbn [target] in *.
    destruct (IHs (length src - Z.to_nat (Z.of_nat p + z)) ltac:(lia) c1 d1 _ (le_n _) H') as [n [c' [r [d' [p' [info' [En Hs]]]]]]].
    exists (Datatypes.S n), c', r, d', p', info'. rewrite read_event_round, E1. split; assumption.
  - destruct H1 as [c1 [e [d1 [p1 [E1 [H' _]]]]]]. exists 1, c1, (Error (Io e)), d1, p1, info. rewrite read_event_round, E1. split; [reflexivity|exact H'].
Qed.

Lemma events_return : skips_forward ps -> forall calls c d p info, at_state c d p info ->
  exists n c' rs, read_events dm bio n calls c = Ret (c', Some rs) /\ length rs = calls.
Proof.
  intros Hf. induction calls as [|calls IH]; intros c d p info H.
  - exists 0, c, []. split; reflexivity.
  - destruct (event_returns Hf c d p info H) as [n1 [c1 [r [d' [p' [info' [E1 H1]]]]]]].
    destruct (IH c1 d' p' info' H1) as [n2 [c2 [rs [E2 L]]]]. exists (n1 + n2), c2, (r :: rs). split; [|cbn [length]; lia].
    cbn [read_events]. rewrite (read_event_mono dm bio n1 (n1 + n2) c c1 r E1) by lia. cbn [obind].
    rewrite (read_events_mono dm bio calls n2 (n1 + n2) c1 c2 rs E2) by lia. reflexivity.
Qed.

(** With local seeks, an answer is the next event and an error loses nothing. *)
Lemma event_or_error : local_seeks ps -> no_io_errors ps -> forall n c d p info c' r, at_state c d p info ->
  read_event dm bio n c = Ret (c', Some r) ->
  (exists m d' p' info', next_event ps src m d p info = Some (d', p', info', r) /\ at_state c' d' p' info' /\ forall e, r <> Error (Io e)) \/
  (exists e d' p' k, r = Error (Io e) /\ at_state c' d' p' info /\
     forall m, next_event ps src (k + m) d p info = next_event ps src m d' p' info).
Proof.
  intros HL [HN _]. induction n as [|n IH]; intros c d p info c' r H E; [discriminate E|]. rewrite read_event_round in E.
  destruct (round_any c d p info H) as [H1|[H1|[H1|H1]]].
  - destruct H1 as [c1 [r1 [E1 [d1 [p1 [info1 [H' Hn]]]]]]]. rewrite E1 in E. injection E as <- <-.
    left. exists 2, d1, p1, info1. split; [apply Hn|]. split; [exact H'|].
    intros e ->. specialize (Hn 0). cbn [next_event] in Hn.
    destruct (ps_event ps d (skipn p src)) as [d2 [[s ev]|[|k|io]]] eqn:Ep; try discriminate Hn.
    + destruct ev as [pk|st|k| |]; cbn [stamped register] in Hn; try discriminate Hn.
      destruct (ps_event ps d2 _) as [d3 [[s3 ev3]|[|k3|io3]]] eqn:Ep3; try discriminate Hn.
      * destruct ev3; discriminate Hn.
      * apply (HN _ _ _ _ Ep3).
    + apply (HN _ _ _ _ Ep).
  - destruct H1 as [c1 [E1 [H' _]]]. rewrite E1 in E. apply (IH c1 d p info c' r H' E).
  - destruct H1 as [c1 [d1 [p1 [E1 [H' [Hn _]]]]]]. rewrite E1 in E.
    destruct (IH c1 d1 p1 info c' r H' E) as [G|G].
    + destruct G as [m [d' [p' [info' [En Hs]]]]]. left. exists (Datatypes.S m), d', p', info'. rewrite Hn. split; assumption.
    + destruct G as [e [d' [p' [k [-> [Hs Hk]]]]]]. right. exists e, d', p', (Datatypes.S k). split; [reflexivity|]. split; [exact Hs|].
      intros m. cbn [Nat.add]. rewrite Hn. apply Hk.
  - destruct H1 as [c1 [e [d1 [p1 [E1 [H' Hc]]]]]]. rewrite E1 in E. injection E as <- <-. right.
    destruct Hc as [[-> ->]|[Hn|Hx]]; [exists e, d, p, 0|exists e, d1, p1, 1|contradiction]; (split; [reflexivity|]); (split; [exact H'|]); [reflexivity|exact Hn].
Qed.

Lemma all_events_mono : forall calls n m d p info x, all_events ps src n calls d p info = Some x -> n <= m -> all_events ps src m calls d p info = Some x.
Proof.
  induction calls as [|calls IH]; intros n m d p info x E Hm; cbn [all_events] in *; [exact E|].
  destruct (next_event ps src n d p info) as [[[[d1 p1] info1] r]|] eqn:E1; [|discriminate E].
  rewrite (next_event_mono src ps n m _ _ _ _ E1 Hm).
  destruct (all_events ps src n calls d1 p1 info1) as [[[[d2 p2] info2] rs]|] eqn:E2; [|discriminate E].
  rewrite (IH n m _ _ _ _ E2 Hm). exact E.
Qed.

Lemma events_retried : local_seeks ps -> no_io_errors ps -> forall calls n c d p info c' rs, at_state c d p info ->
  read_events dm bio n calls c = Ret (c', Some rs) ->
  exists m x, all_events ps src m (length (successes rs)) d p info = Some (x, successes rs).
Proof.
  intros HL HN. induction calls as [|calls IH]; intros n c d p info c' rs H E; cbn [read_events] in E.
  - injection E as <- <-. exists 0, (d, p, info). reflexivity.
  - destruct (read_event dm bio n c) as [[c1 [r|]]| |] eqn:E1; try discriminate E. cbn [obind] in E.
    destruct (read_events dm bio n calls c1) as [[c2 [rs'|]]| |] eqn:E2; try discriminate E. cbn [obind] in E.
    injection E as <- <-.
    destruct (event_or_error HL HN n c d p info c1 r H E1) as [G|G].
    + destruct G as [m1 [d1 [p1 [info1 [En [H1 Hne]]]]]]. destruct (IH n c1 d1 p1 info1 c2 rs' H1 E2) as [m2 [[[d2 p2] info2] Ea]].
      exists (m1 + m2), (d2, p2, info2).
      assert (Es : successes (r :: rs') = r :: successes rs').
      { destruct r as [ev|[|k|io]]; try reflexivity. destruct (Hne io eq_refl). }
      rewrite Es. cbn [length all_events].
      rewrite (next_event_mono src ps _ (m1 + m2) _ _ _ _ En) by lia.
      rewrite (all_events_mono _ _ (m1 + m2) _ _ _ _ Ea) by lia. reflexivity.
    + destruct G as [e [d1 [p1 [k [-> [H1 Hk]]]]]]. cbn [successes].
      destruct (IH n c1 d1 p1 info c2 rs' H1 E2) as [m [[[d2 p2] info2] Ea]].
      destruct (successes rs') as [|r rest] eqn:Es.
      * exists 0, (d, p, info). reflexivity.
      * exists (k + m), (d2, p2, info2). cbn [length all_events] in *. rewrite Hk.
        destruct (next_event ps src m d1 p1 info) as [[[[d3 p3] info3] r3]|] eqn:E3; [|discriminate Ea].
        destruct (all_events ps src m (length rest) d3 p3 info3) as [[[[d4 p4] info4] rs4]|] eqn:E4; [|discriminate Ea].
        rewrite (all_events_mono _ _ (k + m) _ _ _ _ E4) by lia. exact Ea.
Qed.
End Events.

(** ** Headers *)

Section Headers.
Hypothesis Hinc : incremental_headers ps.

Lemma hround_any : forall c d p info, at_state c d p info ->
  (exists c' r, hround dm bio c = Ret (inl (c', r)) /\
     exists d' info' res, ps_headers ps d (skipn p src) info = (d', info', res) /\
       (forall n, res <> Error (MoreDataNeeded n)) /\
       match res with
       | Okay s => r = Okay tt /\ exists q, (q = p \/ Z.of_nat q = target (length src) p s) /\ at_state c' d' q info'
       | Error e => r = Error e /\ at_state c' d' p info'
       end) \/
  (exists c' e, hround dm bio c = Ret (inl (c', Error (Io e))) /\ at_state c' d p info) \/
  (exists c', hround dm bio c = Ret (inr c') /\ at_state c' d p info).
Proof.
  intros c d p info [Hd [Hr Hi]]. destruct c as [d0 a info0]. cbn [c_demuxer c_reader c_info] in *. subst d0 info0.
  unfold hround, read_headers_internal. cbn [parser_demuxer dm_headers acc_buffered b_data b_seek b_fill b_grow c_demuxer c_reader c_info].
  destruct (fill_rep i src good tell Hsrc a p Hr) as [a1 [fr [Ef [Hr1 [L1 _]]]]]. rewrite Ef. cbn [obind].
  destruct fr as [dd|e]; cycle 1.
  { right. left. eexists _, _. split; [reflexivity|]. apply at_intro. exact Hr1. }
  destruct (rep_prefix src good tell a1 p Hr1) as [dat [more [Hdat [Hcat [Hlen Hend]]]]]. rewrite Hdat. cbn [obind].
  destruct (ps_headers ps d dat info) as [[d' info'] res] eqn:Ep.
  assert (Full : (forall n, res <> Error (MoreDataNeeded n)) -> ps_headers ps d (skipn p src) info = (d', info', res)).
  { intros Hf. rewrite Hcat. apply (inh_stable ps Hinc); assumption. }
  destruct res as [s|[|k|io]]; cbn [obind].
  - left. destruct (seek_rep i src good tell Hsrc a1 p s Hr1 (plain_forward s (inh_seek ps Hinc _ _ _ _ _ _ Ep))) as [a' [sr [Es [_ Hsr]]]].
    rewrite Es. cbn [obind].
    eexists _, _. split; [reflexivity|]. exists d', info', (Okay s). split; [apply Full; discriminate|]. split; [discriminate|].
    split; [reflexivity|]. destruct sr as [q|e]; [destruct Hsr as [Hq Hr']; exists q; split; [right; exact Hq|apply at_intro; exact Hr']|].
    destruct Hsr as [[Hr' _]|[q [Hq Hr']]]; [exists p|exists q]; (split; [|apply at_intro; exact Hr']); [left; reflexivity|right; exact Hq].
  - left. eexists _, _. split; [reflexivity|]. exists d', info', (Error InvalidData). split; [apply Full; discriminate|]. split; [discriminate|].
    split; [reflexivity|]. apply at_intro. exact Hr1.
  - right. right. destruct (inh_more ps Hinc _ _ _ _ _ _ Ep) as [-> [-> Hk]].
    eexists. split; [reflexivity|]. apply at_intro; apply grow_rep; exact Hr1.
  - left. eexists _, _. split; [reflexivity|]. exists d', info', (Error (Io io)). split; [apply Full; discriminate|]. split; [discriminate|].
    split; [reflexivity|]. apply at_intro. exact Hr1.
Qed.

Lemma headers_any : forall n c d p info c' r, at_state c d p info -> read_headers dm bio n c = Ret (c', Some r) ->
  (exists d' info' res, ps_headers ps d (skipn p src) info = (d', info', res) /\
       match res with
       | Okay s => r = Okay tt /\ exists q, (q = p \/ Z.of_nat q = target (length src) p s) /\ at_state c' d' q info'
       | Error e => r = Error e /\ at_state c' d' p info'
       end) \/
  (exists e, r = Error (Io e) /\ at_state c' d p info).
Proof.
  induction n as [|n IH]; intros c d p info c' r H E; [discriminate E|]. rewrite read_headers_round in E.
  destruct (hround_any c d p info H) as [H1|[H1|H1]].
  - destruct H1 as [c1 [r1 [E1 H1]]]. rewrite E1 in E. injection E as <- <-. left.
    destruct H1 as [d' [info' [res [Ep [_ Hres]]]]]. exists d', info', res. split; [exact Ep|exact Hres].
  - destruct H1 as [c1 [e [E1 H']]]. rewrite E1 in E. injection E as <- <-. right. exists e. split; [reflexivity|exact H'].
  - destruct H1 as [c1 [E1 H']]. rewrite E1 in E. apply (IH c1 d p info c' r H' E).
Qed.

Lemma retries_state : no_io_errors ps -> forall c c' d p info, header_retries dm bio c c' -> at_state c d p info -> at_state c' d p info.
Proof.
  intros [_ HN] c c' d p info Hre. induction Hre as [c|c c1 c2 n e Hre IH E]; intros H; [exact H|].
  destruct (headers_any n c1 d p info c2 _ (IH H) E) as [G|G].
  - destruct G as [d' [info' [res [Ep Hres]]]]. destruct res as [s|e']; destruct Hres as [Hres _]; [discriminate Hres|].
    injection Hres as <-. destruct (HN _ _ _ _ _ _ Ep).
  - destruct G as [e' [_ H']]. exact H'.
Qed.
End Headers.
End Parser.
End Source.

(** ** The example source and parsers *)

Lemma flaky_ok : forall src, source_ok flaky_io src (fun c => cur_src c = src) cur_pos.
Proof.
  intros src. constructor.
  - intros c dst c' dst' res Hg E. exact (so_read _ _ _ _ (cursor_ok src) c dst c' dst' res Hg E).
  - intros c s c' res Hg E. cbn [flaky_io io_seek] in E. unfold flaky_seek in E. rewrite Hg in E.
    destruct (Z.ltb_spec (target (length src) (cur_pos c) s) 0) as [Hn|Hn].
    + assert (c' = c) as -> by congruence. assert (res = Error (OtherError 22)) as -> by congruence. split; [exact Hg|reflexivity].
    + assert (c' = mk_cursor src (Z.to_nat (target (length src) (cur_pos c) s)) (tl (cur_script c))) as -> by congruence.
      assert (res = Okay (Z.to_nat (target (length src) (cur_pos c) s))) as -> by congruence.
      split; [reflexivity|]. cbn [seeks cur_pos]. split; [lia|reflexivity].
Qed.

Lemma padded_incremental : incremental padded_parser.
Proof.
  constructor.
  - intros d dat d' n E. cbn [padded_parser ps_event] in E. destruct dat as [|x [|y rest]]; try discriminate E;
      injection E as <- <-; (split; [reflexivity|cbn; lia]).
  - intros d dat more d' res E Hf. cbn [padded_parser ps_event] in *. destruct dat as [|x [|y rest]];
      [injection E as <- <-; destruct (Hf _ eq_refl)|injection E as <- <-; destruct (Hf _ eq_refl)|exact E].
  - intros d dat d' s ev E. cbn [padded_parser ps_event] in E. destruct dat as [|x [|y rest]]; try discriminate E.
    assert (s = Current (2 + Z.of_N x)) as -> by congruence. unfold plain_seek. lia.
  - intros d dat d' s n E. cbn [padded_parser ps_event] in E. destruct dat as [|x [|y rest]]; discriminate E.
Qed.
Lemma padded_no_io : no_io_errors padded_parser.
Proof.
  split.
  - intros d dat d' e E. cbn [padded_parser ps_event] in E. destruct dat as [|x [|y rest]]; discriminate E.
  - intros d dat info d' info' e E. discriminate E.
Qed.
Lemma padded_skips : skips_forward padded_parser.
Proof. intros d dat d' s n E. cbn [padded_parser ps_event] in E. destruct dat as [|x [|y rest]]; discriminate E. Qed.

Lemma tlv_local : local_seeks tlv_parser.
Proof.
  intros d dat d' s ev E. cbn [tlv_parser ps_event] in E. destruct dat as [|x rest]; [discriminate E|].
  assert (G : forall k, (0 <= k <= Z.of_nat (length (x :: rest)))%Z -> s = Current k -> within (x :: rest) s) by (intros k Hk Hs; exists k; split; assumption).
  destruct (x =? 255)%N; [apply (G 1%Z); [cbn [length]; lia|congruence]|].
  destruct (x =? 254)%N; [apply (G 1%Z); [cbn [length]; lia|congruence]|].
  destruct (x =? 253)%N; [discriminate E|].
  destruct (x =? 0)%N; [apply (G 1%Z); [cbn [length]; lia|congruence]|].
  destruct (Nat.ltb_spec (length rest) (N.to_nat x)); [discriminate E|].
  apply (G (1 + Z.of_N x)%Z); [cbn [length]; lia|congruence].
Qed.
Lemma tlv_no_io : no_io_errors tlv_parser.
Proof.
  split.
  - intros d dat d' e E. cbn [tlv_parser ps_event] in E. destruct dat as [|x rest]; [discriminate E|].
    repeat (match type of E with context [if ?c then _ else _] => destruct c eqn:? end; try discriminate E).
  - intros d dat info d' info' e E. discriminate E.
Qed.
