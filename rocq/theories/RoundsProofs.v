(** How many rounds [read_event] takes. *)
From Coq Require Import List Arith NArith ZArith Bool Lia.
From Coq Require Import ZifyBool ZifyNat ZifyN.
From Verif Require Import Base AccModel AccSpec AccProofs AccProofs2 FormatModel DemuxModel DemuxSpec DemuxProofs DemuxProofs2 DemuxProofs3 RetryProofs CallsProofs
  DemuxCallsProofs.
Import ListNotations.
Local Open Scope nat_scope.

Section Rounds.
Context {R P D : Type}.
Variable i : io R.
Variable src : list N.
Variable good : R -> Prop.
Variable tell : R -> nat.
Hypothesis Hsrc : source_ok i src good tell.
Variable ps : parser P D.
Hypothesis Hinc : incremental ps.
Hypothesis Hskip : skips_forward ps.
Notation rep := (rep src good tell).
Notation bio := (acc_buffered i).
Notation dm := (parser_demuxer ps bio).
Notation at_state := (at_state src good tell).
Notation taken := (fun a : acc R => tell (inner a)).

Lemma grow_taken : forall a p n, rep a p -> 0 < n -> forall a3 d, fill_buf i (grow a n) = Ret (a3, Okay d) -> taken a <= taken a3.
Proof.
  intros a p n Hr Hn a3 d E. destruct (grow_fill i src good tell Hsrc a p n Hr Hn) as [a' [res [E' [Hr' Hx]]]].
  rewrite E in E'. injection E' as <- <-. rewrite (rp_tell _ _ _ _ _ Hr), (rp_tell _ _ _ _ _ Hr').
  unfold buffered in Hx. destruct Hx as [_ [_ Hx]]. lia.
Qed.

Lemma seek_taken : forall a p z a' q, rep a p -> (0 <= z)%Z -> seek i a (Current z) = Ret (a', Okay q) -> rep a' q /\ taken a <= taken a'.
Proof.
  intros a p z a' q Hr Hz E. destruct (seek_rep i src good tell Hsrc a p (Current z) Hr Hz) as [a2 [res [E2 [_ Hx]]]].
  rewrite E in E2. injection E2 as <- <-. destruct Hx as [Hq Hr']. split; [exact Hr'|].
  pose proof (rp_tell _ _ _ _ _ Hr) as Ht. pose proof (rp_tell _ _ _ _ _ Hr') as Ht'. cbn [target] in Hq.
  destruct (Nat.le_gt_cases (Z.to_nat z) (held a)) as [Hle|Hgt]; [|unfold held in Hgt; lia].
  rewrite <- (Z2Nat.id z Hz) in E. rewrite (seek_in i a (Z.to_nat z)) in E; [|split; apply Hr|exact Hle]. injection E as <- _. reflexivity.
Qed.

Lemma round_taken : forall c c' d p info, at_state c d p info -> round dm bio c = Ret (inr c') -> taken (c_reader c) <= taken (c_reader c').
Proof.
  intros [d a info] c' d0 p info0 [_ [Hr _]] H. cbn [c_reader] in *.
  destruct (rep_prefix src good tell a p Hr) as [dat [more [Hdat [_ [Hlen _]]]]].
  unfold round, read_event_internal in H. cbn [parser_demuxer dm_event acc_buffered b_data b_seek b_fill b_grow c_demuxer c_reader c_info] in H.
  rewrite Hdat in H. cbn [obind] in H. destruct (ps_event ps d dat) as [d' res] eqn:Ep. cbn [obind] in H.
  destruct res as [[s ev]|e].
  - destruct (seek i a s) as [[a2 [q|e]]| |] eqn:Es; cbn [obind] in H; try discriminate.
    destruct ev as [pk|st|k| |]; try discriminate.
    + destruct (t_timebase (p_t pk)); [discriminate|]. destruct (find _ _); discriminate.
    + destruct (Hskip _ _ _ _ _ Ep) as [_ [z [Hz ->]]]. destruct (seek_taken a p z a2 q Hr ltac:(lia) Es) as [Hr2 Ht2].
      cbn [obind c_reader c_demuxer c_info] in H.
      destruct (rep_prefix src good tell a2 q Hr2) as [dat2 [more2 [Hdat2 _]]]. rewrite Hdat2 in H. cbn [obind] in H.
      destruct (Nat.leb_spec k (length dat2)) as [Hk|Hk]; [injection H as <-; exact Ht2|].
      destruct (fill_buf i (grow a2 k)) as [[a3 [d3|e]]| |] eqn:Ef; cbn [obind] in H; try discriminate.
      destruct (data a3) as [dd| |]; cbn [obind] in H; try discriminate.
      destruct (length dd <=? length dat2); [discriminate|]. injection H as <-. cbn [c_reader].
      pose proof (grow_taken a2 q k Hr2 ltac:(lia) a3 d3 Ef). lia.
  - destruct e as [|k|e]; try discriminate. cbn [obind c_reader c_demuxer c_info] in H. rewrite Hdat in H. cbn [obind] in H.
    destruct (inc_more ps Hinc _ _ _ _ Ep) as [_ Hk]. destruct (Nat.leb_spec k (length dat)) as [Hk'|_]; [lia|].
    destruct (fill_buf i (grow a k)) as [[a3 [d3|e]]| |] eqn:Ef; cbn [obind] in H; try discriminate.
    destruct (data a3) as [dd| |]; cbn [obind] in H; try discriminate.
    destruct (length dd <=? length dat); [discriminate|]. injection H as <-. cbn [c_reader].
    apply (grow_taken a p k Hr ltac:(lia) a3 d3 Ef).
Qed.

Lemma event_rounds : forall left c d p info, at_state c d p info -> (length src - p) + (length src - taken (c_reader c)) < left ->
  exists c' r d' p' info', read_event dm bio left c = Ret (c', Some r) /\ at_state c' d' p' info'.
Proof.
  induction left as [|left IH]; intros c d p info H Hl; [lia|].
  destruct (round_any i src good tell Hsrc ps Hinc c d p info H) as [H1|[H1|[H1|H1]]].
  - destruct H1 as [c1 [r1 [E1 [d1 [p1 [info1 [H' _]]]]]]]. exists c1, r1, d1, p1, info1. rewrite read_event_round, E1. split; [reflexivity|exact H'].
  - destruct H1 as [c1 [E1 [H' Hlt]]]. pose proof (rp_avail _ _ _ _ _ (proj1 (proj2 H'))) as Ha.
    pose proof (rp_tell _ _ _ _ _ (proj1 (proj2 H'))) as Ht1. pose proof (rp_tell _ _ _ _ _ (proj1 (proj2 H))) as Ht. unfold buffered in Hlt.
    destruct (IH c1 d p info H') as [c' [r [d' [p' [info' [En Hs]]]]]]; [lia|].
    exists c', r, d', p', info'. rewrite read_event_round, E1. split; assumption.
  - destruct H1 as [c1 [d1 [p1 [E1 [H' [_ [dat [more [s [k [Hcat [Ep ->]]]]]]]]]]]].
    pose proof (round_taken c c1 d p info H E1) as Ht.
    destruct (Hskip _ _ _ _ _ Ep) as [Hne [z [Hz ->]]].
    assert (p < length src).
    { destruct (Nat.le_gt_cases (length src) p) as [Hle|]; [|assumption]. rewrite (skipn_all2 src Hle) in Hcat. symmetry in Hcat.
      apply app_eq_nil in Hcat. destruct Hcat. contradiction. }
    cbn [target] in *.
    destruct (IH c1 d1 _ info H') as [c' [r [d' [p' [info' [En Hs]]]]]]; [lia|].
    exists c', r, d', p', info'. rewrite read_event_round, E1. split; assumption.
  - destruct H1 as [c1 [e [d1 [p1 [E1 [H' _]]]]]]. exists c1, (Error (Io e)), d1, p1, info. rewrite read_event_round, E1. split; [reflexivity|exact H'].
Qed.

Lemma events_rounds : forall calls c d p info, at_state c d p info ->
  exists c' rs, read_events dm bio (2 * length src + 1) calls c = Ret (c', Some rs) /\ length rs = calls.
Proof.
  induction calls as [|calls IH]; intros c d p info H.
  - exists c, []. split; reflexivity.
  - destruct (event_rounds (2 * length src + 1) c d p info H) as [c1 [r [d' [p' [info' [E1 H1]]]]]]; [lia|].
    destruct (IH c1 d' p' info' H1) as [c2 [rs [E2 L]]]. exists c2, (r :: rs). split; [|cbn [length]; lia].
    cbn [read_events]. rewrite E1. cbn [obind]. rewrite E2. reflexivity.
Qed.
End Rounds.

Lemma rounds_bound : forall (S P D : Type) (i : io S) src good tell (ps : parser P D) cap r0 d calls,
  source_ok i src good tell -> incremental ps -> skips_forward ps -> good r0 -> tell r0 = 0 ->
  exists c' rs, read_events (parser_demuxer ps (acc_buffered i)) (acc_buffered i) (2 * length src + 1) calls (context_new d (with_capacity cap r0)) =
    Ret (c', Some rs) /\ length rs = calls.
Proof.
  intros S P D i src good tell ps cap r0 d calls Hs Hi Hk Hg Ht.
  apply (events_rounds i src good tell Hs ps Hi Hk calls _ d 0 (mk_info None None [])). apply fresh_at; assumption.
Qed.
