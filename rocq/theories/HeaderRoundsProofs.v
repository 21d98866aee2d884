(** How many rounds [read_headers] takes. *)
From Coq Require Import List Arith NArith ZArith Bool Lia.
From Coq Require Import ZifyBool ZifyNat ZifyN.
From Verif Require Import Base AccModel AccSpec AccProofs AccProofs2 FormatModel DemuxModel DemuxSpec DemuxProofs DemuxProofs2 DemuxProofs3 DemuxExamples RetrySpec RetryProofs.
Import ListNotations.
Local Open Scope nat_scope.

Section Rounds.
Context {R P D : Type}.
Variable i : io R.
Variable src : list N.
Variable good : R -> Prop.
Variable tell : R -> nat.
Hypothesis Hsrc : source_ok i src good tell.
Variable ps : parser P D.
Hypothesis Hnf : never_fails i src good tell.
Hypothesis Hinc : incremental_headers ps.
Notation bio := (acc_buffered i).
Notation dm := (parser_demuxer ps bio).
Notation at_state := (at_state src good tell).

Definition decided n c d' p info' (res : result seek_from error) := exists c', match res with
  | Okay s => read_headers dm bio n c = Ret (c', Some (Okay tt)) /\ at_state c' d' (Z.to_nat (target (length src) p s)) info'
  | Error e => read_headers dm bio n c = Ret (c', Some (Error e)) /\ at_state c' d' p info'
  end.

(** A round decides, or it leaves fewer bytes to read. *)
Lemma round_decides : forall n c d p info d' info' res, at_state c d p info ->
  ps_headers ps d (skipn p src) info = (d', info', res) -> (forall k, res <> Error (MoreDataNeeded k)) ->
  decided (S n) c d' p info' res \/
  exists c', at_state c' d p info /\ buffered (c_reader c') < length (abuf (c_reader c')) /\ p + buffered (c_reader c') < length src /\
    (buffered (c_reader c) < length (abuf (c_reader c)) -> buffered (c_reader c) < buffered (c_reader c')) /\
    (decided n c' d' p info' res -> decided (S n) c d' p info' res).
Proof.
  intros n c d p info d' info' res H E Hf.
  destruct (headers_cases i src good tell Hsrc ps Hnf Hinc c d p info H) as [H1|H1].
  - left. destruct H1 as [c' [r [E1 [d1 [info1 [res1 [Ep [_ Hres]]]]]]]]. rewrite E in Ep. injection Ep as <- <- <-.
    exists c'. destruct res as [s|e]; destruct Hres as [-> Hs]; rewrite read_headers_round, E1; (split; [reflexivity|exact Hs]).
  - right. destruct H1 as [c' [E1 [H' [Hf' [Hprog Hall]]]]]. exists c'. split; [exact H'|]. split; [exact Hf'|].
    assert (Hlt : p + buffered (c_reader c') < length src).
    { destruct (Nat.lt_ge_cases (p + buffered (c_reader c')) (length src)) as [Hx|Hx]; [exact Hx|].
      destruct (Hall Hx) as [k Ek]. rewrite E in Ek. injection Ek as _ _ ->. destruct (Hf k). reflexivity. }
    split; [exact Hlt|]. split.
    + intros Hx. destruct (Hprog Hx) as [Hy|Hy]; lia.
    + intros [c2 G]. exists c2. destruct res as [s|e]; rewrite read_headers_round, E1; exact G.
Qed.

Lemma rounds_decide : forall n c d p info d' info' res, at_state c d p info ->
  ps_headers ps d (skipn p src) info = (d', info', res) -> (forall k, res <> Error (MoreDataNeeded k)) ->
  buffered (c_reader c) < length (abuf (c_reader c)) -> p + buffered (c_reader c) < length src -> length src - p - buffered (c_reader c) <= n ->
  decided n c d' p info' res.
Proof.
  induction n as [|n IH]; intros c d p info d' info' res H E Hf Hfull Hlt Hn; [lia|].
  destruct (round_decides n c d p info d' info' res H E Hf) as [Hx|[c' [H' [Hf' [Hlt' [Hmore Hx]]]]]]; [exact Hx|].
  apply Hx. specialize (Hmore Hfull). apply (IH c' d p info); [assumption..|lia].
Qed.

Lemma header_rounds : forall cap r0 d d' info' res, good r0 -> tell r0 = 0 ->
  ps_headers ps d src (mk_info None None []) = (d', info', res) -> (forall k, res <> Error (MoreDataNeeded k)) ->
  exists c', c_demuxer c' = d' /\ c_info c' = info' /\
  read_headers dm bio (length src + 1) (context_new d (with_capacity cap r0)) =
    Ret (c', Some (match res with Okay _ => Okay tt | Error e => Error e end)).
Proof.
  intros cap r0 d d' info' res Hg Ht E Hf.
  assert (G : decided (length src + 1) (context_new d (with_capacity cap r0)) d' 0 info' res).
  { pose proof (fresh_at (P := P) src good tell cap r0 d Hg Ht) as H. rewrite Nat.add_1_r.
    destruct (round_decides (length src) _ d 0 _ d' info' res H E Hf) as [Hx|[c' [H' [Hf' [Hlt' [_ Hx]]]]]]; [exact Hx|].
    apply Hx. apply (rounds_decide _ c' d 0 (mk_info None None [])); [assumption..|lia]. }
  destruct G as [c' G]. exists c'. destruct res as [s|e]; destruct G as [E1 [H1 [_ H2]]]; (split; [exact H1|]; split; [exact H2|exact E1]).
Qed.
End Rounds.

(** The same with a source that may fail: a failed call is a decision too. *)
Section Failing.
Context {R P D : Type}.
Variable i : io R.
Variable src : list N.
Variable good : R -> Prop.
Variable tell : R -> nat.
Hypothesis Hsrc : source_ok i src good tell.
Variable ps : parser P D.
Hypothesis Hinc : incremental_headers ps.
Notation bio := (acc_buffered i).
Notation dm := (parser_demuxer ps bio).
Notation at_state := (at_state src good tell).

Lemma hround_progress : forall c c' d p info, at_state c d p info -> hround dm bio c = Ret (inr c') ->
  buffered (c_reader c') < length (abuf (c_reader c')) /\
  (buffered (c_reader c) < length (abuf (c_reader c)) -> buffered (c_reader c) < buffered (c_reader c') \/ length src <= p + buffered (c_reader c')) /\
  (length src <= p + buffered (c_reader c') -> exists k, ps_headers ps d (skipn p src) info = (d, info, Error (MoreDataNeeded k))).
Proof.
  intros c c' d p info [Hd [Hr Hi]] E. destruct c as [d0 a info0]. cbn [c_demuxer c_reader c_info] in *. subst d0 info0.
  unfold hround, read_headers_internal in E. cbn [parser_demuxer dm_headers acc_buffered b_data b_seek b_fill b_grow c_demuxer c_reader c_info] in E.
  destruct (fill_rep i src good tell Hsrc a p Hr) as [a1 [fr [Ef [Hr1 [L1 Hfr]]]]]. rewrite Ef in E. cbn [obind] in E.
  destruct fr as [dd|e]; [|discriminate E]. destruct Hfr as [_ [Hmono Hsame]].
  destruct (rep_prefix src good tell a1 p Hr1) as [dat [more [Hdat [Hcat [Hlen Hend]]]]]. rewrite Hdat in E. cbn [obind] in E.
  destruct (ps_headers ps d dat info) as [[d' info'] res] eqn:Ep.
  destruct res as [s|[|k|io]]; cbn [obind] in E; [|discriminate E| |discriminate E].
  - destruct (seek_rep i src good tell Hsrc a1 p s Hr1 (plain_forward s (inh_seek ps Hinc _ _ _ _ _ _ Ep))) as [a' [sr [Es _]]].
    rewrite Es in E. cbn [obind] in E. discriminate E.
  - destruct (inh_more ps Hinc _ _ _ _ _ _ Ep) as [-> [-> Hk]]. injection E as <-. cbn [c_reader c_demuxer c_info].
    change (buffered (grow a1 k)) with (buffered a1). split; [|split].
    + cbn [grow abuf]. rewrite app_length, repeat_length. pose proof (rp_end _ _ _ _ _ Hr1). unfold buffered. lia.
    + intros Hnfull. destruct (Nat.eq_dec (buffered a1) (buffered a)) as [He|He]; [|lia].
      destruct (Hsame He) as [Hx|Hx]; lia.
    + intros Hall. rewrite Hcat, (Hend Hall), app_nil_r. exists k. exact Ep.
Qed.

Definition returns n (c : dctx P D (acc R)) := exists c' r, read_headers dm bio n c = Ret (c', Some r).

Lemma round_returns : forall n c d p info d' info' res, at_state c d p info ->
  ps_headers ps d (skipn p src) info = (d', info', res) -> (forall k, res <> Error (MoreDataNeeded k)) ->
  returns (S n) c \/
  exists c', at_state c' d p info /\ buffered (c_reader c') < length (abuf (c_reader c')) /\ p + buffered (c_reader c') < length src /\
    (buffered (c_reader c) < length (abuf (c_reader c)) -> buffered (c_reader c) < buffered (c_reader c')) /\
    (returns n c' -> returns (S n) c).
Proof.
  intros n c d p info d' info' res H E Hf.
  destruct (hround_any i src good tell Hsrc ps Hinc c d p info H) as [H1|[H1|H1]].
  - left. destruct H1 as [c' [r [E1 _]]]. exists c', r. rewrite read_headers_round, E1. reflexivity.
  - left. destruct H1 as [c' [e [E1 _]]]. exists c', (Error (Io e)). rewrite read_headers_round, E1. reflexivity.
  - right. destruct H1 as [c' [E1 H']]. exists c'. split; [exact H'|].
    destruct (hround_progress c c' d p info H E1) as [Hf' [Hprog Hall]]. split; [exact Hf'|].
    assert (Hlt : p + buffered (c_reader c') < length src).
    { destruct (Nat.lt_ge_cases (p + buffered (c_reader c')) (length src)) as [Hx|Hx]; [exact Hx|].
      destruct (Hall Hx) as [k Ek]. rewrite E in Ek. injection Ek as _ _ ->. destruct (Hf k). reflexivity. }
    split; [exact Hlt|]. split.
    + intros Hx. destruct (Hprog Hx) as [Hy|Hy]; lia.
    + intros [c2 [r G]]. exists c2, r. rewrite read_headers_round, E1. exact G.
Qed.

Lemma rounds_return : forall n c d p info d' info' res, at_state c d p info ->
  ps_headers ps d (skipn p src) info = (d', info', res) -> (forall k, res <> Error (MoreDataNeeded k)) ->
  buffered (c_reader c) < length (abuf (c_reader c)) -> p + buffered (c_reader c) < length src -> length src - p - buffered (c_reader c) <= n ->
  returns n c.
Proof.
  induction n as [|n IH]; intros c d p info d' info' res H E Hf Hfull Hlt Hn; [lia|].
  destruct (round_returns n c d p info d' info' res H E Hf) as [Hx|[c' [H' [Hf' [Hlt' [Hmore Hx]]]]]]; [exact Hx|].
  apply Hx. specialize (Hmore Hfull). apply (IH c' d p info d' info' res); [assumption..|lia].
Qed.

Lemma failing_header_rounds : no_io_errors ps -> forall cap r0 d d' info' res c, good r0 -> tell r0 = 0 ->
  ps_headers ps d src (mk_info None None []) = (d', info', res) -> (forall k, res <> Error (MoreDataNeeded k)) ->
  header_retries dm bio (context_new d (with_capacity cap r0)) c ->
  exists c', (exists e, read_headers dm bio (length src + 1) c = Ret (c', Some (Error (Io e))) /\ c_demuxer c' = d /\ c_info c' = mk_info None None []) \/
    (read_headers dm bio (length src + 1) c = Ret (c', Some (match res with Okay _ => Okay tt | Error e => Error e end)) /\
     c_demuxer c' = d' /\ c_info c' = info').
Proof.
  intros Hno cap r0 d d' info' res c Hg Ht E Hf Hre.
  pose proof (retries_state i src good tell Hsrc ps Hinc Hno _ _ d 0 _ Hre (fresh_at (P := P) src good tell cap r0 d Hg Ht)) as H.
  assert (G : returns (length src + 1) c).
  { rewrite Nat.add_1_r.
    destruct (round_returns (length src) c d 0 _ d' info' res H E Hf) as [Hx|[c' [H' [Hf' [Hlt' [_ Hx]]]]]]; [exact Hx|].
    apply Hx. apply (rounds_return _ c' d 0 (mk_info None None []) d' info' res); [assumption..|lia]. }
  destruct G as [c' [r G]]. exists c'.
  destruct (headers_any i src good tell Hsrc ps Hinc _ c d 0 _ c' r H G) as [[d1 [info1 [res1 [Ep Hr]]]]|[e [-> Hs]]].
  - right. rewrite G. change (skipn 0 src) with src in Ep. rewrite E in Ep. injection Ep as <- <- <-.
    destruct res as [s|e]; [destruct Hr as [-> [q [_ [H1 [_ H2]]]]]|destruct Hr as [-> [H1 [_ H2]]]]; (split; [reflexivity|split; [exact H1|exact H2]]).
  - left. exists e. destruct Hs as [H1 [_ H2]]. split; [exact G|]. split; [exact H1|exact H2].
Qed.
End Failing.

Lemma dummy_no_io : no_io_errors dummy_parser.
Proof.
  split.
  - intros d dat d' e E. cbn [dummy_parser ps_event] in E.
    repeat match type of E with context [match ?c with _ => _ end] => destruct c eqn:?; try discriminate E end.
  - intros d dat info d' info' e E. cbn [dummy_parser ps_headers] in E. destruct (length dat <? 9); discriminate E.
Qed.
