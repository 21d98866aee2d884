(** The proofs of the theorems of [RetryProps]. *)
From Coq Require Import List Arith NArith ZArith Bool Lia.
From Verif Require Import Base AccModel AccSpec AccProofs AccProofs2 FormatModel DemuxModel DemuxSpec DemuxProofs DemuxProofs2 DemuxProofs3 DemuxExamples RetrySpec RetryProofs.
Import ListNotations.
Local Open Scope nat_scope.

Lemma c36_read_event_returns_partial : forall (S P D : Type) (i : io S) src good tell (ps : parser P D) cap r0 d calls,
  source_ok i src good tell -> incremental ps -> skips_forward ps -> good r0 -> tell r0 = 0 ->
  exists n c' rs, read_events (parser_demuxer ps (acc_buffered i)) (acc_buffered i) n calls (context_new d (with_capacity cap r0)) = Ret (c', Some rs) /\
    length rs = calls.
Proof.
  intros S P D i src good tell ps cap r0 d calls Hs Hi Hk Hg Ht.
  apply (events_return i src good tell Hs ps Hi Hk calls _ d 0 (mk_info None None [])). apply fresh_at; assumption.
Qed.

Lemma c36_large_request_progress : forall (S P D : Type) (i : io S) src good tell (dm : demuxer_fns P D (acc S)) cap r0 ops outs a d info d' needed dat,
  source_ok i src good tell -> good r0 -> tell r0 = 0 ->
  acc_legal i (with_capacity cap r0) ops -> acc_run i (with_capacity cap r0) ops = Ret (a, outs) ->
  dm_event dm d a = Ret (d', a, Error (MoreDataNeeded needed)) -> data a = Ret dat -> length dat < needed ->
  exists a' p, seek i a (Current 0) = Ret (a, Okay p) /\ seek i a' (Current 0) = Ret (a', Okay p) /\
  ((exists e, forall n, read_event dm (acc_buffered i) (1 + n) (mk_dctx d a info) = Ret (mk_dctx d' a' info, Some (Error (Io e)))) \/
   (exists dat', data a' = Ret dat' /\ length dat < length dat' /\
      forall n, read_event dm (acc_buffered i) (1 + n) (mk_dctx d a info) = read_event dm (acc_buffered i) n (mk_dctx d' a' info)) \/
   (length src <= p + length dat /\ data a' = Ret dat /\
      forall n, read_event dm (acc_buffered i) (1 + n) (mk_dctx d a info) = Ret (mk_dctx d' a' info, Some (Okay Eof)))).
Proof.
  intros S P D i src good tell dm cap r0 ops outs a d info d' needed dat Hs Hg Ht Hl Hrun E Hd Hn.
  destruct (run_rep i src good tell Hs ops _ 0 (new_rep src good tell cap r0 Hg Ht) Hl) as [a1 [o1 [p [E1 [Hr _]]]]].
  rewrite Hrun in E1. injection E1 as <- <-.
  destruct (large_request i src good tell Hs P D dm (mk_dctx d a info) p d' needed dat Hr E Hd Hn) as [a' [Hr' H]].
  exists a', p. split; [apply (at_position (P := P) i src good tell (mk_dctx d a info) d p info); apply at_intro; exact Hr|].
  split; [apply (at_position (P := P) i src good tell (mk_dctx d a' info) d p info); apply at_intro; exact Hr'|]. exact H.
Qed.

Lemma c38_position_exact : forall (S P D : Type) (i : io S) src good tell (ps : parser P D) cap r0 d n c',
  source_ok i src good tell -> incremental_headers ps -> good r0 -> tell r0 = 0 ->
  read_headers (parser_demuxer ps (acc_buffered i)) (acc_buffered i) n (context_new d (with_capacity cap r0)) = Ret (c', Some (Okay tt)) ->
  exists d' info' s q, ps_headers ps d src (mk_info None None []) = (d', info', Okay s) /\ (q = 0 \/ Z.of_nat q = target (length src) 0 s) /\
    c_demuxer c' = d' /\ c_info c' = info' /\
    seek i (c_reader c') (Current 0) = Ret (c_reader c', Okay q).
Proof.
  intros S P D i src good tell ps cap r0 d n c' Hs Hi Hg Ht E.
  destruct (headers_any i src good tell Hs ps Hi n _ d 0 (mk_info None None []) c' _ (fresh_at src good tell cap r0 d Hg Ht) E) as [G|[e [G _]]]; [|discriminate G].
  destruct G as [d' [info' [res [Ep Hres]]]]. destruct res as [s|e]; [|destruct Hres as [Hres _]; discriminate Hres].
  destruct Hres as [_ [q [Hq H]]]. exists d', info', s, q. split; [exact Ep|]. split; [exact Hq|]. apply (at_position i src good tell). exact H.
Qed.

Definition padded_src : list N := [3; 7; 0; 0; 0; 0; 8]%N.
Lemma c88_failed_seek_loses_event_refuted :
  exists src r0 cap c' rs, source_ok flaky_io src (fun c => cur_src c = src) cur_pos /\ cur_src r0 = src /\ cur_pos r0 = 0 /\
    incremental padded_parser /\ no_io_errors padded_parser /\
    read_events (parser_demuxer padded_parser (acc_buffered flaky_io)) (acc_buffered flaky_io) 3 2 (context_new tt (with_capacity cap r0)) = Ret (c', Some rs) /\
    forall m x, all_events padded_parser src m (length (successes rs)) tt 0 (mk_info None None []) <> Some (x, successes rs).
Proof.
  exists padded_src, (mk_cursor padded_src 0 [Deliver 2; Deliver 1; Fail (OtherError 5)]), 2. eexists _, _.
  split; [apply flaky_ok|]. split; [reflexivity|]. split; [reflexivity|]. split; [exact padded_incremental|]. split; [exact padded_no_io|].
  split; [vm_compute; reflexivity|].
  intros [|m] [[d p] info] E; cbn in E; discriminate E.
Qed.

Lemma c88_retried_events_partial : forall (S P D : Type) (i : io S) src good tell (ps : parser P D) cap r0 d calls n c' rs,
  source_ok i src good tell -> incremental ps -> local_seeks ps -> no_io_errors ps -> good r0 -> tell r0 = 0 ->
  read_events (parser_demuxer ps (acc_buffered i)) (acc_buffered i) n calls (context_new d (with_capacity cap r0)) = Ret (c', Some rs) ->
  exists m x, all_events ps src m (length (successes rs)) d 0 (mk_info None None []) = Some (x, successes rs).
Proof.
  intros S P D i src good tell ps cap r0 d calls n c' rs Hs Hi HL HN Hg Ht E.
  apply (events_retried i src good tell Hs ps Hi HL HN calls n _ d 0 (mk_info None None []) c' rs (fresh_at src good tell cap r0 d Hg Ht) E).
Qed.

Lemma c88_retried_headers : forall (S P D : Type) (i : io S) src good tell (ps : parser P D) cap r0 d c n c' r,
  source_ok i src good tell -> incremental_headers ps -> no_io_errors ps -> good r0 -> tell r0 = 0 ->
  header_retries (parser_demuxer ps (acc_buffered i)) (acc_buffered i) (context_new d (with_capacity cap r0)) c ->
  read_headers (parser_demuxer ps (acc_buffered i)) (acc_buffered i) n c = Ret (c', Some r) ->
  (exists e, r = Error (Io e) /\ c_demuxer c' = d /\ c_info c' = mk_info None None [] /\
     seek i (c_reader c') (Current 0) = Ret (c_reader c', Okay 0)) \/
  (exists d' info' s, ps_headers ps d src (mk_info None None []) = (d', info', Okay s) /\ r = Okay tt /\
     c_demuxer c' = d' /\ c_info c' = info') \/
  (exists d' info' e, ps_headers ps d src (mk_info None None []) = (d', info', Error e) /\ r = Error e /\
     c_demuxer c' = d' /\ c_info c' = info').
Proof.
  intros S P D i src good tell ps cap r0 d c n c' r Hs Hi HN Hg Ht Hre E.
  pose proof (retries_state i src good tell Hs ps Hi HN _ _ d 0 (mk_info None None []) Hre (fresh_at src good tell cap r0 d Hg Ht)) as H.
  destruct (headers_any i src good tell Hs ps Hi n _ d 0 (mk_info None None []) c' _ H E) as [G|[e [G H']]].
  - destruct G as [d' [info' [res [Ep Hres]]]]. right. destruct res as [s|e].
    + destruct Hres as [-> [q [_ [H1 [_ H2]]]]]. left. exists d', info', s. split; [exact Ep|]. split; [reflexivity|]. split; assumption.
    + destruct Hres as [-> [H1 [_ H2]]]. right. exists d', info', e. split; [exact Ep|]. split; [reflexivity|]. split; assumption.
  - left. exists e. split; [exact G|]. apply (at_position i src good tell). exact H'.
Qed.
