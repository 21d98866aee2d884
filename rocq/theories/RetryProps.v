(** C36, C38 and C88: demuxing from sources that may fail. *)
From Coq Require Import List Arith NArith ZArith Bool.
From Verif Require Import Base AccModel AccSpec AccProofs2 FormatModel DemuxModel DemuxSpec DemuxExamples RetrySpec RetryProofs RetryMain.
Import ListNotations.
Local Open Scope nat_scope.

(** C36 holds for incremental parsers, which report the total number of bytes they
    need: every sequence of calls returns, whatever the source delivers and however
    often it fails. *)
Theorem C36_read_event_returns_partial : forall (S P D : Type) (i : io S) src good tell (ps : parser P D) cap r0 d calls,
  source_ok i src good tell -> incremental ps -> skips_forward ps -> good r0 -> tell r0 = 0 ->
  exists n c' rs, read_events (parser_demuxer ps (acc_buffered i)) (acc_buffered i) n calls (context_new d (with_capacity cap r0)) = Ret (c', Some rs) /\
    length rs = calls.
Proof. exact c36_read_event_returns_partial. Qed.
Print Assumptions C36_read_event_returns_partial.

(** Exactly when a round makes no progress: a demuxer that changes nothing and asks
    for no more bytes than are buffered is called again for ever ... *)
Theorem C36_small_request_hangs : forall (P D R : Type) (dm : demuxer_fns P D R) b (c : dctx P D R) dat needed,
  dm_event dm (c_demuxer c) (c_reader c) = Ret (c_demuxer c, c_reader c, Error (MoreDataNeeded needed)) ->
  b_data b (c_reader c) = Ret dat -> needed <= length dat ->
  forall n, read_event dm b n c = Ret (c, None).
Proof. exact small_request_hangs. Qed.
Print Assumptions C36_small_request_hangs.

(** ... and a request for more bytes than are buffered, with any demuxer and after
    any history of the reader, ends the call with an error of the reader, or goes on
    with more bytes buffered at the same position, or ends it with [Eof], in which
    case everything the source has is buffered. *)
Theorem C36_large_request_progress : forall (S P D : Type) (i : io S) src good tell (dm : demuxer_fns P D (acc S)) cap r0 ops outs a d info d' needed dat,
  source_ok i src good tell -> good r0 -> tell r0 = 0 ->
  acc_legal i (with_capacity cap r0) ops -> acc_run i (with_capacity cap r0) ops = Ret (a, outs) ->
  dm_event dm d a = Ret (d', a, Error (MoreDataNeeded needed)) -> data a = Ret dat -> length dat < needed ->
  exists a' p, seek i a (Current 0) = Ret (a, Okay p) /\ seek i a' (Current 0) = Ret (a', Okay p) /\
  ((exists e, forall n, read_event dm (acc_buffered i) (1 + n) (mk_dctx d a info) = Ret (mk_dctx d' a' info, Some (Error (Io e)))) \/
   (exists dat', data a' = Ret dat' /\ length dat < length dat' /\
      forall n, read_event dm (acc_buffered i) (1 + n) (mk_dctx d a info) = read_event dm (acc_buffered i) n (mk_dctx d' a' info)) \/
   (length src <= p + length dat /\ data a' = Ret dat /\
      forall n, read_event dm (acc_buffered i) (1 + n) (mk_dctx d a info) = Ret (mk_dctx d' a' info, Some (Okay Eof)))).
Proof. exact c36_large_request_progress. Qed.
Print Assumptions C36_large_request_progress.

Example C36_returns_example :
  incremental tlv_parser /\ skips_forward tlv_parser /\
  exists c', read_events (parser_demuxer tlv_parser (acc_buffered cursor_io)) (acc_buffered cursor_io) 9 4
     (context_new 0 (with_capacity 2 (mk_cursor [255; 2; 8; 9]%N 0 [Fail Interrupted; Deliver 1; Fail (OtherError 5)]))) =
     Ret (c', Some [Error (Io Interrupted); Okay (NewStream (tlv_stream 1)); Error (Io (OtherError 5));
        Okay (NewPacket (mk_packet [8; 9]%N None 1 (mk_time None None None (Some (1, 1000)%Z) None) false false))]).
Proof. split; [exact tlv_incremental|]. split; [exact tlv_skips|]. eexists. vm_compute. reflexivity. Qed.

(** C38, exactly: with a source that may fail, success means that the headers were
    read, and the reader is where the demuxer asked or still at the beginning. *)
Theorem C38_position_exact : forall (S P D : Type) (i : io S) src good tell (ps : parser P D) cap r0 d n c',
  source_ok i src good tell -> incremental_headers ps -> good r0 -> tell r0 = 0 ->
  read_headers (parser_demuxer ps (acc_buffered i)) (acc_buffered i) n (context_new d (with_capacity cap r0)) = Ret (c', Some (Okay tt)) ->
  exists d' info' s q, ps_headers ps d src (mk_info None None []) = (d', info', Okay s) /\ (q = 0 \/ Z.of_nat q = target (length src) 0 s) /\
    c_demuxer c' = d' /\ c_info c' = info' /\
    seek i (c_reader c') (Current 0) = Ret (c_reader c', Okay q).
Proof. exact c38_position_exact. Qed.
Print Assumptions C38_position_exact.

(** C88 is false: the seek that goes with an event may fail after the source has moved
    (the seek itself succeeds, the read that refills the buffer does not).  The event
    is lost: the next call gives the one after it. *)
Theorem C88_failed_seek_loses_event_refuted :
  exists src r0 cap c' rs, source_ok flaky_io src (fun c => cur_src c = src) cur_pos /\ cur_src r0 = src /\ cur_pos r0 = 0 /\
    incremental padded_parser /\ no_io_errors padded_parser /\
    read_events (parser_demuxer padded_parser (acc_buffered flaky_io)) (acc_buffered flaky_io) 3 2 (context_new tt (with_capacity cap r0)) = Ret (c', Some rs) /\
    forall m x, all_events padded_parser src m (length (successes rs)) tt 0 (mk_info None None []) <> Some (x, successes rs).
Proof. exact c88_failed_seek_loses_event_refuted. Qed.
Print Assumptions C88_failed_seek_loses_event_refuted.

(** It holds for parsers that seek only within the bytes they were given: the results
    that are not input/output errors are the events of the bytes, however often and
    wherever the source fails. *)
Theorem C88_retried_events_partial : forall (S P D : Type) (i : io S) src good tell (ps : parser P D) cap r0 d calls n c' rs,
  source_ok i src good tell -> incremental ps -> local_seeks ps -> no_io_errors ps -> good r0 -> tell r0 = 0 ->
  read_events (parser_demuxer ps (acc_buffered i)) (acc_buffered i) n calls (context_new d (with_capacity cap r0)) = Ret (c', Some rs) ->
  exists m x, all_events ps src m (length (successes rs)) d 0 (mk_info None None []) = Some (x, successes rs).
Proof. exact c88_retried_events_partial. Qed.
Print Assumptions C88_retried_events_partial.

(** For the headers no restriction is needed: after any number of failed calls, the
    next one fails and changes nothing, or gives what the parser says about the whole
    source. *)
Theorem C88_retried_headers : forall (S P D : Type) (i : io S) src good tell (ps : parser P D) cap r0 d c n c' r,
  source_ok i src good tell -> incremental_headers ps -> no_io_errors ps -> good r0 -> tell r0 = 0 ->
  header_retries (parser_demuxer ps (acc_buffered i)) (acc_buffered i) (context_new d (with_capacity cap r0)) c ->
  read_headers (parser_demuxer ps (acc_buffered i)) (acc_buffered i) n c = Ret (c', Some r) ->
  (exists e, r = Error (Io e) /\ c_demuxer c' = d /\ c_info c' = mk_info None None [] /\
     seek i (c_reader c') (Current 0) = Ret (c_reader c', Okay 0)) \/
  (exists d' info' s, ps_headers ps d src (mk_info None None []) = (d', info', Okay s) /\ r = Okay tt /\
     c_demuxer c' = d' /\ c_info c' = info') \/
  (exists d' info' e, ps_headers ps d src (mk_info None None []) = (d', info', Error e) /\ r = Error e /\
     c_demuxer c' = d' /\ c_info c' = info').
Proof. exact c88_retried_headers. Qed.
Print Assumptions C88_retried_headers.

Example C88_example :
  local_seeks tlv_parser /\ no_io_errors tlv_parser /\
  exists c' rs x, read_events (parser_demuxer tlv_parser (acc_buffered cursor_io)) (acc_buffered cursor_io) 9 6
     (context_new 0 (with_capacity 2 (mk_cursor tlv_src 0 [Fail Interrupted; Deliver 3; Fail (OtherError 5); Deliver 1; Fail (OtherError 6)]))) = Ret (c', Some rs) /\
    length (successes rs) = 3 /\ all_events tlv_parser tlv_src 9 3 0 0 (mk_info None None []) = Some (x, successes rs).
Proof.
  split; [exact tlv_local|]. split; [exact tlv_no_io|]. eexists _, _, _. split; [vm_compute; reflexivity|].
  split; [vm_compute; reflexivity|]. vm_compute. reflexivity.
Qed.
