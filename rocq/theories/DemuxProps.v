(** C31-C40: demuxing. *)
From Coq Require Import List Arith NArith ZArith Bool.
From Verif Require Import Base AccModel AccSpec FormatModel DemuxModel DemuxSpec DemuxProofs DemuxProofs2 DemuxProofs3 DemuxExamples DemuxMain.
Import ListNotations.
Local Open Scope nat_scope.

(** C31: with an incremental parser the results of any number of [read_event] calls
    are those of the bytes themselves ([all_events] does not know about readers), for
    every capacity and every way the source cuts its reads. *)
Theorem C31_events_of_the_source : forall (S P D : Type) (i : io S) src good tell (ps : parser P D) cap r0 d calls rs,
  source_ok i src good tell -> never_fails i src good tell -> incremental ps -> good r0 -> tell r0 = 0 ->
  (exists n c', read_events (parser_demuxer ps (acc_buffered i)) (acc_buffered i) n calls (context_new d (with_capacity cap r0)) = Ret (c', Some rs)) <->
  (exists m d' p' info', all_events ps src m calls d 0 (mk_info None None []) = Some (d', p', info', rs)).
Proof. exact c31_events_of_the_source. Qed.
Print Assumptions C31_events_of_the_source.

(** In particular two readers of the same bytes give the same results, and leave
    the demuxer, the streams and the position in the same state. *)
Theorem C31_chunking_independent : forall (S S' P D : Type) (i : io S) (i' : io S') src good tell good' tell' (ps : parser P D)
    cap cap' r0 r0' d calls rs n c1,
  source_ok i src good tell -> never_fails i src good tell -> good r0 -> tell r0 = 0 ->
  source_ok i' src good' tell' -> never_fails i' src good' tell' -> good' r0' -> tell' r0' = 0 ->
  incremental ps ->
  read_events (parser_demuxer ps (acc_buffered i)) (acc_buffered i) n calls (context_new d (with_capacity cap r0)) = Ret (c1, Some rs) ->
  exists n' c2 p,
    read_events (parser_demuxer ps (acc_buffered i')) (acc_buffered i') n' calls (context_new d (with_capacity cap' r0')) = Ret (c2, Some rs) /\
    c_demuxer c2 = c_demuxer c1 /\ c_info c2 = c_info c1 /\
    seek i (c_reader c1) (Current 0) = Ret (c_reader c1, Okay p) /\ seek i' (c_reader c2) (Current 0) = Ret (c_reader c2, Okay p).
Proof. exact c31_chunking_independent. Qed.
Print Assumptions C31_chunking_independent.

Example C31_example :
  incremental tlv_parser /\
  (exists c', read_events (parser_demuxer tlv_parser (acc_buffered cursor_io)) (acc_buffered cursor_io) 20 4
     (context_new 0 (with_capacity 0 (mk_cursor tlv_src 0 (map Deliver [1; 2; 1; 1; 1; 3])))) =
     Ret (c', Some [Okay (NewStream (tlv_stream 1));
        Okay (NewPacket (mk_packet [1; 2; 3]%N None 1 (mk_time None None None (Some (1, 1000)%Z) None) false false));
        Okay (NewPacket (mk_packet [9]%N None 1 (mk_time None None None (Some (1, 1000)%Z) None) false false)); Okay Eof])) /\
  (exists c', read_events (parser_demuxer tlv_parser (acc_buffered cursor_io)) (acc_buffered cursor_io) 3 2
     (context_new 0 (with_capacity 100 (mk_cursor tlv_src 0 []))) =
     Ret (c', Some [Okay (NewStream (tlv_stream 1));
        Okay (NewPacket (mk_packet [1; 2; 3]%N None 1 (mk_time None None None (Some (1, 1000)%Z) None) false false))])).
Proof. split; [exact tlv_incremental|]. split; eexists; vm_compute; reflexivity. Qed.

(** C32: with any demuxer that respects the contracts of the reader, an [Eof] result
    is the demuxer's own (its last call, after a successful seek), or the reader holds
    everything the source still has. *)
Theorem C32_eof_only_at_the_end : forall (S P D : Type) (i : io S) src good tell (dm : demuxer_fns P D (acc S)) cap r0 ops outs a d info n c',
  source_ok i src good tell -> contract_demuxer i dm -> contract_seeks dm -> good r0 -> tell r0 = 0 ->
  acc_legal i (with_capacity cap r0) ops -> acc_run i (with_capacity cap r0) ops = Ret (a, outs) ->
  read_event dm (acc_buffered i) n (mk_dctx d a info) = Ret (c', Some (Okay Eof)) ->
  (exists d r r' s q, dm_event dm d r = Ret (c_demuxer c', r', Okay (s, Eof)) /\ seek i r' s = Ret (c_reader c', Okay q)) \/
  (exists p dat, seek i (c_reader c') (Current 0) = Ret (c_reader c', Okay p) /\ data (c_reader c') = Ret dat /\
     dat = firstn (length dat) (skipn p src) /\ length src <= p + length dat).
Proof. exact c32_eof_only_at_the_end. Qed.
Print Assumptions C32_eof_only_at_the_end.

Example C32_example :
  contract_demuxer cursor_io eager /\ contract_seeks eager /\
  exists c' c'', read_events eager (acc_buffered cursor_io) 9 2 (context_new tt (with_capacity 3 (mk_cursor tlv_src 0 []))) = Ret (c', Some [Okay Continue; Okay Continue]) /\
    read_event eager (acc_buffered cursor_io) 9 c' = Ret (c'', Some (Okay Eof)) /\ data (c_reader c'') = Ret [5; 1; 2]%N.
Proof.
  split; [exact eager_contract|]. split; [exact eager_seeks|]. eexists _, _.
  split; [vm_compute; reflexivity|]. split; vm_compute; reflexivity.
Qed.

(** C33: the packet delivered is the one the demuxer produced (in its last call),
    with the timebase of the first stream of that index if it had none. *)
Theorem C33_packet_timebase : forall (P D R : Type) (dm : demuxer_fns P D R) b n c c' p',
  read_event dm b n c = Ret (c', Some (Okay (NewPacket p'))) ->
  exists d r r' s q p, dm_event dm d r = Ret (c_demuxer c', r', Okay (s, NewPacket p)) /\
    b_seek b r' s = Ret (c_reader c', Okay q) /\
    c_info c' = c_info c /\ delivered_packet (g_streams (c_info c)) p p'.
Proof. exact @packet_timebase. Qed.
Print Assumptions C33_packet_timebase.

(** the streams with index 1 have timebases 1/1000 and 1/25: the first one counts *)
Example C33_example :
  exists c', read_event (parser_demuxer tlv_parser (acc_buffered cursor_io)) (acc_buffered cursor_io) 9
    (mk_dctx 0 (with_capacity 9 (mk_cursor [2; 8; 9]%N 0 []))
       (mk_info None None [mk_stream 3 4 tt None None (1, 2)%Z None; tlv_stream 1; mk_stream 3 1 tt None None (1, 25)%Z None])) =
    Ret (c', Some (Okay (NewPacket (mk_packet [8; 9]%N None 1 (mk_time None None None (Some (1, 1000)%Z) None) false false)))).
Proof. eexists. vm_compute. reflexivity. Qed.

(** C34: after any number of calls the streams are the initial ones followed by the
    announced ones, in order. *)
Theorem C34_streams_registered : forall (P D R : Type) (dm : demuxer_fns P D R) b calls n c c' rs,
  read_events dm b n calls c = Ret (c', Some rs) ->
  g_streams (c_info c') = g_streams (c_info c) ++ announced rs /\
  g_duration (c_info c') = g_duration (c_info c) /\ g_timebase (c_info c') = g_timebase (c_info c).
Proof. exact @streams_registered. Qed.
Print Assumptions C34_streams_registered.

Example C34_example :
  exists c' rs, read_events (parser_demuxer tlv_parser (acc_buffered cursor_io)) (acc_buffered cursor_io) 9 4
     (context_new 0 (with_capacity 0 (mk_cursor [255; 1; 7; 253; 255]%N 0 []))) = Ret (c', Some rs) /\
    announced rs = [tlv_stream 1] /\ g_streams (c_info c') = [tlv_stream 1].
Proof. eexists _, _. split; [vm_compute; reflexivity|]. split; reflexivity. Qed.

(** C35: errors of the demuxer other than [MoreDataNeeded], and errors of the reader,
    come back unchanged from the round in which they occur. *)
Theorem C35_demuxer_errors_returned : forall (P D R : Type) (dm : demuxer_fns P D R) b n c d' r' e,
  dm_event dm (c_demuxer c) (c_reader c) = Ret (d', r', Error e) -> ~ wants_more e ->
  read_event dm b (S n) c = Ret (mk_dctx d' r' (c_info c), Some (Error e)).
Proof. exact @demuxer_error_returned. Qed.
Print Assumptions C35_demuxer_errors_returned.

Theorem C35_seek_errors_returned : forall (P D R : Type) (dm : demuxer_fns P D R) b n c d' r' s ev r'' e,
  dm_event dm (c_demuxer c) (c_reader c) = Ret (d', r', Okay (s, ev)) -> b_seek b r' s = Ret (r'', Error e) ->
  read_event dm b (S n) c = Ret (mk_dctx d' r'' (c_info c), Some (Error (Io e))).
Proof. exact @seek_error_returned. Qed.
Print Assumptions C35_seek_errors_returned.

Theorem C35_fill_errors_returned : forall (P D R : Type) (dm : demuxer_fns P D R) b n c d' r' needed dat r3 e,
  dm_event dm (c_demuxer c) (c_reader c) = Ret (d', r', Error (MoreDataNeeded needed)) ->
  b_data b r' = Ret dat -> length dat < needed -> b_fill b (b_grow b r' needed) = Ret (r3, Error e) ->
  read_event dm b (S n) c = Ret (mk_dctx d' r3 (c_info c), Some (Error (Io e))).
Proof. exact @fill_error_returned. Qed.
Print Assumptions C35_fill_errors_returned.

(** No other errors are returned: never a request for more data, and always one the
    demuxer or the reader gave in the last round. *)
Theorem C35_error_origin : forall (P D R : Type) (dm : demuxer_fns P D R) b n c c' e,
  read_event dm b n c = Ret (c', Some (Error e)) ->
  ~ wants_more e /\ c_info c' = c_info c /\
  ((exists d r, dm_event dm d r = Ret (c_demuxer c', c_reader c', Error e)) \/
   (exists r s io, b_seek b r s = Ret (c_reader c', Error io) /\ e = Io io) \/
   (exists r io, b_fill b r = Ret (c_reader c', Error io) /\ e = Io io)).
Proof. exact @error_origin. Qed.
Print Assumptions C35_error_origin.

Theorem C35_header_errors_returned : forall (P D R : Type) (dm : demuxer_fns P D R) b n c r1 x d' r' info' e,
  b_fill b (c_reader c) = Ret (r1, Okay x) -> dm_headers dm (c_demuxer c) r1 (c_info c) = Ret (d', r', info', Error e) ->
  ~ wants_more e -> read_headers dm b (S n) c = Ret (mk_dctx d' r' info', Some (Error e)).
Proof. exact @header_error_returned. Qed.
Print Assumptions C35_header_errors_returned.

Theorem C35_header_fill_errors_returned : forall (P D R : Type) (dm : demuxer_fns P D R) b n c r1 e,
  b_fill b (c_reader c) = Ret (r1, Error e) ->
  read_headers dm b (S n) c = Ret (mk_dctx (c_demuxer c) r1 (c_info c), Some (Error (Io e))).
Proof. exact @header_fill_error_returned. Qed.
Print Assumptions C35_header_fill_errors_returned.

(** Nor does [read_headers] return any other error: always one that the demuxer, in its
    last call, or the reader gave. *)
Theorem C35_header_error_origin : forall (P D R : Type) (dm : demuxer_fns P D R) b n c c' e,
  read_headers dm b n c = Ret (c', Some (Error e)) ->
  ~ wants_more e /\
  ((exists d r info, dm_headers dm d r info = Ret (c_demuxer c', c_reader c', c_info c', Error e)) \/
   (exists r io, b_fill b r = Ret (c_reader c', Error io) /\ e = Io io)).
Proof. exact @header_error_origin. Qed.
Print Assumptions C35_header_error_origin.

Example C35_example :
  exists c1 c2 c3, read_event (parser_demuxer tlv_parser (acc_buffered cursor_io)) (acc_buffered cursor_io) 9
     (context_new 0 (with_capacity 4 (mk_cursor [253; 1]%N 0 []))) = Ret (c1, Some (Error InvalidData)) /\
    read_event (parser_demuxer tlv_parser (acc_buffered cursor_io)) (acc_buffered cursor_io) 9
     (context_new 0 (with_capacity 4 (mk_cursor [2; 1; 1]%N 0 [Deliver 2; Fail Interrupted]))) = Ret (c2, Some (Error (Io Interrupted))) /\
    read_headers (parser_demuxer tlv_parser (acc_buffered cursor_io)) (acc_buffered cursor_io) 9
     (context_new 0 (with_capacity 4 (mk_cursor [2; 1; 1]%N 0 [Fail (OtherError 3)]))) = Ret (c3, Some (Error (Io (OtherError 3)))).
Proof. eexists _, _, _. split; [vm_compute; reflexivity|]. split; vm_compute; reflexivity. Qed.

(** C36 is false for demuxers that report the number of missing bytes, as the
    message of the error ("n more bytes needed") and the demuxer of the project's own
    tests do: with one byte buffered and one more needed the loop never ends, although
    the source has the packet. *)
Theorem C36_read_event_livelock_refuted :
  exists src r0 cap, source_ok cursor_io src (whole src) cur_pos /\ never_fails cursor_io src (whole src) cur_pos /\
    whole src r0 /\ cur_pos r0 = 0 /\
    ps_event dummy_parser tt src = (tt, Okay (Current 3, NewPacket packet_new)) /\
    forall n, exists c', read_event (parser_demuxer dummy_parser (acc_buffered cursor_io)) (acc_buffered cursor_io) n
      (context_new tt (with_capacity cap r0)) = Ret (c', None).
Proof. exact c36_read_event_livelock_refuted. Qed.
Print Assumptions C36_read_event_livelock_refuted.

(** What holds instead is in [RetryProps]. *)
Example C36_example : incremental tlv_parser /\ skips_forward tlv_parser.
Proof. split; [exact tlv_incremental|exact tlv_skips]. Qed.

(** C37 is false: the demuxer of the project's tests on the 5 bytes "dummy". *)
Theorem C37_truncated_headers_refuted :
  exists src r0 cap, source_ok cursor_io src (whole src) cur_pos /\ never_fails cursor_io src (whole src) cur_pos /\
    whole src r0 /\ cur_pos r0 = 0 /\
    forall n, exists c', read_headers (parser_demuxer dummy_parser (acc_buffered cursor_io)) (acc_buffered cursor_io) n
      (context_new tt (with_capacity cap r0)) = Ret (c', None).
Proof. exact c37_truncated_headers_refuted. Qed.
Print Assumptions C37_truncated_headers_refuted.

(** Every incremental header parser hangs on every truncated source. *)
Theorem C37_truncated_headers_always_hang : forall (S P D : Type) (i : io S) src good tell (ps : parser P D) cap r0 d k,
  source_ok i src good tell -> never_fails i src good tell -> incremental_headers ps -> good r0 -> tell r0 = 0 ->
  ps_headers ps d src (mk_info None None []) = (d, mk_info None None [], Error (MoreDataNeeded k)) ->
  forall n, exists c', read_headers (parser_demuxer ps (acc_buffered i)) (acc_buffered i) n (context_new d (with_capacity cap r0)) = Ret (c', None).
Proof. exact c37_truncated_headers_always_hang. Qed.
Print Assumptions C37_truncated_headers_always_hang.

(** What holds: if the source has the whole headers, [read_headers] returns the
    parser's decision about them. *)
Theorem C37_complete_headers_partial : forall (S P D : Type) (i : io S) src good tell (ps : parser P D) cap r0 d d' info' res,
  source_ok i src good tell -> never_fails i src good tell -> incremental_headers ps -> good r0 -> tell r0 = 0 ->
  ps_headers ps d src (mk_info None None []) = (d', info', res) -> (forall n, res <> Error (MoreDataNeeded n)) ->
  exists n c', c_demuxer c' = d' /\ c_info c' = info' /\
  match res with
  | Okay s => read_headers (parser_demuxer ps (acc_buffered i)) (acc_buffered i) n (context_new d (with_capacity cap r0)) = Ret (c', Some (Okay tt)) /\
      seek i (c_reader c') (Current 0) = Ret (c_reader c', Okay (Z.to_nat (target (length src) 0 s)))
  | Error e => read_headers (parser_demuxer ps (acc_buffered i)) (acc_buffered i) n (context_new d (with_capacity cap r0)) = Ret (c', Some (Error e))
  end.
Proof. exact c37_complete_headers_partial. Qed.
Print Assumptions C37_complete_headers_partial.

Example C37_example :
  incremental_headers dummy_parser /\
  exists c', read_headers (parser_demuxer dummy_parser (acc_buffered cursor_io)) (acc_buffered cursor_io) 20
    (context_new tt (with_capacity 4 (mk_cursor (map N.of_nat (seq 40 12)) 0 (map Deliver [1; 1; 1])))) = Ret (c', Some (Okay tt)) /\
    seek cursor_io (c_reader c') (Current 0) = Ret (c_reader c', Okay 9).
Proof. split; [exact dummy_headers|]. eexists. split; vm_compute; reflexivity. Qed.

(** C38 is false: if the source refuses the seek the call succeeds all the same and
    the reader stays at the beginning. *)
Theorem C38_failed_seek_refuted :
  exists src r0 cap c', source_ok cursor_io src (fun c => cur_src c = src) cur_pos /\ cur_src r0 = src /\ cur_pos r0 = 0 /\
    ps_headers far_parser tt src (mk_info None None []) = (tt, mk_info None None [], Okay (Start 30)) /\
    read_headers (parser_demuxer far_parser (acc_buffered cursor_io)) (acc_buffered cursor_io) 1 (context_new tt (with_capacity cap r0)) = Ret (c', Some (Okay tt)) /\
    seek cursor_io (c_reader c') (Current 0) = Ret (c_reader c', Okay 0).
Proof. exact c38_failed_seek_refuted. Qed.
Print Assumptions C38_failed_seek_refuted.

(** With any demuxer and any reader, success means that the demuxer gave a position in its
    last call and that the reader was asked to go there; what it answered is dropped. *)
Theorem C38_any_demuxer_partial : forall (P D R : Type) (dm : demuxer_fns P D R) b n c c' u,
  read_headers dm b n c = Ret (c', Some (Okay u)) ->
  exists d r info r' s sr, dm_headers dm d r info = Ret (c_demuxer c', r', c_info c', Okay s) /\ b_seek b r' s = Ret (c_reader c', sr).
Proof. exact @header_success. Qed.
Print Assumptions C38_any_demuxer_partial.

(** With a source that does not fail, success means that the reader is where the
    demuxer asked. *)
Theorem C38_position_after_headers_partial : forall (S P D : Type) (i : io S) src good tell (ps : parser P D) cap r0 d n c',
  source_ok i src good tell -> never_fails i src good tell -> incremental_headers ps -> good r0 -> tell r0 = 0 ->
  read_headers (parser_demuxer ps (acc_buffered i)) (acc_buffered i) n (context_new d (with_capacity cap r0)) = Ret (c', Some (Okay tt)) ->
  exists d' info' s q, ps_headers ps d src (mk_info None None []) = (d', info', Okay s) /\ Z.of_nat q = target (length src) 0 s /\
    c_demuxer c' = d' /\ c_info c' = info' /\
    seek i (c_reader c') (Current 0) = Ret (c_reader c', Okay q).
Proof. exact c38_position_after_headers_partial. Qed.
Print Assumptions C38_position_after_headers_partial.

Example C38_example :
  incremental_headers far_parser /\
  exists c', read_headers (parser_demuxer far_parser (acc_buffered cursor_io)) (acc_buffered cursor_io) 1
    (context_new tt (with_capacity 8 (mk_cursor (map N.of_nat (seq 0 40)) 0 []))) = Ret (c', Some (Okay tt)) /\
    seek cursor_io (c_reader c') (Current 0) = Ret (c_reader c', Okay 30).
Proof. split; [exact far_headers|]. eexists. split; vm_compute; reflexivity. Qed.

(** C39: [probe] returns the first descriptor with the highest score, if that is
    above 50, and nothing exactly when no score is above 50. *)
Theorem C39_probe_first_best : forall (T : Type) (score : T -> list N -> N) dat l t,
  probe score l dat = Some t <->
  exists l1 l2, l = l1 ++ t :: l2 /\ (50 < score t dat)%N /\
    (forall x, In x l1 -> (score x dat < score t dat)%N) /\ (forall x, In x l2 -> (score x dat <= score t dat)%N).
Proof. exact @probe_some. Qed.
Print Assumptions C39_probe_first_best.

Theorem C39_probe_none : forall (T : Type) (score : T -> list N -> N) dat l,
  probe score l dat = None <-> forall x, In x l -> (score x dat <= 50)%N.
Proof. exact @probe_none. Qed.
Print Assumptions C39_probe_none.

Example C39_example :
  probe (fun t _ => fst t) [(20, 0); (70, 1); (90, 2); (90, 3); (60, 4)]%N [] = Some (90, 2)%N /\
  probe (fun t _ => fst t) [(20, 0); (50, 1)]%N [] = None.
Proof. split; reflexivity. Qed.

(** C40 is false: a score of exactly [PROBE_SCORE_EXTENSION] is refused. *)
Theorem C40_threshold_score_refuted :
  exists (score : nat -> list N -> N) l dat t, In t l /\ score t dat = probe_score_extension /\ probe score l dat = None.
Proof. exact c40_threshold_score_refuted. Qed.
Print Assumptions C40_threshold_score_refuted.

(** Scores above it are accepted. *)
Theorem C40_above_threshold_partial : forall (T : Type) (score : T -> list N -> N) dat l t,
  In t l -> (probe_score_extension < score t dat)%N -> exists u, probe score l dat = Some u.
Proof. exact c40_above_threshold_partial. Qed.
Print Assumptions C40_above_threshold_partial.

Example C40_example : probe (fun t _ => t) [51]%N [] = Some 51%N.
Proof. reflexivity. Qed.
