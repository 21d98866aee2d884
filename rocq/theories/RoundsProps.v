(** C36, C37: how often the demuxer is called. *)
From Coq Require Import List Arith NArith ZArith Bool.
From Verif Require Import Base AccModel AccSpec FormatModel DemuxModel DemuxSpec DemuxExamples BufSizeSpec RetrySpec RetryProofs RoundsProofs HeaderRoundsProofs RoundsSpec RoundsTightProofs.
Import ListNotations.
Local Open Scope nat_scope.

(** Every call returns after at most [2 * length src + 1] rounds, so with at most that many calls of the demuxer, whatever
    the source delivers and however often it fails. *)
Theorem C36_rounds_partial : forall (S P D : Type) (i : io S) src good tell (ps : parser P D) cap r0 d calls,
  source_ok i src good tell -> incremental ps -> skips_forward ps -> good r0 -> tell r0 = 0 ->
  exists c' rs, read_events (parser_demuxer ps (acc_buffered i)) (acc_buffered i) (2 * length src + 1) calls (context_new d (with_capacity cap r0)) =
    Ret (c', Some rs) /\ length rs = calls.
Proof. exact rounds_bound. Qed.
Print Assumptions C36_rounds_partial.

(** Not one round less: for every source and capacity there are a way to deliver the bytes and a parser that needs them all. *)
Theorem C36_rounds_reached : forall src cap, incremental (byte_by_byte 0) /\ skips_forward (byte_by_byte 0) /\
  exists c', read_event (parser_demuxer (byte_by_byte 0) (acc_buffered cursor_io)) (acc_buffered cursor_io) (2 * length src)
    (context_new tt (with_capacity cap (slow_source src))) = Ret (c', None).
Proof. exact (fun src cap => conj (proj1 (byte_by_byte_incremental 0)) (conj (proj2 (byte_by_byte_incremental 0)) (events_tight src cap))). Qed.
Print Assumptions C36_rounds_reached.

(** Four bytes to skip that arrive one by one. *)
Example C36_rounds_example :
  map (fun n => match read_event (parser_demuxer tlv_parser (acc_buffered cursor_io)) (acc_buffered cursor_io) n
      (context_new 0 (with_capacity 2 (slow_source [254; 254; 254; 254]%N))) with Ret (_, r) => r | _ => None end) [8; 9] =
  [None; Some (Okay Eof)].
Proof. vm_compute. reflexivity. Qed.

(** [read_headers] decides about complete headers in at most [length src + 1] rounds. *)
Theorem C37_header_rounds_partial : forall (S P D : Type) (i : io S) src good tell (ps : parser P D) cap r0 d d' info' res,
  source_ok i src good tell -> never_fails i src good tell -> incremental_headers ps -> good r0 -> tell r0 = 0 ->
  ps_headers ps d src (mk_info None None []) = (d', info', res) -> (forall n, res <> Error (MoreDataNeeded n)) ->
  exists c', c_demuxer c' = d' /\ c_info c' = info' /\
  read_headers (parser_demuxer ps (acc_buffered i)) (acc_buffered i) (length src + 1) (context_new d (with_capacity cap r0)) =
    Ret (c', Some (match res with Okay _ => Okay tt | Error e => Error e end)).
Proof. exact (fun S P D i src good tell ps cap r0 d d' info' res Hs Hn Hi => header_rounds i src good tell Hs ps Hn Hi cap r0 d d' info' res). Qed.
Print Assumptions C37_header_rounds_partial.

(** Not one round less, for any source. *)
Theorem C37_rounds_reached : forall src, incremental_headers (byte_by_byte (length src)) /\
  exists c', read_headers (parser_demuxer (byte_by_byte (length src)) (acc_buffered cursor_io)) (acc_buffered cursor_io) (length src)
    (context_new tt (with_capacity 0 (slow_source src))) = Ret (c', None).
Proof. exact (fun src => conj (byte_by_byte_headers (length src)) (headers_tight src)). Qed.
Print Assumptions C37_rounds_reached.

(** Nine bytes that arrive one by one, in a buffer that is empty at first. *)
Example C37_rounds_example :
  map (fun n => match read_headers (parser_demuxer dummy_parser (acc_buffered cursor_io)) (acc_buffered cursor_io) n
      (context_new tt (with_capacity 0 (slow_source (repeat 7%N 9)))) with Ret (_, r) => r | _ => None end) [9; 10] =
  [None; Some (Okay tt)].
Proof. vm_compute. reflexivity. Qed.

(** The same bound holds when the source fails now and then, also after failed attempts: the call returns the error of the
    source and nothing has changed, or it returns the decision of the parser. *)
Theorem C37_failing_source_partial : forall (S P D : Type) (i : io S) src good tell (ps : parser P D) cap r0 d d' info' res c,
  source_ok i src good tell -> incremental_headers ps -> no_io_errors ps -> good r0 -> tell r0 = 0 ->
  ps_headers ps d src (mk_info None None []) = (d', info', res) -> (forall n, res <> Error (MoreDataNeeded n)) ->
  header_retries (parser_demuxer ps (acc_buffered i)) (acc_buffered i) (context_new d (with_capacity cap r0)) c ->
  exists c',
    (exists e, read_headers (parser_demuxer ps (acc_buffered i)) (acc_buffered i) (length src + 1) c = Ret (c', Some (Error (Io e))) /\
       c_demuxer c' = d /\ c_info c' = mk_info None None []) \/
    (read_headers (parser_demuxer ps (acc_buffered i)) (acc_buffered i) (length src + 1) c =
       Ret (c', Some (match res with Okay _ => Okay tt | Error e => Error e end)) /\
     c_demuxer c' = d' /\ c_info c' = info').
Proof. exact (fun S P D i src good tell ps cap r0 d d' info' res c Hs Hi Hn Hg Ht => failing_header_rounds i src good tell Hs ps Hi Hn cap r0 d d' info' res c Hg Ht). Qed.
Print Assumptions C37_failing_source_partial.

Example C37_failing_source_example :
  incremental_headers dummy_parser /\ no_io_errors dummy_parser /\
  exists c c', header_retries (parser_demuxer dummy_parser (acc_buffered cursor_io)) (acc_buffered cursor_io)
      (context_new tt (with_capacity 4 (mk_cursor (repeat 7%N 9) 0 [Deliver 2; Fail (OtherError 5); Deliver 1]))) c /\
    data (c_reader c) = Ret [7%N; 7%N] /\
    read_headers (parser_demuxer dummy_parser (acc_buffered cursor_io)) (acc_buffered cursor_io) 10 c = Ret (c', Some (Okay tt)).
Proof.
  split; [exact dummy_headers|]. split; [exact dummy_no_io|].
  eexists _, _. split; [eapply next_attempt with (n := 3); [apply first_attempt|vm_compute; reflexivity]|].
  split; [vm_compute; reflexivity|]. vm_compute. reflexivity.
Qed.

Example C36_reached_example :
  map (fun n => match read_event (parser_demuxer (byte_by_byte 0) (acc_buffered cursor_io)) (acc_buffered cursor_io) n
      (context_new tt (with_capacity 5 (slow_source [1; 2; 3]%N))) with Ret (_, r) => r | _ => None end) [6; 7] =
  [None; Some (Okay Eof)].
Proof. vm_compute. reflexivity. Qed.
