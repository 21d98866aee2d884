(** Properties C119 to C122: demuxing on machine words. *)
From Coq Require Import List Arith NArith ZArith Bool.
From Verif Require Import Base AccModel AccSpec FormatModel DemuxModel DemuxSpec DemuxExamples WordAccModel WordSpec WordAccProofs
  WordDemuxModel WordDemuxSpec WordDemuxProofs WordDemuxProofs2.
Import ListNotations.
Local Open Scope nat_scope.

(** C119: a session of [read_headers] and [read_event] with the counters of the reader as words
    has the results of the session with unbounded counters, unless the buffer reaches 2^63
    bytes; then it panics. *)
Theorem C119_context_words : forall (S P D : Type) (i : io S) src good tell (ps : parser P D) rounds calls cap r d,
  source_ok i src good tell -> reports_u64 i -> seeks_fit ps -> good r -> tell r = 0 ->
  (N.of_nat (length src) < 2 ^ 63)%N -> (N.of_nat cap < 2 ^ 63)%N ->
  exists c rs, plain_session i ps rounds calls (context_new d (with_capacity cap r)) = Ret (c, rs) /\
    word_session i ps rounds calls (context_new d (w_with_capacity (N.of_nat cap) r)) =
      if (room c <? 2 ^ 63)%N then Ret (word_ctx c, rs) else Panic.
Proof. exact session_exact. Qed.
Print Assumptions C119_context_words.

Example C119_example :
  seeks_fit dummy_parser /\ reports_u64 word_cursor_io /\
  exists c, word_session word_cursor_io dummy_parser 9 [ReadHeaders; ReadEvent; ReadEvent]
    (context_new tt (w_with_capacity 4 (mk_cursor (map N.of_nat (seq 40 9) ++ [112; 49; 0; 112; 49; 0])%N 0 (map Deliver [1; 3])))) =
    Ret (c, [GotHeaders (Some (Okay tt)); GotEvent (Some (Okay (NewPacket packet_new))); GotEvent (Some (Okay (NewPacket packet_new)))]) /\
    wa_index (c_reader c) = 15%N.
Proof. split; [exact dummy_seeks|]. split; [exact word_cursor_u64|]. eexists. split; vm_compute; reflexivity. Qed.

(** C120 is false: a request for 2^63 bytes, which any damaged length field may lead to, makes
    [read_event] panic in its first round. *)
Theorem C120_large_request_refuted : exists (ps : parser unit unit) src r n,
  incremental ps /\ seeks_fit ps /\ (forall k, asks ps k -> k <= n) /\ (N.of_nat n < 2 ^ 64)%N /\
  source_ok word_cursor_io src (fun c => cur_src c = src) cur_pos /\ reports_u64 word_cursor_io /\ cur_src r = src /\ cur_pos r = 0 /\
  wd_event (parser_demuxer ps (word_buffered word_cursor_io)) (word_buffered word_cursor_io) word_grow 1
    (context_new tt (w_with_capacity 0 r)) = Panic.
Proof. exact greedy_refutes. Qed.
Print Assumptions C120_large_request_refuted.

(** Without overflow checks [2^64 - 1] takes away a byte of the buffer each time, until a
    buffered one is gone. *)
Theorem C120_release_request_refuted : exists (ps : parser unit unit) src r n cap,
  incremental ps /\ seeks_fit ps /\ (forall k, asks ps k -> k <= n) /\ (N.of_nat n < 2 ^ 64)%N /\
  source_ok word_cursor_io src (fun c => cur_src c = src) cur_pos /\ reports_u64 word_cursor_io /\ cur_src r = src /\ cur_pos r = 0 /\
  wd_event (parser_demuxer ps (release_buffered word_cursor_io)) (release_buffered word_cursor_io) release_grow 2
    (context_new tt (w_with_capacity cap r)) = Panic.
Proof. exact greedy_release_refutes. Qed.
Print Assumptions C120_release_request_refuted.

(** What holds: parsers that ask for at most [M] bytes at a time are safe as long as [M] bytes
    for every round of every call fit. *)
Theorem C120_bounded_requests_partial : forall (S P D : Type) (i : io S) src good tell (ps : parser P D) rounds calls cap r d M,
  source_ok i src good tell -> reports_u64 i -> seeks_fit ps -> good r -> tell r = 0 ->
  (N.of_nat (length src) < 2 ^ 63)%N -> (forall n, asks ps n -> n <= M) ->
  (N.of_nat cap + N.of_nat (length calls) * N.of_nat rounds * N.of_nat M < 2 ^ 63)%N ->
  exists c rs, plain_session i ps rounds calls (context_new d (with_capacity cap r)) = Ret (c, rs) /\
    word_session i ps rounds calls (context_new d (w_with_capacity (N.of_nat cap) r)) = Ret (word_ctx c, rs).
Proof. exact session_bounded. Qed.
Print Assumptions C120_bounded_requests_partial.

Example C120_example : incremental (greedy 7) /\ seeks_fit (greedy 7) /\ (forall k, asks (greedy 7) k -> k <= 7) /\
  exists c, word_session word_cursor_io (greedy 7) 9 [ReadEvent]
    (context_new tt (w_with_capacity 0 (mk_cursor [1; 2; 3; 4; 5; 6; 7; 8]%N 0 (map Deliver [1; 2])))) = Ret (c, [GotEvent (Some (Okay Eof))]) /\
    blen (wa_buf (c_reader c)) = 21%N.
Proof.
  split; [apply greedy_incremental|]. split; [apply greedy_seeks|]. split; [apply greedy_asks|].
  eexists. split; vm_compute; reflexivity.
Qed.

(** C121: on a source that ends within the headers [read_headers] does not loop forever on a real
    machine: each round enlarges the buffer, and when it reaches 2^63 bytes the call panics. *)
Theorem C121_truncated_headers_panic : forall (S P D : Type) (i : io S) src good tell,
  source_ok i src good tell -> never_fails i src good tell -> forall (ps : parser P D), incremental_headers ps ->
  reports_u64 i -> seeks_fit ps -> forall cap r0 d k, good r0 -> tell r0 = 0 ->
  (N.of_nat (length src) < 2 ^ 63)%N -> (N.of_nat cap < 2 ^ 63)%N ->
  ps_headers ps d src (mk_info None None []) = (d, mk_info None None [], Error (MoreDataNeeded k)) ->
  forall n, (2 ^ 63 <= N.of_nat cap + N.of_nat n)%N ->
  wd_headers (parser_demuxer ps (word_buffered i)) (word_buffered i) word_grow n (context_new d (w_with_capacity (N.of_nat cap) r0)) = Panic.
Proof. intros S P D i src good tell. exact (truncated_panics i src good tell). Qed.
Print Assumptions C121_truncated_headers_panic.

(** The demuxer of the project's tests on the 5 bytes "dummy": 4 bytes more in every round. *)
Example C121_example : incremental_headers dummy_parser /\ seeks_fit dummy_parser /\
  ps_headers dummy_parser tt [100; 117; 109; 109; 121]%N (mk_info None None []) = (tt, mk_info None None [], Error (MoreDataNeeded 4)) /\
  exists c, wd_headers (parser_demuxer dummy_parser (word_buffered word_cursor_io)) (word_buffered word_cursor_io) word_grow 100
    (context_new tt (w_with_capacity 5 (mk_cursor [100; 117; 109; 109; 121]%N 0 []))) = Ret (c, None) /\ blen (wa_buf (c_reader c)) = 405%N.
Proof.
  split; [exact dummy_headers|]. split; [exact dummy_seeks|]. split; [reflexivity|].
  eexists. split; vm_compute; reflexivity.
Qed.

(** C122: whatever a session delivers with overflow checks it delivers without them, over any
    source at all. *)
Theorem C122_release_context_agrees : forall (S P D : Type) (i : io S) (ps : parser P D), seeks_fit ps ->
  forall rounds calls cap r d x,
  word_session i ps rounds calls (context_new d (w_with_capacity cap r)) = Ret x ->
  release_session i ps rounds calls (context_new d (w_with_capacity cap r)) = Ret x.
Proof. intros S P D i ps. exact (release_new i ps). Qed.
Print Assumptions C122_release_context_agrees.

Example C122_example :
  exists c, release_session word_cursor_io dummy_parser 9 [ReadHeaders; ReadEvent; ReadEvent]
    (context_new tt (w_with_capacity 4 (mk_cursor (map N.of_nat (seq 40 9) ++ [112; 49; 0; 112; 49; 0])%N 0 (map Deliver [1; 3])))) =
    Ret (c, [GotHeaders (Some (Okay tt)); GotEvent (Some (Okay (NewPacket packet_new))); GotEvent (Some (Okay (NewPacket packet_new)))]).
Proof. eexists. vm_compute; reflexivity. Qed.
