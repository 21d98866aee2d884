(** Properties C144 to C147: demuxing for any width of [usize]. *)
From Coq Require Import List Arith NArith ZArith Bool.
From Verif Require Import Base AccModel AccSpec FormatModel DemuxModel DemuxSpec DemuxExamples WordAccModel WordSpec WordAccProofs
  MachineModel MachineAccModel MachineAccSpec MachineAccProofs2 MachineDemuxModel WordDemuxModel WordDemuxSpec MachineDemuxSpec WordDemuxProofs2 MachineDemuxProofs2.
Import ListNotations.
Local Open Scope nat_scope.

(** C144: a session of [read_headers] and [read_event] on a machine of any width up to 64 bits,
    with or without overflow checks, has the results of the session with unbounded counters
    unless the buffer reaches half the address space.  Then it panics, without overflow checks
    at least if no single request is that long. *)
Theorem C144_context_any_width : forall m (S P D : Type) (i : io S) src good tell (ps : parser P D) rounds calls cap r d,
  (1 <= bits m <= 64)%N ->
  source_ok i src good tell -> reports_within m i -> seeks_within m ps -> good r -> tell r = 0 ->
  (N.of_nat (length src) < 2 ^ (bits m - 1))%N -> (N.of_nat cap < 2 ^ (bits m - 1))%N ->
  exists c rs, plain_session i ps rounds calls (context_new d (with_capacity cap r)) = Ret (c, rs) /\
    ((room c < 2 ^ (bits m - 1))%N ->
       machine_session m i ps rounds calls (context_new d (w_with_capacity (N.of_nat cap) r)) = Ret (word_ctx c, rs)) /\
    ((2 ^ (bits m - 1) <= room c)%N -> checked m = true \/ (forall n, asks ps n -> (N.of_nat n < 2 ^ (bits m - 1))%N) ->
       machine_session m i ps rounds calls (context_new d (w_with_capacity (N.of_nat cap) r)) = Panic).
Proof. exact machine_session_exact. Qed.
Print Assumptions C144_context_any_width.

Example C144_example :
  seeks_within wasm32 dummy_parser /\ reports_within wasm32 (narrow_cursor_io wasm32) /\ (forall k, asks dummy_parser k -> k <= 9) /\
  exists c, machine_session wasm32 (narrow_cursor_io wasm32) dummy_parser 9 [ReadHeaders; ReadEvent; ReadEvent]
    (context_new tt (w_with_capacity 4 (mk_cursor (map N.of_nat (seq 40 9) ++ [112; 49; 0; 112; 49; 0])%N 0 (map Deliver [1; 3])))) =
    Ret (c, [GotHeaders (Some (Okay tt)); GotEvent (Some (Okay (NewPacket packet_new))); GotEvent (Some (Okay (NewPacket packet_new)))]) /\
    wa_index (c_reader c) = 15%N.
Proof.
  split; [apply dummy_within; discriminate|]. split; [exact (narrow_cursor_within wasm32)|]. split; [exact dummy_asks|].
  eexists. split; vm_compute; reflexivity.
Qed.

(** With five bits the buffer of the same session ends below 16 bytes, with four it would not
    have stayed below 8. *)
Example C144_example_narrow :
  let start := context_new tt (w_with_capacity 4 (mk_cursor (map N.of_nat (seq 40 9) ++ [112; 49; 0; 112; 49; 0])%N 0 [])) in
  (forall c, exists x, machine_session (mk_machine 5 c) (narrow_cursor_io (mk_machine 5 c)) dummy_parser 9 [ReadHeaders; ReadEvent; ReadEvent] start =
    Ret (x, [GotHeaders (Some (Okay tt)); GotEvent (Some (Okay (NewPacket packet_new))); GotEvent (Some (Okay (NewPacket packet_new)))])) /\
  (forall c, machine_session (mk_machine 4 c) (narrow_cursor_io (mk_machine 4 c)) dummy_parser 9 [ReadHeaders; ReadEvent; ReadEvent] start = Panic).
Proof. split; intros [|]; try (eexists; vm_compute; reflexivity); vm_compute; reflexivity. Qed.

(** C145 is false: whatever the width, a request for half the address space, which any damaged
    length field may lead to, makes [read_event] panic in its first round, with and without
    overflow checks.  With 32 bits it takes 2^31 bytes, so any length field of 32 bits will do. *)
Theorem C145_large_request_refuted : forall m, (1 <= bits m <= 64)%N -> exists (ps : parser unit unit) n,
  incremental ps /\ seeks_within m ps /\ (forall k, asks ps k -> k <= n) /\ (N.of_nat n < 2 ^ bits m)%N /\
  forall r, wd_event (parser_demuxer ps (machine_buffered m (narrow_cursor_io m))) (machine_buffered m (narrow_cursor_io m)) (machine_grow m) 1
    (context_new tt (w_with_capacity 0 r)) = Panic.
Proof. exact greedy_machine_refutes. Qed.
Print Assumptions C145_large_request_refuted.

(** Without overflow checks [2^32 - 1] takes away a byte of the buffer each time, until a
    buffered one is gone. *)
Theorem C145_release_request_refuted : exists (ps : parser unit unit) src r n cap,
  incremental ps /\ seeks_within wasm32_release ps /\ (forall k, asks ps k -> k <= n) /\ (N.of_nat n < 2 ^ 32)%N /\
  source_ok (narrow_cursor_io wasm32_release) src (fun c => cur_src c = src) cur_pos /\ cur_src r = src /\ cur_pos r = 0 /\
  wd_event (parser_demuxer ps (machine_buffered wasm32_release (narrow_cursor_io wasm32_release)))
    (machine_buffered wasm32_release (narrow_cursor_io wasm32_release)) (machine_grow wasm32_release) 2
    (context_new tt (w_with_capacity cap r)) = Panic.
Proof. exact greedy_wasm_refutes. Qed.
Print Assumptions C145_release_request_refuted.

(** What holds: parsers that ask for at most [M] bytes at a time are safe as long as [M] bytes
    for every round of every call fit. *)
Theorem C145_bounded_requests_partial : forall m (S P D : Type) (i : io S) src good tell (ps : parser P D) rounds calls cap r d M,
  (1 <= bits m <= 64)%N ->
  source_ok i src good tell -> reports_within m i -> seeks_within m ps -> good r -> tell r = 0 ->
  (N.of_nat (length src) < 2 ^ (bits m - 1))%N -> (forall n, asks ps n -> n <= M) ->
  (N.of_nat cap + N.of_nat (length calls) * N.of_nat rounds * N.of_nat M < 2 ^ (bits m - 1))%N ->
  exists c rs, plain_session i ps rounds calls (context_new d (with_capacity cap r)) = Ret (c, rs) /\
    machine_session m i ps rounds calls (context_new d (w_with_capacity (N.of_nat cap) r)) = Ret (word_ctx c, rs).
Proof. exact machine_session_bounded. Qed.
Print Assumptions C145_bounded_requests_partial.

Example C145_example : incremental (greedy 7) /\ seeks_within wasm32_release (greedy 7) /\ (forall k, asks (greedy 7) k -> k <= 7) /\
  exists c, machine_session wasm32_release (narrow_cursor_io wasm32_release) (greedy 7) 9 [ReadEvent]
    (context_new tt (w_with_capacity 0 (mk_cursor [1; 2; 3; 4; 5; 6; 7; 8]%N 0 (map Deliver [1; 2])))) = Ret (c, [GotEvent (Some (Okay Eof))]) /\
    blen (wa_buf (c_reader c)) = 21%N.
Proof.
  split; [apply greedy_incremental|]. split; [apply greedy_within; discriminate|]. split; [apply greedy_asks|].
  eexists. split; vm_compute; reflexivity.
Qed.

(** C146: on a source that ends within the headers [read_headers] panics once its rounds have
    enlarged the buffer to half the address space, on any machine with overflow checks and on
    those without if no single request is that long. *)
Theorem C146_truncated_headers_panic : forall m (S P D : Type) (i : io S) src good tell, (1 <= bits m <= 64)%N ->
  source_ok i src good tell -> never_fails i src good tell -> forall (ps : parser P D), incremental_headers ps ->
  reports_within m i -> seeks_within m ps -> checked m = true \/ (forall n, asks ps n -> (N.of_nat n < 2 ^ (bits m - 1))%N) ->
  forall cap r0 d k, good r0 -> tell r0 = 0 ->
  (N.of_nat (length src) < 2 ^ (bits m - 1))%N -> (N.of_nat cap < 2 ^ (bits m - 1))%N ->
  ps_headers ps d src (mk_info None None []) = (d, mk_info None None [], Error (MoreDataNeeded k)) ->
  forall n, (2 ^ (bits m - 1) <= N.of_nat cap + N.of_nat n)%N ->
  wd_headers (parser_demuxer ps (machine_buffered m i)) (machine_buffered m i) (machine_grow m) n
    (context_new d (w_with_capacity (N.of_nat cap) r0)) = Panic.
Proof. exact machine_truncated. Qed.
Print Assumptions C146_truncated_headers_panic.

(** The demuxer of the project's tests on the 5 bytes "dummy", with 8 bits for [usize]: 4 bytes
    more in every round, from 5, make 128 in the 31st. *)
Example C146_example : forall c,
  let start := context_new tt (w_with_capacity 5 (mk_cursor [100; 117; 109; 109; 121]%N 0 [])) in
  let i := narrow_cursor_io (mk_machine 8 c) in
  incremental_headers dummy_parser /\ seeks_within (mk_machine 8 c) dummy_parser /\
  ps_headers dummy_parser tt [100; 117; 109; 109; 121]%N (mk_info None None []) = (tt, mk_info None None [], Error (MoreDataNeeded 4)) /\
  (exists x, wd_headers (parser_demuxer dummy_parser (machine_buffered (mk_machine 8 c) i)) (machine_buffered (mk_machine 8 c) i) (machine_grow (mk_machine 8 c)) 30 start =
    Ret (x, None) /\ blen (wa_buf (c_reader x)) = 125%N) /\
  wd_headers (parser_demuxer dummy_parser (machine_buffered (mk_machine 8 c) i)) (machine_buffered (mk_machine 8 c) i) (machine_grow (mk_machine 8 c)) 31 start = Panic.
Proof.
  intros c. cbv zeta. split; [exact dummy_headers|]. split; [apply dummy_within; discriminate|]. split; [reflexivity|].
  destruct c; (split; [eexists; split; vm_compute; reflexivity|vm_compute; reflexivity]).
Qed.

(** C147: with 64 bits it is the session of C119, and without overflow checks that of C122
    wherever that of C119 does not panic. *)
Theorem C147_context_on_64_bits : forall (S P D : Type) (i : io S) src good tell (ps : parser P D) rounds calls cap r d,
  source_ok i src good tell -> reports_u64 i -> seeks_fit ps -> good r -> tell r = 0 ->
  (N.of_nat (length src) < 2 ^ 63)%N -> (N.of_nat cap < 2 ^ 63)%N ->
  let c0 := context_new d (w_with_capacity (N.of_nat cap) r) in
  machine_session x86_64 i ps rounds calls c0 = word_session i ps rounds calls c0 /\
  (word_session i ps rounds calls c0 <> Panic ->
   machine_session x86_64_release i ps rounds calls c0 = release_session i ps rounds calls c0).
Proof. exact machine_session_64. Qed.
Print Assumptions C147_context_on_64_bits.

Example C147_example :
  let start := context_new tt (w_with_capacity 4 (mk_cursor (map N.of_nat (seq 40 9) ++ [112; 49; 0; 112; 49; 0])%N 0 (map Deliver [1; 3]))) in
  exists c, word_session word_cursor_io dummy_parser 9 [ReadHeaders; ReadEvent; ReadEvent] start = Ret c /\
    machine_session x86_64_release word_cursor_io dummy_parser 9 [ReadHeaders; ReadEvent; ReadEvent] start = Ret c /\
    release_session word_cursor_io dummy_parser 9 [ReadHeaders; ReadEvent; ReadEvent] start = Ret c.
Proof. eexists. split; [vm_compute; reflexivity|]. split; vm_compute; reflexivity. Qed.
