(** C170: further methods that [AccReader] and [Writer] inherit from the standard library. *)
From Coq Require Import List Arith NArith ZArith Bool.
From Verif Require Import Base AccModel AccSpec AccExamples StdReadSpec MuxModel MuxSpec InheritSpec InheritProofs.
Import ListNotations.
Local Open Scope nat_scope.

(** C170: after any history, [read_vectored] reads into the first buffer that is not empty, as [read]
    would, and leaves the others alone. *)
Theorem C170_read_vectored : forall (R : Type) (i : io R) src good tell cap r0 ops a outs,
  source_ok i src good tell -> good r0 -> tell r0 = 0 ->
  acc_legal i (with_capacity cap r0) ops -> acc_run i (with_capacity cap r0) ops = Ret (a, outs) ->
  forall bufs, exists p, history_spec src 0 ops outs p /\
  exists a' bufs' res p', read_vectored i a bufs = Ret (a', bufs', res) /\ stream_position i a' = Ret (a', Okay p') /\
    ((forall b, In b bufs -> b = []) /\ bufs' = bufs /\ p' = p \/
     exists before b after b', bufs = before ++ b :: after /\ (forall x, In x before -> x = []) /\ b <> [] /\
       bufs' = before ++ b' :: after /\ reads src p b b' res p').
Proof. exact (@inherited_vectored). Qed.
Print Assumptions C170_read_vectored.

(** C170: what [bytes] yields is an initial part of the rest of the source, all of it if no error
    comes up; it ends if the source does not fail. *)
Theorem C170_bytes : forall (R : Type) (i : io R) src good tell cap r0 ops a outs,
  source_ok i src good tell -> good r0 -> tell r0 = 0 ->
  acc_legal i (with_capacity cap r0) ops -> acc_run i (with_capacity cap r0) ops = Ret (a, outs) ->
  forall calls, exists p, history_spec src 0 ops outs p /\
  exists a' got res, collect_bytes i calls a [] = Ret (a', got, res) /\ stream_position i a' = Ret (a', Okay (p + length got)) /\
    got = firstn (length got) (skipn p src) /\
    (res = Some (Okay tt) -> got = skipn p src) /\
    (never_fails i src good tell -> length src - p < calls -> res = Some (Okay tt)).
Proof. exact (@inherited_bytes). Qed.
Print Assumptions C170_bytes.

(** C170: reading a [take] to its end gives the next [limit] bytes, or all there are, and the reader
    goes on behind them; on failure an initial part. *)
Theorem C170_take : forall (R : Type) (i : io R) src good tell cap r0 ops a outs,
  source_ok i src good tell -> good r0 -> tell r0 = 0 ->
  acc_legal i (with_capacity cap r0) ops -> acc_run i (with_capacity cap r0) ops = Ret (a, outs) ->
  forall sizes limit, Forall (fun n => 0 < n) sizes -> exists p, history_spec src 0 ops outs p /\
  exists a' got res, take_to_end i sizes a limit [] = Ret (a', limit - length got, got, res) /\ stream_position i a' = Ret (a', Okay (p + length got)) /\
    length got <= limit /\ got = firstn (length got) (skipn p src) /\
    (res = Some (Okay tt) -> got = firstn limit (skipn p src)) /\
    (never_fails i src good tell -> Nat.min limit (length src - p) < length sizes -> res = Some (Okay tt)).
Proof. exact (@inherited_take). Qed.
Print Assumptions C170_take.

(** C170: with any room at all, [skip_until] goes behind the next delimiter, or to the end, and
    returns how far that was. *)
Theorem C170_skip_until : forall (R : Type) (i : io R) src good tell cap r0 ops a outs,
  source_ok i src good tell -> good r0 -> tell r0 = 0 ->
  acc_legal i (with_capacity cap r0) ops -> acc_run i (with_capacity cap r0) ops = Ret (a, outs) ->
  forall fuel d, 0 < cap + grown ops -> exists p, history_spec src 0 ops outs p /\
  exists a' n res, skip_until i fuel d a 0 = Ret (a', n, res) /\ stream_position i a' = Ret (a', Okay (p + n)) /\
    n <= length (through d (skipn p src)) /\
    (res = Some (Okay tt) -> n = length (through d (skipn p src))) /\
    (never_fails i src good tell -> length src - p < fuel -> res = Some (Okay tt)).
Proof. exact (@inherited_skip). Qed.
Print Assumptions C170_skip_until.

(** C170: [stream_position] is the position and changes nothing; [rewind] and [seek_relative] go where
    they say or, with an error, possibly stay. *)
Theorem C170_seeks : forall (R : Type) (i : io R) src good tell cap r0 ops a outs,
  source_ok i src good tell -> good r0 -> tell r0 = 0 ->
  acc_legal i (with_capacity cap r0) ops -> acc_run i (with_capacity cap r0) ops = Ret (a, outs) ->
  exists p, history_spec src 0 ops outs p /\ stream_position i a = Ret (a, Okay p) /\
  (exists a' res, rewind i a = Ret (a', res) /\ exists p', stream_position i a' = Ret (a', Okay p') /\ (p' = 0 \/ p' = p) /\ (res = Okay tt -> p' = 0)) /\
  forall n, exists a' res, seek_relative i a (Z.of_nat n) = Ret (a', res) /\ exists p', stream_position i a' = Ret (a', Okay p') /\ (p' = p + n \/ p' = p) /\ (res = Okay tt -> p' = p + n).
Proof. exact (@inherited_seeks). Qed.
Print Assumptions C170_seeks.

Example C170_reader_example :
  let c0 := mk_cursor [1; 2; 3; 4; 5; 6; 7; 8; 9]%N 0 [Deliver 3; Fail Interrupted; Deliver 1] in
  exists a outs a1 a2 a3 a4 a5,
    acc_run cursor_io (with_capacity 4 c0) [AFill; AConsume 1] = Ret (a, outs) /\
    take_to_end cursor_io [1; 9; 2; 5] a 3 [] = Ret (a1, 0, [2; 3; 4]%N, Some (Okay tt)) /\
    read_vectored cursor_io a1 [[]; [0; 0]; [0; 0]]%N = Ret (a2, [[]; [5; 6]; [0; 0]]%N, Okay 2) /\
    skip_until cursor_io 9 8%N a2 0 = Ret (a3, 2, Some (Okay tt)) /\
    collect_bytes cursor_io 2 a3 [] = Ret (a4, [9]%N, Some (Okay tt)) /\
    stream_position cursor_io a4 = Ret (a4, Okay 9) /\
    rewind cursor_io a4 = Ret (a5, Okay tt) /\ stream_position cursor_io a5 = Ret (a5, Okay 0).
Proof. eexists _, _, _, _, _, _, _. repeat (split; [vm_compute; reflexivity|]). vm_compute; reflexivity. Qed.

(** C170: [write_vectored] of [Writer] passes one buffer on, the first that is not empty, with a
    single call, and counts what was accepted. *)
Theorem C170_write_vectored : forall (W : Type) (s : sink W) good tell, sink_ok s good tell -> forall w bufs w' res, good (w_inner w) ->
  writer_write_vectored s w bufs = (w', res) ->
  good (w_inner w') /\ exists b, sk_write s (w_inner w) b = (w_inner w', res) /\
    ((forall x, In x bufs -> x = []) /\ b = [] \/ exists before after, bufs = before ++ b :: after /\ b <> [] /\ forall x, In x before -> x = []) /\
    match res with
    | Okay n => n <= length b /\ writer_position w' = writer_position w + n /\ tell (w_inner w') = tell (w_inner w) + n
    | Error _ => writer_position w' = writer_position w /\ tell (w_inner w') = tell (w_inner w)
    end.
Proof. exact (@writer_vectored). Qed.
Print Assumptions C170_write_vectored.

(** C170: [stream_position] of [Writer] makes [position] the position of the output, also for a
    writer that was created on an output that was not at its start (C44_displaced). *)
Theorem C170_writer_stream_position : forall (W : Type) (s : sink W) good tell, sink_ok s good tell -> forall w w' q, good (w_inner w) ->
  writer_stream_position s w = (w', Okay q) -> writer_position w' = q /\ tell (w_inner w') = q.
Proof. exact (@writer_told). Qed.
Print Assumptions C170_writer_stream_position.

Example C170_writer_example :
  exists w1 w2, writer_write_vectored file_sink (writer_new (mk_file [1; 2; 3]%N 3 0 [Okay 2])) [[]; [4; 5; 6]; [7]]%N = (w1, Okay 2) /\
    f_data (w_inner w1) = [1; 2; 3; 4; 5]%N /\ writer_position w1 = 2 /\
    writer_stream_position file_sink w1 = (w2, Okay 5) /\ writer_position w2 = 5.
Proof. eexists _, _. repeat (split; [vm_compute; reflexivity|]). vm_compute; reflexivity. Qed.
