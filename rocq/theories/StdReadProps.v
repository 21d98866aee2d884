(** C104-C106: inherited methods of [Read] and [BufRead], and calls that need the source. *)
From Coq Require Import List Arith NArith ZArith Bool.
From Verif Require Import Base AccModel AccSpec AccExamples StdReadSpec StdReadProofs.
Import ListNotations.
Local Open Scope nat_scope.

(** C104 is false: three bytes are buffered, the source fails, reading three bytes fails. *)
Theorem C104_buffered_unreadable_refuted :
  exists src c0 a outs d a', source_ok cursor_io src (fun c => cur_src c = src) cur_pos /\ cur_src c0 = src /\ cur_pos c0 = 0 /\
    acc_run cursor_io (with_capacity 8 c0) [AFill; AData] = Ret (a, outs) /\ data a = Ret d /\ length d = 3 /\
    read cursor_io a (repeat 0%N 3) = Ret (a', repeat 0%N 3, Error (OtherError 5)).
Proof. exact buffered_unreadable. Qed.
Print Assumptions C104_buffered_unreadable_refuted.

(** C104: after any history, a read can be answered without the source exactly if fewer bytes
    are asked for than are buffered, or exactly these and they fill the buffer; [fill_buf]
    exactly if the buffer is full. *)
Theorem C104_needs_source_partial : forall (R : Type) (i : io R) src good tell cap r0 ops a outs,
  source_ok i src good tell -> good r0 -> tell r0 = 0 ->
  acc_legal i (with_capacity cap r0) ops -> acc_run i (with_capacity cap r0) ops = Ret (a, outs) ->
  exists d, data a = Ret d /\
    (forall dst, (forall i', read i' a dst = read i a dst) <-> length dst < length d \/ (length dst = length d /\ length d = cap + grown ops)) /\
    ((forall i', fill_buf i' a = fill_buf i a) <-> length d = cap + grown ops).
Proof. exact (@needs_source). Qed.
Print Assumptions C104_needs_source_partial.

Example C104_example :
  exists a outs a', acc_run cursor_io (with_capacity 8 (mk_cursor [1; 2; 3; 4; 5]%N 0 [Deliver 3; Fail (OtherError 5)])) [AFill] = Ret (a, outs) /\
    read cursor_io a (repeat 0%N 2) = Ret (a', [1; 2]%N, Okay 2).
Proof. eexists _, _, _. split; vm_compute; reflexivity. Qed.

(** C105: [read_to_end] after any history, whatever sizes it asks for: what it collected is an
    initial part of the rest of the source; all of it when it reports success; and it does
    report success, after at most one call per byte and one more, if the source does not fail. *)
Theorem C105_read_to_end : forall (R : Type) (i : io R) src good tell cap r0 ops a outs,
  source_ok i src good tell -> good r0 -> tell r0 = 0 ->
  acc_legal i (with_capacity cap r0) ops -> acc_run i (with_capacity cap r0) ops = Ret (a, outs) ->
  forall sizes, Forall (fun n => 0 < n) sizes ->
  exists p, history_spec src 0 ops outs p /\
  exists a' got res, read_to_end i sizes a [] = Ret (a', got, res) /\ got = firstn (length got) (skipn p src) /\
    (res = Some (Okay tt) -> got = skipn p src) /\
    (never_fails i src good tell -> length src - p < length sizes -> res = Some (Okay tt)).
Proof. exact (@whole_rest). Qed.
Print Assumptions C105_read_to_end.

Example C105_example :
  exists a outs a', acc_run cursor_io (with_capacity 4 (mk_cursor [1; 2; 3; 4; 5; 6; 7]%N 0 [Deliver 3; Fail Interrupted; Deliver 1])) [AFill; AConsume 1] = Ret (a, outs) /\
    read_to_end cursor_io [1; 9; 2; 32; 1; 5] a [] = Ret (a', [2; 3; 4; 5; 6; 7]%N, Some (Okay tt)).
Proof. eexists _, _, _. split; vm_compute; reflexivity. Qed.

(** C106 is false for an [AccReader] whose buffer is empty: the end is reported at once. *)
Theorem C106_empty_buffer_refuted :
  exists src c0 a', source_ok cursor_io src (fun c => cur_src c = src) cur_pos /\ cur_src c0 = src /\ cur_pos c0 = 0 /\ length src = 3 /\
    read_until cursor_io 9 3%N (with_capacity 0 c0) [] = Ret (a', [], Some (Okay tt)).
Proof. exact empty_buffer_end. Qed.
Print Assumptions C106_empty_buffer_refuted.

(** C106: with any room at all, [read_until] collects the bytes through the first delimiter, or
    all if there is none, leaving the position behind them; on failure an initial part. *)
Theorem C106_read_until_partial : forall (R : Type) (i : io R) src good tell cap r0 ops a outs,
  source_ok i src good tell -> good r0 -> tell r0 = 0 ->
  acc_legal i (with_capacity cap r0) ops -> acc_run i (with_capacity cap r0) ops = Ret (a, outs) ->
  forall fuel d, 0 < cap + grown ops ->
  exists p, history_spec src 0 ops outs p /\
  exists a' got res, read_until i fuel d a [] = Ret (a', got, res) /\ got = firstn (length got) (through d (skipn p src)) /\
    seek i a' (Current 0) = Ret (a', Okay (p + length got)) /\
    (res = Some (Okay tt) -> got = through d (skipn p src)) /\
    (never_fails i src good tell -> length src - p < fuel -> res = Some (Okay tt)).
Proof. exact (@one_line). Qed.
Print Assumptions C106_read_until_partial.

Example C106_example :
  exists a' a'', read_until cursor_io 9 10%N (with_capacity 2 (mk_cursor [72; 105; 33; 10; 66; 121]%N 0 [Deliver 1; Fail Interrupted])) [] =
      Ret (a', [72; 105; 33; 10]%N, Some (Okay tt)) /\
    read_until cursor_io 9 10%N a' [] = Ret (a'', [66; 121]%N, Some (Okay tt)).
Proof. eexists _, _. split; vm_compute; reflexivity. Qed.
