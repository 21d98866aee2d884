(** C23-C30: the accumulating reader. *)
From Coq Require Import List Arith NArith ZArith Bool.
From Verif Require Import Base AccModel AccSpec AccProofs2 AccExamples AccMain.
Import ListNotations.
Local Open Scope nat_scope.

(** C23: every history of calls answers with the bytes of the source at the current
    position, whatever the capacity and however the source cuts its reads or fails;
    no call panics. *)
Theorem C23_source_bytes_in_order : forall (R : Type) (i : io R) src good tell cap r0 ops,
  source_ok i src good tell -> good r0 -> tell r0 = 0 -> acc_legal i (with_capacity cap r0) ops ->
  exists a outs p, acc_run i (with_capacity cap r0) ops = Ret (a, outs) /\ history_spec src 0 ops outs p.
Proof. exact c23_source_bytes_in_order. Qed.
Print Assumptions C23_source_bytes_in_order.

Example C23_example :
  source_ok cursor_io ex_src ex_good cur_pos /\ ex_good ex_cursor /\ cur_pos ex_cursor = 0 /\
  acc_legal cursor_io (with_capacity 10 ex_cursor) ex_ops /\
  exists a, acc_run cursor_io (with_capacity 10 ex_cursor) ex_ops =
    Ret (a, [ORead [100; 101; 102]%N (Okay 3); OFill (Okay [103; 104; 105; 106; 107; 108; 109; 110; 111; 112]%N); OUnit; OUnit; OUnit;
      ORead (map N.of_nat (seq 105 25) ++ repeat 0%N 15) (Okay 25); OSeek (Okay 20);
      ORead [120; 121]%N (Okay 2); OSeek (Okay 25); OData [125; 126; 127; 128; 129]%N; OSeek (Okay 26); OCapacity 4;
      ORead ([126; 127; 128; 129] ++ repeat 0 5)%N (Okay 4)]).
Proof.
  split; [exact ex_ok|]. split; [apply ex_start|]. split; [apply ex_start|]. split; [exact ex_legal|].
  eexists. vm_compute. reflexivity.
Qed.

(** C24: after any history, a forward seek to a non-negative position of a source
    that does not fail returns that position, and the bytes read from then on are
    the ones from that position. *)
Theorem C24_seek_lands : forall (R : Type) (i : io R) src good tell cap r0 ops a outs,
  source_ok i src good tell -> never_fails i src good tell -> good r0 -> tell r0 = 0 ->
  acc_legal i (with_capacity cap r0) ops -> acc_run i (with_capacity cap r0) ops = Ret (a, outs) ->
  exists p, history_spec src 0 ops outs p /\
    forall s q, forward s -> Z.of_nat q = target (length src) p s ->
      exists a', seek i a s = Ret (a', Okay q) /\ delivers i src a' q.
Proof. exact c24_seek_lands. Qed.
Print Assumptions C24_seek_lands.

Example C24_example :
  never_fails cursor_io ex_src ex_good cur_pos /\
  exists a outs, acc_run cursor_io (with_capacity 10 ex_cursor) ex_short = Ret (a, outs) /\ seek cursor_io a (Current 0) = Ret (a, Okay 3) /\
    forall s q, In (s, q) [(Start 5, 5); (Start 1, 1); (Start 29, 29); (End (-2), 28); (Current 4, 7); (Current 15, 18); (Start 50, 50)] ->
      exists a', seek cursor_io a s = Ret (a', Okay q).
Proof.
  split; [exact ex_nf|]. eexists _, _. split; [vm_compute; reflexivity|]. split.
  - vm_compute; reflexivity.
  - intros s q H. repeat (destruct H as [H|H]; [injection H as <- <-; eexists; vm_compute; reflexivity|]). destruct H.
Qed.

(** C25: [seek(Current(0))] reports the position and changes nothing (in particular
    the inner reader is the same), and that position is the one of the next byte. *)
Theorem C25_position_reported : forall (R : Type) (i : io R) src good tell cap r0 ops a outs,
  source_ok i src good tell -> good r0 -> tell r0 = 0 ->
  acc_legal i (with_capacity cap r0) ops -> acc_run i (with_capacity cap r0) ops = Ret (a, outs) ->
  exists p, history_spec src 0 ops outs p /\ seek i a (Current 0) = Ret (a, Okay p) /\
    (never_fails i src good tell -> delivers i src a p).
Proof. exact c25_position_reported. Qed.
Print Assumptions C25_position_reported.

Example C25_example :
  exists a outs, acc_run cursor_io (with_capacity 10 ex_cursor) ex_ops = Ret (a, outs) /\
    seek cursor_io a (Current 0) = Ret (a, Okay 30).
Proof. eexists _, _. split; vm_compute; reflexivity. Qed.

(** C26 is false: 3 bytes read of a 13-byte window; moving back by 2 lands at 11
    instead of 1, because the inner reader is ahead of the stream position. *)
Theorem C26_backward_seek_refuted :
  exists (src : list N) (good : cursor -> Prop) (r0 : cursor) (cap : nat) (ops : list acc_op) a outs p d a' q,
    source_ok cursor_io src good cur_pos /\ never_fails cursor_io src good cur_pos /\ good r0 /\ cur_pos r0 = 0 /\
    acc_legal cursor_io (with_capacity cap r0) ops /\ acc_run cursor_io (with_capacity cap r0) ops = Ret (a, outs) /\
    seek cursor_io a (Current 0) = Ret (a, Okay p) /\ (d < 0)%Z /\ (0 <= Z.of_nat p + d)%Z /\
    seek cursor_io a (Current d) = Ret (a', Okay q) /\ Z.of_nat q <> (Z.of_nat p + d)%Z.
Proof. exact c26_backward_seek_refuted. Qed.
Print Assumptions C26_backward_seek_refuted.

(** What holds: with nothing buffered the seek is right; in general it lands beyond
    the requested position by exactly the number of buffered bytes. *)
Theorem C26_backward_seek_partial : forall (R : Type) (i : io R) src good tell cap r0 ops a outs d,
  source_ok i src good tell -> never_fails i src good tell -> good r0 -> tell r0 = 0 ->
  acc_legal i (with_capacity cap r0) ops -> acc_run i (with_capacity cap r0) ops = Ret (a, outs) -> (d < 0)%Z ->
  capacity a = Ret 0 ->
  exists p, history_spec src 0 ops outs p /\
    forall q, Z.of_nat q = (Z.of_nat p + d)%Z -> exists a', seek i a (Current d) = Ret (a', Okay q) /\ delivers i src a' q.
Proof. exact c26_backward_seek_partial. Qed.
Print Assumptions C26_backward_seek_partial.

Theorem C26_backward_seek_offset_partial : forall (R : Type) (i : io R) src good tell cap r0 ops a outs d,
  source_ok i src good tell -> never_fails i src good tell -> good r0 -> tell r0 = 0 ->
  acc_legal i (with_capacity cap r0) ops -> acc_run i (with_capacity cap r0) ops = Ret (a, outs) -> (d < 0)%Z ->
  exists p c, history_spec src 0 ops outs p /\ capacity a = Ret c /\
    forall q, Z.of_nat q = (Z.of_nat p + Z.of_nat c + d)%Z -> exists a', seek i a (Current d) = Ret (a', Okay q) /\ delivers i src a' q.
Proof. exact c26_backward_seek_offset_partial. Qed.
Print Assumptions C26_backward_seek_offset_partial.

Example C26_example :
  exists a outs a', acc_run cursor_io (with_capacity 10 ex_cursor) [ARead (ex_slice 4)] = Ret (a, outs) /\ capacity a = Ret 0 /\
    seek cursor_io a (Current (-3)) = Ret (a', Okay 1).
Proof. eexists _, _, _. repeat (apply conj; [vm_compute; reflexivity|]); vm_compute; reflexivity. Qed.

(** C27: growing and resetting change neither the visible data nor the position;
    after growing, a successful fill brings more data unless the source has ended. *)
Theorem C27_grow_reset_transparent : forall (R : Type) (i : io R) src good tell cap r0 ops a outs,
  source_ok i src good tell -> good r0 -> tell r0 = 0 ->
  acc_legal i (with_capacity cap r0) ops -> acc_run i (with_capacity cap r0) ops = Ret (a, outs) ->
  exists p d, history_spec src 0 ops outs p /\ data a = Ret d /\ seek i a (Current 0) = Ret (a, Okay p) /\
    (forall n, data (grow a n) = Ret d /\ seek i (grow a n) (Current 0) = Ret (grow a n, Okay p) /\
       (0 < n -> forall a' d', fill_buf i (grow a n) = Ret (a', Okay d') ->
          exists more, d' = d ++ more /\ (p + length d < length src -> more <> []))) /\
    (exists a', reset_buffer_position a = Ret a' /\ data a' = Ret d /\ seek i a' (Current 0) = Ret (a', Okay p)).
Proof. exact c27_grow_reset_transparent. Qed.
Print Assumptions C27_grow_reset_transparent.

Example C27_example :
  exists a outs a', acc_run cursor_io (with_capacity 10 ex_cursor) ex_short = Ret (a, outs) /\
    data a = Ret [103; 104; 105; 106; 107; 108; 109; 110; 111; 112]%N /\
    fill_buf cursor_io (grow a 2) = Ret (a', Okay [103; 104; 105; 106; 107; 108; 109; 110; 111; 112; 113; 114]%N).
Proof. eexists _, _, _. repeat (apply conj; [vm_compute; reflexivity|]); vm_compute; reflexivity. Qed.

(** C28: [read_exact] returns the next [n] bytes iff the source has them. *)
Theorem C28_read_exact : forall (R : Type) (i : io R) src good tell cap r0 ops a outs n,
  source_ok i src good tell -> never_fails i src good tell -> good r0 -> tell r0 = 0 ->
  acc_legal i (with_capacity cap r0) ops -> acc_run i (with_capacity cap r0) ops = Ret (a, outs) ->
  exists p, history_spec src 0 ops outs p /\
    (n <= length src - p -> exists a', read_exact i n a n = Ret (a', Some (Okay (firstn n (skipn p src)))) /\
       seek i a' (Current 0) = Ret (a', Okay (p + n))) /\
    (length src - p < n -> exists a', read_exact i n a n = Ret (a', Some (Error UnexpectedEof))).
Proof. exact c28_read_exact. Qed.
Print Assumptions C28_read_exact.

Example C28_example :
  exists a outs a' a'', acc_run cursor_io (with_capacity 10 ex_cursor) ex_short = Ret (a, outs) /\
    read_exact cursor_io 27 a 27 = Ret (a', Some (Okay (map N.of_nat (seq 103 27)))) /\
    read_exact cursor_io 28 a 28 = Ret (a'', Some (Error UnexpectedEof)).
Proof. eexists _, _, _, _. repeat (apply conj; [vm_compute; reflexivity|]); vm_compute; reflexivity. Qed.

(** C29: no legal history panics; the window stays inside the buffer, whose size is
    the capacity plus what [grow] added. *)
Theorem C29_window_bounds : forall (R : Type) (i : io R) src good tell cap r0 ops,
  source_ok i src good tell -> good r0 -> tell r0 = 0 -> acc_legal i (with_capacity cap r0) ops ->
  exists a outs, acc_run i (with_capacity cap r0) ops = Ret (a, outs) /\
    apos a <= aend a <= length (abuf a) /\ length (abuf a) = cap + grown ops.
Proof. exact c29_window_bounds. Qed.
Print Assumptions C29_window_bounds.

Example C29_example :
  exists a outs, acc_run cursor_io (with_capacity 10 ex_cursor) ex_ops = Ret (a, outs) /\
    (apos a, aend a, length (abuf a)) = (4, 4, 15).
Proof. eexists _, _. split; vm_compute; reflexivity. Qed.

(** C30: a failing fill or read, or a seek while the source refuses to seek, leaves
    the visible data and the position unchanged; whatever is called next continues
    at the same byte. *)
Theorem C30_failures_lose_nothing : forall (R : Type) (i : io R) src good tell cap r0 ops a outs,
  source_ok i src good tell -> good r0 -> tell r0 = 0 ->
  acc_legal i (with_capacity cap r0) ops -> acc_run i (with_capacity cap r0) ops = Ret (a, outs) ->
  exists p d, history_spec src 0 ops outs p /\ data a = Ret d /\
    (forall a' e, fill_buf i a = Ret (a', Error e) \/
                  (exists dst dst', read i a dst = Ret (a', dst', Error e)) \/
                  (exists s, seek i a s = Ret (a', Error e) /\ forall s', exists r' e', io_seek i (inner a) s' = (r', Error e')) ->
       data a' = Ret d /\ seek i a' (Current 0) = Ret (a', Okay p) /\
       (forall ops2, acc_legal i a' ops2 ->
          exists a2 outs2 p2, acc_run i a' ops2 = Ret (a2, outs2) /\ history_spec src p ops2 outs2 p2)).
Proof. exact c30_failures_lose_nothing. Qed.
Print Assumptions C30_failures_lose_nothing.

Example C30_example :
  source_ok cursor_io ex_src (fun c => cur_src c = ex_src) cur_pos /\
  acc_legal cursor_io (with_capacity 10 ex_failing) [ARead (ex_slice 3)] /\
  exists a outs a1 a2 a3 d, acc_run cursor_io (with_capacity 10 ex_failing) [ARead (ex_slice 3)] = Ret (a, outs) /\
    data a = Ret [103]%N /\
    fill_buf cursor_io a = Ret (a1, Error Interrupted) /\ data a1 = Ret [103]%N /\
    read cursor_io a1 (ex_slice 5) = Ret (a2, ex_slice 5, Error (OtherError 5)) /\
    read cursor_io a2 (ex_slice 5) = Ret (a3, d, Okay 5) /\ d = [103; 104; 105; 106; 107]%N.
Proof.
  split; [apply cursor_ok|]. split; [exact ex_legal_failing|]. eexists _, _, _, _, _, _.
  repeat (apply conj; [vm_compute; reflexivity|]); vm_compute; reflexivity.
Qed.
