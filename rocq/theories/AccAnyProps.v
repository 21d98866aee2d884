(** Every sequence of calls on [AccReader]: C100 and C101. *)
From Coq Require Import List Arith NArith ZArith.
From Verif Require Import Base AccModel AccSpec AccAnySpec AccAnyMain AccExamples.
Import ListNotations.
Local Open Scope nat_scope.

(** C100: whatever calls are made, in whatever order and with whatever arguments, over a
    reader at any position: no call panics, the answers are those of the machine, the
    buffered bytes are the next ones of the source, and the unwrapped reader is ahead by
    exactly them. *)
Theorem C100_any_history : forall (R : Type) (i : io R) src good tell cap r ops,
  source_ok i src good tell -> good r ->
  exists a outs m, acc_run i (with_capacity cap r) ops = Ret (a, outs) /\
    history_any src (mk_machine (tell r) 0 0) ops outs m /\
    data a = Ret (window src m) /\ length (window src m) = m_buf m /\ tell (into_inner a) = m_pos m + m_buf m /\
    seek i a (Current 0) = Ret (a, Okay (m_told m)).
Proof. exact any_history_unwrapped. Qed.
Print Assumptions C100_any_history.

(** A history with a backward seek, which does not move at all, and a [consume] of more than
    is buffered: the bytes read next are those at 13, but the reader takes itself to be at 95
    afterwards. *)
Example C100_example :
  let ops := [ARead (ex_slice 3); AFill; ASeek (Current (-10)); AConsume 90; ACapacity; ARead (ex_slice 2)] in
  exists a, acc_run cursor_io (with_capacity 10 ex_cursor) ops =
    Ret (a, [ORead [100; 101; 102]%N (Okay 3); OFill (Okay (map N.of_nat (seq 103 10))); OSeek (Okay 3); OUnit; OCapacity 0; ORead [113; 114]%N (Okay 2)]) /\
    seek cursor_io a (Current 0) = Ret (a, Okay 95) /\ cur_pos (into_inner a) = 23.
Proof. eexists. split; [vm_compute; reflexivity|]. split; vm_compute; reflexivity. Qed.

(** C101: seeking to an absolute position is wrong if the reader was not at its beginning
    when it was wrapped. *)
Theorem C101_wrapped_late_refuted : exists (src : list N) (good : cursor -> Prop) (r0 : cursor) (cap : nat) (ops : list acc_op) a outs q a',
  source_ok cursor_io src good cur_pos /\ never_fails cursor_io src good cur_pos /\ good r0 /\
  acc_run cursor_io (with_capacity cap r0) ops = Ret (a, outs) /\
  seek cursor_io a (Start q) = Ret (a', Okay q) /\ q < length src /\ ~ delivers cursor_io src a' q.
Proof. exact wrapped_late_refuted. Qed.
Print Assumptions C101_wrapped_late_refuted.

(** C101: a seek relative to the end is right after every history, and everything is right
    from then on. *)
Theorem C101_seek_end_partial : forall (R : Type) (i : io R) src good tell cap r ops a outs d q,
  source_ok i src good tell -> never_fails i src good tell -> good r ->
  acc_run i (with_capacity cap r) ops = Ret (a, outs) -> Z.of_nat q = (Z.of_nat (length src) + d)%Z ->
  exists a', seek i a (End d) = Ret (a', Okay q) /\ delivers i src a' q /\
    forall ops2, acc_legal i a' ops2 ->
      exists a2 outs2 p2, acc_run i a' ops2 = Ret (a2, outs2) /\ history_spec src q ops2 outs2 p2.
Proof. exact seek_end_repairs. Qed.
Print Assumptions C101_seek_end_partial.

Example C101_example :
  exists a outs a1 a2, acc_run cursor_io (with_capacity 10 late_cursor) [AFill] = Ret (a, outs) /\ outs = [OFill (Okay (map N.of_nat (seq 105 10)))] /\
    read cursor_io (match seek cursor_io a (Start 3) with Ret (x, _) => x | _ => a end) [0; 0]%N = Ret (a1, [108; 109]%N, Okay 2) /\
    seek cursor_io a (End (-27)) = Ret (a2, Okay 3) /\ data a2 = Ret (map N.of_nat (seq 103 10)).
Proof. eexists _, _, _, _. split; [vm_compute; reflexivity|]. split; [vm_compute; reflexivity|]. split; [vm_compute; reflexivity|]. split; vm_compute; reflexivity. Qed.
