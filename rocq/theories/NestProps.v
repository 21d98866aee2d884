(** Property C167: buffered readers over buffered readers. *)
From Coq Require Import List Arith NArith ZArith Bool.
From Verif Require Import Base AccModel AccSpec AccProofs2 NestSpec NestProofs.
Import ListNotations.
Local Open Scope nat_scope.

(** C167: any number of [AccReader]s on top of each other, of any capacities, over a source
    that may fail, answer every sequence of calls other than seeks as one over the source
    would, and none of them panics. *)
Theorem C167_nested_reads : forall (R : Type) (i : io R) src good tell caps cap r0 ops,
  source_ok i src good tell -> good r0 -> tell r0 = 0 -> Forall seekless ops ->
  acc_legal (tower_io i (length caps)) (with_capacity cap (tower_new caps r0)) ops ->
  exists a outs p, acc_run (tower_io i (length caps)) (with_capacity cap (tower_new caps r0)) ops = Ret (a, outs) /\
    history_spec src 0 ops outs p /\ intact (length caps) (inner a).
Proof. exact nested_reads. Qed.
Print Assumptions C167_nested_reads.

(** Four bytes over three bytes over a source of nine that is interrupted once. *)
Example C167_nested_reads_example : exists a,
  acc_run (tower_io cursor_io 1) (with_capacity 4 (tower_new [3] (mk_cursor (map N.of_nat (seq 1 9)) 0 [Deliver 2; Fail Interrupted])))
    [ARead [0; 0]%N; ARead [0; 0; 0]%N; AFill; AConsume 2; ARead (repeat 0%N 6)] =
  Ret (a, [ORead [1; 2]%N (Okay 2); ORead [0; 0; 0]%N (Error Interrupted); OFill (Okay [3; 4; 5; 6]%N); OUnit; ORead [5; 6; 7; 8; 9; 0]%N (Okay 5)]) /\
  intact 1 (inner a).
Proof. eexists. split; [vm_compute; reflexivity|exact I]. Qed.

(** With seeks, none of them backwards from the current position (C26), this holds over a
    source that does not fail, and nothing fails. *)
Theorem C167_nested_seeks_partial : forall (R : Type) (i : io R) src good tell caps cap r0 ops,
  source_ok i src good tell -> never_fails i src good tell -> good r0 -> tell r0 = 0 ->
  acc_legal (tower_io i (length caps)) (with_capacity cap (tower_new caps r0)) ops ->
  exists a outs p, acc_run (tower_io i (length caps)) (with_capacity cap (tower_new caps r0)) ops = Ret (a, outs) /\
    history_spec src 0 ops outs p /\ intact (length caps) (inner a) /\ delivers (tower_io i (length caps)) src a p.
Proof. exact nested_seeks. Qed.
Print Assumptions C167_nested_seeks_partial.

(** Three on top of each other, seeks that skip the buffers and one within them. *)
Example C167_nested_seeks_example : exists a,
  acc_run (tower_io cursor_io 2) (with_capacity 5 (tower_new [2; 3] (mk_cursor (map N.of_nat (seq 0 20)) 0 [Deliver 1; Deliver 2])))
    [ARead [0; 0]%N; ASeek (Start 10); ARead [0]%N; ASeek (Current 2); ARead [0; 0]%N; ASeek (End (-3)); ARead [0; 0]%N] =
  Ret (a, [ORead [0; 0]%N (Okay 1); OSeek (Okay 10); ORead [10]%N (Okay 1); OSeek (Okay 13); ORead [13; 14]%N (Okay 2);
    OSeek (Okay 17); ORead [17; 18]%N (Okay 2)]) /\ intact 2 (inner a).
Proof. eexists. split; [vm_compute; reflexivity|exact I]. Qed.

(** Over a source that fails it does not hold: a seek of the inner [AccReader] whose read
    fails has moved already, but reports an error, after which the outer one keeps its
    bytes and goes on with those from the new place. *)
Theorem C167_failing_seek_refuted : exists (i : io (nat * bool)) src good tell caps cap r0 ops a outs,
  source_ok i src good tell /\ good r0 /\ tell r0 = 0 /\
  acc_legal (tower_io i (length caps)) (with_capacity cap (tower_new caps r0)) ops /\
  acc_run (tower_io i (length caps)) (with_capacity cap (tower_new caps r0)) ops = Ret (a, outs) /\ intact (length caps) (inner a) /\
  forall p, ~ history_spec src 0 ops outs p.
Proof. exact nested_failing. Qed.
Print Assumptions C167_failing_seek_refuted.
