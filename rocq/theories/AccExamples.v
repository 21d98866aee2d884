(** A concrete source for the AccReader examples: 30 bytes, a first read cut to 4
    bytes. *)
From Coq Require Import List Arith NArith ZArith Bool.
From Verif Require Import Base AccModel AccSpec AccProofs2.
Import ListNotations.
Local Open Scope nat_scope.

Definition ex_src : list N := map N.of_nat (seq 100 30).
Definition ex_cursor : cursor := mk_cursor ex_src 0 [Deliver 4].
Definition ex_good (c : cursor) : Prop := cur_src c = ex_src /\ forallb no_fail (cur_script c) = true.
Definition ex_slice (n : nat) : list N := repeat 0%N n.
Definition ex_ops : list acc_op :=
  [ARead (ex_slice 3); AFill; AConsume 2; AGrow 5; AReset; ARead (ex_slice 40); ASeek (Start 20); ARead (ex_slice 2);
   ASeek (Current 3); AData; ASeek (End (-4)); ACapacity; ARead (ex_slice 9)].

Definition ex_short : list acc_op := [ARead (ex_slice 3); AFill].
Definition ex_failing : cursor := mk_cursor ex_src 0 [Deliver 4; Fail Interrupted; Fail (OtherError 5)].

Definition run_state {R : Type} (o : outcome (acc R * list acc_out)) (d : acc R) : acc R :=
  match o with Ret (a, _) => a | _ => d end.

Lemma ex_ok : source_ok cursor_io ex_src ex_good cur_pos.
Proof. apply cursor_good. Qed.
Lemma ex_nf : never_fails cursor_io ex_src ex_good cur_pos.
Proof. apply cursor_good. Qed.
Lemma ex_start : ex_good ex_cursor /\ cur_pos ex_cursor = 0.
Proof. repeat split. Qed.
Lemma ex_legal : acc_legal cursor_io (with_capacity 10 ex_cursor) ex_ops.
Proof. apply acc_legalb_sound. vm_compute. reflexivity. Qed.
Lemma ex_legal_short : acc_legal cursor_io (with_capacity 10 ex_cursor) ex_short.
Proof. apply acc_legalb_sound. vm_compute. reflexivity. Qed.
Lemma ex_legal_failing : acc_legal cursor_io (with_capacity 10 ex_failing) [ARead (ex_slice 3)].
Proof. apply acc_legalb_sound. vm_compute. reflexivity. Qed.
