(** Positions of [Writer] as a machine sees them. *)
From Coq Require Import List Arith NArith ZArith Bool.
From Verif Require Import Base AccModel MuxModel WordCountModel MachineModel.
Import ListNotations.
Local Open Scope N_scope.

(** The position modulo 2^bits. *)
Definition writer_on (m : machine) {W : Type} (w : writer W) : wwriter W := mk_wwriter (w_inner w) (N.of_nat (w_written w) mod 2 ^ bits m).

(** No call that writes takes the position past a multiple of 2^bits; seeks may. *)
Fixpoint stays (m : machine) {W : Type} (s : sink W) (w : writer W) (ops : list writer_op) : Prop :=
  match ops with
  | [] => True
  | op :: ops' => forall w1 o, writer_step s w op = Ret (w1, o) ->
      match op with
      | WSeek _ => True
      | _ => N.of_nat (writer_position w1) / 2 ^ bits m = N.of_nat (writer_position w) / 2 ^ bits m
      end /\ stays m s w1 ops'
  end.
