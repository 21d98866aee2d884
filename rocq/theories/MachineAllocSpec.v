(** Which allocations succeed. *)
From Coq Require Import NArith.
From Verif Require Import MachineModel.
Local Open Scope N_scope.

(** A vector of [n] bytes can be had: nothing is needed, or [isize::MAX] bytes at most and the
    allocator has them. *)
Definition obtainable (m : machine) (grants : N -> bool) (n : N) : Prop :=
  n = 0 \/ (n < 2 ^ (bits m - 1) /\ grants n = true).
