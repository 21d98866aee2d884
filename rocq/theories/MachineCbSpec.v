(** What construction of a codebook on a machine needs and what can stop it. *)
From Coq Require Import List NArith.
From Verif Require Import CodebookModel MachineModel.
Local Open Scope N_scope.

(** Codewords are [u32]. *)
Definition codes_u32 {S : Type} (ds : list (desc S)) : Prop := Forall (fun d => d_code d < 2 ^ 32) ds.

(** An allocator gives no more than [isize::MAX] bytes; entries of the table have four. *)
Definition honest (mc : machine) (grants : N -> bool) : Prop := forall n, grants n = true -> 4 * n < 2 ^ (bits mc - 1).

(** The codebook could not be allocated: the allocator refuses its table at some size that it
    has on the way, or its symbols. *)
Definition too_big {S : Type} (grants sym_grants : N -> bool) (cb : codebook S) : Prop :=
  (exists n, n <= N.of_nat (length (cb_table cb)) /\ grants n = false) \/
  sym_grants (N.of_nat (length (cb_syms cb))) = false.
