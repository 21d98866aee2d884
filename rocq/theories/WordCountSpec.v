(** Counters that fit 64 bits. *)
From Coq Require Import List Arith NArith ZArith Bool.
From Verif Require Import Base AccModel MuxModel StreamModel WordCountModel.
Import ListNotations.
Local Open Scope nat_scope.

Definition word_writer {W : Type} (w : writer W) : wwriter W := mk_wwriter (w_inner w) (N.of_nat (w_written w)).

(** [Seek::seek] returns a [u64]. *)
Definition seeks_words {W : Type} (s : sink W) : Prop :=
  forall w sk w' p, sk_seek s w sk = (w', Okay p) -> (N.of_nat p < W64)%N.

(** The position stays below 2^64 after every call. *)
Fixpoint position_fits {W : Type} (s : sink W) (w : writer W) (ops : list writer_op) : Prop :=
  match ops with
  | [] => True
  | op :: ops' => forall w1 o, writer_step s w op = Ret (w1, o) -> (N.of_nat (writer_position w1) < W64)%N /\ position_fits s w1 ops'
  end.

(** [Read::read]: the slice keeps its length, the count is at most that. *)
Definition honest_reader {R : Type} (rd : reader R) : Prop :=
  forall r t r' t' n, rd r t = Ret (r', t', Okay n) -> length t' = length t /\ n <= length t.

(** An output that ends at [p] and accepts everything. *)
Definition end_sink (p : nat) : sink nat :=
  mk_sink (fun w buf => (w + length buf, Okay (length buf))) (fun w => (w, Okay tt))
    (fun w sk => match sk with End 0 => (p, Okay p) | _ => (w, Error (OtherError 22)) end).
