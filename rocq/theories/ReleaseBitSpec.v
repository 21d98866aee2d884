(** The bit queue of [BitQueueSpec] with a count of available bits that wraps around. *)
From Coq Require Import List Arith NArith ZArith Bool.
From Verif Require Import Base BitModel BitSpec BitQueueSpec.
Import ListNotations.
Local Open Scope nat_scope.

(** Bits of the stream not yet fetched (negative after a skip too far) plus those waiting. *)
Definition bits_left (l : list bool) (q : queue) : Z :=
  (Z.of_nat (length l) - Z.of_nat (fetched q) + Z.of_nat (length (waiting q)))%Z.

(** Arguments are [usize]. *)
Definition arg_fits (op : bit_op) : Prop :=
  match op with OpGet64 n | OpPeek64 n | OpSkip n => (N.of_nat n < 2 ^ 64)%N | _ => True end.

(** No call panics. *)
Definition rq_op (e : endian) (l : list bool) (q : queue) (op : bit_op) : queue * bit_out :=
  match op with
  | OpAvailable => (q, OutCount (Z.to_nat (bits_left l q mod 2 ^ 64)))
  | _ => match q_op e l q op with Some x => x | None => (q, OutUnit) end
  end.

Fixpoint rq_ops (e : endian) (l : list bool) (q : queue) (ops : list bit_op) : queue * list bit_out :=
  match ops with
  | [] => (q, [])
  | op :: ops' => let '(q1, o) := rq_op e l q op in let '(q2, os) := rq_ops e l q1 ops' in (q2, o :: os)
  end.

Definition rq_run (e : endian) (buf : list N) (ops : list bit_op) : queue * list bit_out :=
  rq_ops e (bits_of e buf) (fetch64 (bits_of e buf) (mk_queue [] 0)) ops.
