(** Specification of bit reading: the buffer is a list of booleans, a reader is
    a position in it.  No cache, no refill. *)
From Coq Require Import List Arith NArith Bool.
From Verif Require Import Base BitModel.
Import ListNotations.
Local Open Scope nat_scope.
(* From [BitModel] only the names of the endiannesses, the operations and their
   outputs are used here, none of its functions (except in [calls_ok], whose
   side condition refers to what the reader itself reports as available). *)

(** The 8 bits of a byte in the order in which a reader delivers them. *)
Definition byte_bits (e : endian) (b : N) : list bool :=
  match e with
  | LE => map (N.testbit b) [0; 1; 2; 3; 4; 5; 6; 7]%N
  | BE => map (N.testbit b) [7; 6; 5; 4; 3; 2; 1; 0]%N
  end.

(** All the bits of a buffer. *)
Definition bits_of (e : endian) (buf : list N) : list bool := flat_map (byte_bits e) buf.

(** The number spelled by a bit string: little-endian streams deliver the least
    significant bit first, big-endian streams the most significant one. *)
Fixpoint value_le (l : list bool) : N :=
  match l with
  | [] => 0
  | b :: t => N.b2n b + 2 * value_le t
  end.
Definition value_be (l : list bool) : N :=
  fold_left (fun acc b => 2 * acc + N.b2n b)%N l 0%N.
Definition value (e : endian) (l : list bool) : N :=
  match e with LE => value_le l | BE => value_be l end.

(** [n] bits from position [p]. *)
Definition window (l : list bool) (p n : nat) : list bool := firstn n (skipn p l).

(** The next multiple of 8. *)
Definition align8 (p : nat) : nat := 8 * ((p + 7) / 8).

(** Number of bits an operation looks at. *)
Definition op_bits (p : nat) (op : bit_op) : nat :=
  match op with
  | OpGetBit | OpPeekBit => 1
  | OpGet32 n | OpGet64 n | OpPeek32 n | OpPeek64 n | OpSkip n => n
  | OpAlign => align8 p - p
  | OpConsumed | OpAvailable => 0
  end.

(** Documented argument ranges. *)
Definition op_ok (op : bit_op) : Prop :=
  match op with
  | OpGet32 n | OpPeek32 n => n <= 32
  | OpGet64 n | OpPeek64 n => n <= 64
  | _ => True
  end.

(** The specified new position and output. *)
Definition spec_op (e : endian) (l : list bool) (p : nat) (op : bit_op) : nat * bit_out :=
  match op with
  | OpGetBit => (p + 1, OutBit (nth p l false))
  | OpGet32 n | OpGet64 n => (p + n, OutWord (value e (window l p n)))
  | OpPeekBit => (p, OutBit (nth p l false))
  | OpPeek32 n | OpPeek64 n => (p, OutWord (value e (window l p n)))
  | OpSkip n => (p + n, OutUnit)
  | OpAlign => (align8 p, OutUnit)
  | OpConsumed => (p, OutCount p)
  | OpAvailable => (p, OutCount (length l - p))
  end.

Fixpoint spec_ops (e : endian) (l : list bool) (p : nat) (ops : list bit_op) : nat * list bit_out :=
  match ops with
  | [] => (p, [])
  | op :: ops' =>
      let '(p1, o) := spec_op e l p op in
      let '(p2, os) := spec_ops e l p1 ops' in
      (p2, o :: os)
  end.

(** Every operation of the sequence respects its documented range and looks
    only at bits before [limit]. *)
Fixpoint ops_within (e : endian) (l : list bool) (limit p : nat) (ops : list bit_op) : Prop :=
  match ops with
  | [] => True
  | op :: ops' =>
      op_ok op /\ p + op_bits p op <= limit /\
      ops_within e l limit (fst (spec_op e l p op)) ops'
  end.

(** Pure reads (no skipping). *)
Definition is_read (op : bit_op) : Prop :=
  match op with
  | OpGetBit => True
  | OpGet32 n => n <= 32
  | OpGet64 n => n <= 64
  | _ => False
  end.

Definition read_bits (op : bit_op) : nat :=
  match op with
  | OpGetBit => 1
  | OpGet32 n | OpGet64 n => n
  | _ => 0
  end.

(** The output of a read that delivered the bit string [w]. *)
Definition read_output (e : endian) (op : bit_op) (w : list bool) : bit_out :=
  match op with
  | OpGetBit => OutBit (hd false w)
  | _ => OutWord (value e w)
  end.

(** A trace of reads in which each read delivers [k] genuine bits of the stream
    followed by zero bits.  Fewer genuine bits than asked are delivered only
    within the last 7 bytes, and from then on every read delivers only zeros. *)
Fixpoint zero_fill_trace (e : endian) (l : list bool) (p : nat) (exhausted : bool)
    (ops : list bit_op) (outs : list bit_out) : Prop :=
  match ops, outs with
  | [], [] => True
  | op :: ops', o :: outs' =>
      exists k : nat,
        k <= read_bits op /\ (exhausted = true -> k = 0) /\ p + k <= length l /\
        o = read_output e op (window l p k ++ repeat false (read_bits op - k)) /\
        (k < read_bits op -> length l <= p + k + 56) /\
        zero_fill_trace e l (p + k) (exhausted || (k <? read_bits op)) ops' outs'
  | _, _ => False
  end.

(** Operations of the 64-bit path. *)
Definition path64 (op : bit_op) : Prop :=
  match op with
  | OpGetBit | OpPeekBit | OpAlign | OpConsumed | OpAvailable => True
  | OpGet64 n | OpPeek64 n | OpSkip n => n <= 64
  | OpGet32 _ | OpPeek32 _ => False
  end.

(** Joining the values of two consecutive reads of [a] and [b] bits. *)
Definition join_values (e : endian) (a b : nat) (va vb : N) : N :=
  match e with
  | LE => va + 2 ^ N.of_nat a * vb
  | BE => va * 2 ^ N.of_nat b + vb
  end.

Fixpoint sum (l : list nat) : nat := match l with [] => 0 | x :: t => x + sum t end.

(** Sequences of calls in which arguments respect the documented ranges and no
    skip goes beyond what [available] reports at that moment. *)
Fixpoint calls_ok (e : endian) (r : reader) (ops : list bit_op) : Prop :=
  match ops with
  | [] => True
  | op :: ops' =>
      op_ok op /\
      (forall n a, op = OpSkip n -> available r = Ret a -> n <= a) /\
      (forall r' o, run_op e r op = Ret (r', o) -> calls_ok e r' ops')
  end.
