(** Specification of the bit reader at every position, including the end of the
    buffer and after skips that go too far: a queue of bits that is topped up
    from the stream.  There are no words, masks, shifts or byte orders here; of
    [BitModel] only the names of the operations and of their outputs are used. *)
From Coq Require Import List Arith NArith Bool.
From Verif Require Import Base BitModel BitSpec.
Import ListNotations.
Local Open Scope nat_scope.

(** The bits waiting to be delivered, and the number of bits of the stream
    fetched so far. *)
Record queue : Type := mk_queue { waiting : list bool; fetched : nat }.

(** The next 64 bits replace the queue, provided the stream has them. *)
Definition fetch64 (l : list bool) (q : queue) : queue :=
  if fetched q + 64 <=? length l
  then mk_queue (window l (fetched q) 64) (fetched q + 64)
  else q.

(** The next 32 bits join the queue, provided the stream has 64 more. *)
Definition fetch32 (l : list bool) (q : queue) : queue :=
  if fetched q + 64 <=? length l
  then mk_queue (waiting q ++ window l (fetched q) 32) (fetched q + 32)
  else q.

(** The first [n] bits of the queue, zeros where it is too short. *)
Definition front (q : queue) (n : nat) : list bool :=
  firstn n (waiting q) ++ repeat false (n - length (waiting q)).
Definition drop (q : queue) (n : nat) : queue := mk_queue (skipn n (waiting q)) (fetched q).

Definition q_bit (l : list bool) (q : queue) : queue * bool :=
  let q1 := match waiting q with [] => fetch64 l q | _ => q end in
  (drop q1 1, hd false (waiting q1)).

Definition q_get64 (l : list bool) (q : queue) (n : nat) : queue * list bool :=
  if n <=? length (waiting q) then (drop q n, front q n)
  else
    let k := n - length (waiting q) in
    let q1 := fetch64 l (mk_queue [] (fetched q)) in
    (drop q1 k, waiting q ++ front q1 k).

Definition q_get32 (l : list bool) (q : queue) (n : nat) : queue * list bool :=
  if n =? 0 then (q, [])
  else
    let q1 := if length (waiting q) <=? n then fetch32 l q else q in
    (drop q1 n, front q1 n).

(** A skip beyond the queue drops the remainder from the old queue and, if the
    stream still has 64 bits, again from the new one. *)
Definition q_skip (l : list bool) (q : queue) (n : nat) : queue :=
  if n <=? length (waiting q) then drop q n
  else
    let k := n - length (waiting q) in
    let '(far, rest) := if 64 <? k then (8 * (k / 8), k mod 8) else (0, k) in
    drop (fetch64 l (mk_queue (skipn rest (waiting q)) (fetched q + far))) rest.

(** [None]: the call panics. *)
Definition q_op (e : endian) (l : list bool) (q : queue) (op : bit_op) : option (queue * bit_out) :=
  match op with
  | OpGetBit => let '(q', b) := q_bit l q in Some (q', OutBit b)
  | OpGet32 n => let '(q', w) := q_get32 l q n in Some (q', OutWord (value e w))
  | OpGet64 n => let '(q', w) := q_get64 l q n in Some (q', OutWord (value e w))
  | OpPeekBit => Some (q, OutBit (snd (q_bit l q)))
  | OpPeek32 n => Some (q, OutWord (value e (snd (q_get32 l q n))))
  | OpPeek64 n => Some (q, OutWord (value e (snd (q_get64 l q n))))
  | OpSkip n => Some (q_skip l q n, OutUnit)
  | OpAlign => Some (drop q (length (waiting q) mod 8), OutUnit)
  | OpConsumed => Some (q, OutCount (fetched q - length (waiting q)))
  | OpAvailable =>
      if fetched q <=? length l
      then Some (q, OutCount (length l - fetched q + length (waiting q)))
      else None
  end.

Fixpoint q_ops (e : endian) (l : list bool) (q : queue) (ops : list bit_op) : option (queue * list bit_out) :=
  match ops with
  | [] => Some (q, [])
  | op :: ops' =>
      match q_op e l q op with
      | None => None
      | Some (q1, o) =>
          match q_ops e l q1 ops' with
          | None => None
          | Some (q2, os) => Some (q2, o :: os)
          end
      end
  end.

(** A reader starts with an attempt to fetch 64 bits. *)
Definition q_run (e : endian) (buf : list N) (ops : list bit_op) : option (queue * list bit_out) :=
  q_ops e (bits_of e buf) (fetch64 (bits_of e buf) (mk_queue [] 0)) ops.

(** ** Reads with 64-bit refills only *)

(** Reading the bits of [l] at position [p], zeros beyond the end; the position
    stops at the end. *)
Definition clamp_op (e : endian) (l : list bool) (p : nat) (op : bit_op) : nat * bit_out :=
  match op with
  | OpGetBit => (Nat.min (p + 1) (length l), OutBit (nth p l false))
  | OpGet64 n =>
      (Nat.min (p + n) (length l),
       OutWord (value e (window l p n ++ repeat false (n - (length l - p)))))
  | OpPeekBit => (p, OutBit (nth p l false))
  | OpPeek64 n => (p, OutWord (value e (window l p n ++ repeat false (n - (length l - p)))))
  | OpAlign => (align8 p, OutUnit)
  | OpConsumed => (p, OutCount p)
  | _ => (p, OutUnit)
  end.

Fixpoint clamp_ops (e : endian) (l : list bool) (p : nat) (ops : list bit_op) : nat * list bit_out :=
  match ops with
  | [] => (p, [])
  | op :: ops' =>
      let '(p1, o) := clamp_op e l p op in
      let '(p2, os) := clamp_ops e l p1 ops' in
      (p2, o :: os)
  end.

Definition read64 (op : bit_op) : Prop :=
  match op with
  | OpGetBit | OpPeekBit | OpAlign | OpConsumed => True
  | OpGet64 n | OpPeek64 n => n <= 64
  | _ => False
  end.

(** ** Skips *)

(** Whole bytes jumped over without fetching them, and what remains to be
    skipped afterwards, when [k] bits are to be skipped beyond the cached ones. *)
Definition skip_far (k : nat) : nat := if 64 <? k then 8 * (k / 8) else 0.
Definition skip_rest (k : nat) : nat := if 64 <? k then k mod 8 else k.

(** Where a skip of [n] bits from position [p] arrives when [left] bits are
    cached and the stream has [total] bits. *)
Definition skip_target (total p left n : nat) : nat :=
  if n <=? left then p + n
  else if p + left + skip_far (n - left) + 64 <=? total then p + n
  else p + skip_far (n - left) + Nat.min left (2 * skip_rest (n - left)).

(** Every call respects its documented range and every skip arrives at the
    position asked for, inside the buffer. *)
Fixpoint skips_arrive (e : endian) (r : reader) (ops : list bit_op) : Prop :=
  match ops with
  | [] => True
  | op :: ops' =>
      op_ok op /\
      (forall n c r1 c1, op = OpSkip n -> consumed r = Ret c -> skip_bits e r n = Ret r1 ->
         consumed r1 = Ret c1 -> c1 = c + n /\ c + n <= 8 * length (buffer r)) /\
      (forall r' o, run_op e r op = Ret (r', o) -> skips_arrive e r' ops')
  end.

(** [n] bits can be read: they are cached, or 8 more bytes can be fetched. *)
Definition readable (total p left n : nat) : bool :=
  (n <=? left) || (p + left + 64 <=? total).

(** What a read of [n] bits at position [p] delivers. *)
Definition read_from (l : list bool) (p left n : nat) : list bool :=
  if readable (length l) p left n then window l p n
  else window l p left ++ repeat false (n - left).
