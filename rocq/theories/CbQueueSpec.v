(** Specification of codeword reads at every position, including the end of the
    buffer: the bit queue of [BitQueueSpec] and sets of codewords.  There are no
    tables, entries or hash maps here. *)
From Coq Require Import List Arith NArith Bool.
From Verif Require Import Base BitModel BitSpec BitQueueSpec CodebookModel CodebookSpec.
Import ListNotations.
Local Open Scope nat_scope.

(** The codewords that are still possible (what is left of them) with their
    symbols. *)
Definition pending (S : Type) : Type := list (list bool * S).

Definition all_codes {S : Type} (m : mode) (ds : list (desc S)) : pending S :=
  map (fun d => (word m d, d_sym d)) (filter (fun d => 0 <? d_bits d) ds).

(** Up to ten bits are looked at, fewer if no pending codeword is that long. *)
Definition look_ahead {S : Type} (codes : pending S) : nat :=
  Nat.min (fold_right Nat.max 0 (map (fun c => length (fst c)) codes)) 10.

Definition same_bits (a b : list bool) : bool := if list_eq_dec bool_dec a b then true else false.

(** Pending codewords of at most ten bits with which [u] starts, and the
    remainders of the longer ones that start with [u]. *)
Definition complete {S : Type} (u : list bool) (codes : pending S) : pending S :=
  filter (fun c => (length (fst c) <=? 10) && same_bits (firstn (length (fst c)) u) (fst c)) codes.
Definition longer {S : Type} (u : list bool) (codes : pending S) : pending S :=
  flat_map (fun c => if (10 <? length (fst c)) && same_bits (firstn 10 (fst c)) u
                     then [(skipn 10 (fst c), snd c)] else []) codes.

(** A reader of the other bit order sees the bits it looks at reversed. *)
Definition as_written (e : endian) (m : mode) (u : list bool) : list bool :=
  match e, m with
  | BE, MSB | LE, LSB => u
  | _, _ => rev u
  end.

(** Are there [n] more bits?  The count wraps at 2^32.  [None]: panic. *)
Definition enough (l : list bool) (q : queue) (n : nat) : option bool :=
  if fetched q <=? length l
  then Some (N.of_nat n <=? N.of_nat (length l - fetched q + length (waiting q)) mod 2 ^ 32)%N
  else None.

(** One codeword read, ten bits at a time, in at most [rounds] rounds.  The result
    is the new queue and the symbol, if any; [None] is a panic. *)
Fixpoint q_decode {S : Type} (rounds : nat) (e : endian) (m : mode) (l : list bool) (q : queue) (codes : pending S)
    : option (queue * option S) :=
  match rounds with
  | O => None
  | Datatypes.S rounds' =>
      let n := look_ahead codes in
      let u := as_written e m (snd (q_get32 l q n)) in
      match complete u codes with
      | (w, s) :: _ =>
          match enough l q (length w) with
          | Some true => Some (q_skip l q (length w), Some s)
          | Some false => Some (q, None)
          | None => None
          end
      | [] =>
          match longer u codes with
          | [] => Some (q, None)
          | rest =>
              match enough l q (look_ahead rest) with
              | Some true => q_decode rounds' e m l (q_skip l q n) rest
              | Some false => Some (q, None)
              | None => None
              end
          end
      end
  end.

(** Codewords have at most 255 bits: 26 rounds. *)
Definition q_codeword {S : Type} (e : endian) (m : mode) (ds : list (desc S)) (l : list bool) (q : queue)
    : option (queue * option S) :=
  q_decode 26 e m l q (all_codes m ds).

Definition q_step {S : Type} (e : endian) (m : mode) (ds : list (desc S)) (l : list bool) (q : queue) (st : step S)
    : option (queue * step_out S) :=
  match st with
  | Call op => match q_op e l q op with Some (q', o) => Some (q', Out o) | None => None end
  | Codeword _ =>
      match q_codeword e m ds l q with
      | Some (q', Some s) => Some (q', Sym (Okay s))
      | Some (q', None) => Some (q', Sym (Error InvalidCode))
      | None => None
      end
  end.

Fixpoint q_steps {S : Type} (e : endian) (m : mode) (ds : list (desc S)) (l : list bool) (q : queue) (steps : list (step S))
    : option (queue * list (step_out S)) :=
  match steps with
  | [] => Some (q, [])
  | st :: steps' =>
      match q_step e m ds l q st with
      | None => None
      | Some (q1, o) =>
          match q_steps e m ds l q1 steps' with
          | None => None
          | Some (q2, os) => Some (q2, o :: os)
          end
      end
  end.

Definition q_mixed {S : Type} (e : endian) (m : mode) (ds : list (desc S)) (buf : list N) (steps : list (step S))
    : option (queue * list (step_out S)) :=
  q_steps e m ds (bits_of e buf) (fetch64 (bits_of e buf) (mk_queue [] 0)) steps.

Definition step_ok {S : Type} (st : step S) : Prop :=
  match st with Call op => op_ok op | Codeword _ => True end.

(** Calls of the 64-bit path, and 32-bit peeks. *)
Definition path64_peek (op : bit_op) : Prop := path64 op \/ exists n, op = OpPeek32 n /\ n <= 32.
Definition path64_step {S : Type} (st : step S) : Prop :=
  match st with Call op => path64_peek op | Codeword _ => True end.

(** The codewords of a message and zero bits up to a multiple of 8 bytes, no
    padding beyond that. *)
Definition encode_blocks {S : Type} (m : mode) (msg : list (desc S)) : list N :=
  let l := message_bits m msg in
  let n := 8 * ((length l + 63) / 64) in
  pack (reader_for m) n (l ++ repeat false (8 * n - length l)).

(** [k] skips of ten bits. *)
Fixpoint skip_tens (e : endian) (k : nat) (r : reader) : outcome reader :=
  match k with
  | O => Ret r
  | Datatypes.S k' => let! r1 := skip_bits e r 10 in skip_tens e k' r1
  end.
