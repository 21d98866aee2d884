(** Specification of prefix codes: codewords as bit strings. *)
From Coq Require Import List Arith NArith Bool Permutation.
From Verif Require Import Base BitModel BitSpec CodebookModel.
Import ListNotations.
Local Open Scope nat_scope.
(* From [CodebookModel] only the types of modes, descriptions and orders are used
   here, and the functions [read_cb] and [run_op] a client calls (in
   [run_mixed]). *)

(** The reader for which a mode is meant. *)
Definition reader_for (m : mode) : endian := match m with MSB => BE | LSB => LE end.

(** The bits of a codeword in stream order: its lowest [bits] bits, most
    significant first in MSB mode, least significant first in LSB mode. *)
Definition codeword (m : mode) (c : N) (bits : nat) : list bool :=
  let low_first := map (fun k => N.testbit c (N.of_nat k)) (seq 0 bits) in
  match m with
  | MSB => rev low_first
  | LSB => low_first
  end.

Definition word {S : Type} (m : mode) (d : desc S) : list bool := codeword m (d_code d) (d_bits d).

Definition is_prefix (a b : list bool) : Prop := exists c, b = a ++ c.

Definition used {S : Type} (d : desc S) : Prop := 0 < d_bits d.

(** Codewords are kept in 32 bits and fit their length; what a longer codeword has in
    addition are zeros.  A length is a [u8]; in MSB mode it may not be more than 41 (C124).
    No codeword is a prefix of (or equal to) another one. *)
Definition longest (m : mode) : nat := match m with MSB => 41 | LSB => 255 end.
Definition codes_fit {S : Type} (m : mode) (ds : list (desc S)) : Prop :=
  forall d, In d ds -> used d -> d_bits d <= longest m /\ (d_code d < 2 ^ N.of_nat (d_bits d))%N /\ (d_code d < 2 ^ 32)%N.
Definition prefix_free {S : Type} (m : mode) (ds : list (desc S)) : Prop :=
  forall i j a b, nth_error ds i = Some a -> nth_error ds j = Some b -> i <> j ->
    used a -> used b -> ~ is_prefix (word m a) (word m b).

(** The codewords of the used entries. *)
Definition words {S : Type} (m : mode) (ds : list (desc S)) : list (list bool) :=
  map (word m) (filter (fun d => 0 <? d_bits d) ds).

(** How large the lookup tables must be.  Words are read 10 bits at a time: there
    is one table for the empty word, and one for every string of 10, 20, ... bits
    after which some codeword continues.  A table has 2^k entries, where [k] is the
    number of bits the longest of its codewords still has, but at most 10. *)
Definition cuts (w : list bool) : list (list bool) :=
  map (fun k => firstn (10 * k) w) (seq 1 ((length w - 1) / 10)).
Definition all_cuts (ws : list (list bool)) : list (list bool) :=
  nodup (list_eq_dec bool_dec) (flat_map cuts ws).
Definition left_after (p w : list bool) : nat :=
  if list_eq_dec bool_dec (firstn (length p) w) p then length w - length p else 0.
Definition entries_at (ws : list (list bool)) (p : list bool) : N :=
  2 ^ N.of_nat (Nat.min (list_max (map (left_after p) ws)) 10).
Definition sum_entries (ws : list (list bool)) (ps : list (list bool)) : N :=
  fold_right N.add 0%N (map (entries_at ws) ps).
Definition table_entries (ws : list (list bool)) : N := sum_entries ws ([] :: all_cuts ws).

(** The 24-bit offsets and indices stored in the tables are large enough: at most
    2^24 used symbols, and at most 2^24 table entries. *)
Definition small_enough {S : Type} (m : mode) (ds : list (desc S)) : Prop :=
  (N.of_nat (length (words m ds)) <= 2 ^ 24 /\ table_entries (words m ds) <= 2 ^ 24)%N.

Definition valid_description {S : Type} (m : mode) (ds : list (desc S)) : Prop :=
  codes_fit m ds /\ prefix_free m ds /\ small_enough m ds.

(** Iteration over a hash map visits every entry once, in some order. *)
Definition permuting (ord : order) : Prop := forall path cc, Permutation cc (ord path cc).

(** A history that mixes plain calls with codeword reads; for the latter the
    description whose codeword stands at that position is recorded. *)
Inductive step (S : Type) : Type :=
| Call (op : bit_op)
| Codeword (d : desc S).
Arguments Call {S}.
Arguments Codeword {S}.

Inductive step_out (S : Type) : Type :=
| Out (o : bit_out)
| Sym (s : result S codebook_error).
Arguments Out {S}.
Arguments Sym {S}.

(** The history is legal: calls look only at bits before [limit], and at each
    codeword read the stream contains the codeword of some used entry. *)
Fixpoint steps_within {S : Type} (m : mode) (ds : list (desc S)) (l : list bool) (limit p : nat)
    (steps : list (step S)) : Prop :=
  match steps with
  | [] => True
  | Call op :: steps' =>
      op_ok op /\ p + op_bits p op <= limit /\
      steps_within m ds l limit (fst (spec_op (reader_for m) l p op)) steps'
  | Codeword d :: steps' =>
      In d ds /\ used d /\ p + d_bits d <= limit /\
      window l p (d_bits d) = word m d /\
      steps_within m ds l limit (p + d_bits d) steps'
  end.

(** What the history must produce: final position and outputs. *)
Fixpoint spec_steps {S : Type} (m : mode) (l : list bool) (p : nat) (steps : list (step S))
    : nat * list (step_out S) :=
  match steps with
  | [] => (p, [])
  | Call op :: steps' =>
      let '(p1, o) := spec_op (reader_for m) l p op in
      let '(p2, os) := spec_steps m l p1 steps' in
      (p2, Out o :: os)
  | Codeword d :: steps' =>
      let '(p2, os) := spec_steps m l (p + d_bits d) steps' in
      (p2, Sym (Okay (d_sym d)) :: os)
  end.

(** Running the history on the model. *)
Fixpoint run_mixed {S : Type} (e : endian) (cb : codebook S) (r : reader) (steps : list (step S))
    : outcome (reader * list (step_out S)) :=
  match steps with
  | [] => Ret (r, [])
  | Call op :: steps' =>
      let! (r1, o) := run_op e r op in
      let! (r2, os) := run_mixed e cb r1 steps' in
      Ret (r2, Out o :: os)
  | Codeword _ :: steps' =>
      let! (r1, s) := read_cb e cb r in
      let! (r2, os) := run_mixed e cb r1 steps' in
      Ret (r2, Sym s :: os)
  end.

(** Packing bits into bytes, in stream order; the inverse of [bits_of] on bit
    strings whose length is a multiple of 8. *)
Fixpoint pack (e : endian) (n : nat) (l : list bool) : list N :=
  match n with
  | O => []
  | S n' => value e (firstn 8 l) :: pack e n' (skipn 8 l)
  end.

(** The stream of a message: its codewords followed by zero bits up to a byte
    boundary and 8 bytes of padding. *)
Definition message_bits {S : Type} (m : mode) (msg : list (desc S)) : list bool :=
  flat_map (word m) msg.
Definition encode {S : Type} (m : mode) (msg : list (desc S)) : list N :=
  let l := message_bits m msg in
  let n := (length l + 7) / 8 + 8 in
  pack (reader_for m) n (l ++ repeat false (8 * n - length l)).

(** Histories of legal calls mixed with any number of codeword reads, anywhere in
    the buffer: arguments respect the documented ranges and no skip goes beyond
    what [available] reports at that moment. *)
Fixpoint mixed_ok {S : Type} (e : endian) (cb : codebook S) (r : reader) (steps : list (step S)) : Prop :=
  match steps with
  | [] => True
  | Call op :: steps' =>
      op_ok op /\
      (forall n a, op = OpSkip n -> available r = Ret a -> n <= a) /\
      (forall r' o, run_op e r op = Ret (r', o) -> mixed_ok e cb r' steps')
  | Codeword _ :: steps' =>
      forall r' s, read_cb e cb r = Ret (r', s) -> mixed_ok e cb r' steps'
  end.
