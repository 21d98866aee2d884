(** Codewords of 42 bits and more in a build without overflow checks. *)
From Coq Require Import List Arith NArith Bool.
From Verif Require Import Base BitModel BitSpec CodebookModel CodebookSpec.
Import ListNotations.
Local Open Scope nat_scope.

(** How many bits of the code are left when its first ten bits are taken off: what a shift by
    [bits - 10] leaves if the amount is taken modulo 32. *)
Definition cut_at (bits : nat) : nat := (bits - 10) mod 32.

(** The bits under which a code of [bits] bits is found, ten at a time. *)
Fixpoint seen_bits (levels : nat) (c : N) (bits : nat) : list bool :=
  match levels with
  | O => codeword MSB c bits
  | S levels' =>
      if bits <=? 41 then codeword MSB c bits
      else codeword MSB (N.shiftr c (N.of_nat (cut_at bits))) 10 ++
           seen_bits levels' (c mod 2 ^ N.of_nat (cut_at bits)) (bits - 10)
  end.

(** The same as a description; a length is an [u8], and 22 times 10 bits are enough. *)
Definition as_seen {S : Type} (d : desc S) : desc S :=
  mk_desc (value_be (seen_bits 22 (d_code d) (d_bits d))) (d_bits d) (d_sym d).

(** How large a code may be: the first ten bits are a number below 1024. *)
Definition seen_limit (bits : nat) : nat := if bits <=? 41 then bits else cut_at bits + 10.
Definition seen_fit {S : Type} (ds : list (desc S)) : Prop :=
  forall d, In d ds -> used d ->
    d_bits d <= 255 /\ (d_code d < 2 ^ 32)%N /\ (d_code d < 2 ^ N.of_nat (seen_limit (d_bits d)))%N.
