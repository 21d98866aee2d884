(** Codewords from their lengths, as in RFC 1951, section 3.2.2 (and JPEG, and others): the usual way
    clients get descriptions for [Codebook]. *)
From Coq Require Import List Arith NArith Bool.
From Verif Require Import Base BitModel BitSpec CodebookModel CodebookSpec.
Import ListNotations.
Local Open Scope nat_scope.

(** How many of the lengths are [b]; 0 means that there is no codeword. *)
Definition with_length (ls : list nat) (b : nat) : nat :=
  if b =? 0 then 0 else count_occ Nat.eq_dec ls b.

(** The first code of [b] bits: behind all shorter codes, with zeros appended. *)
Fixpoint first_code (ls : list nat) (b : nat) : N :=
  match b with
  | O => 0%N
  | S b' => (2 * (first_code ls b' + N.of_nat (with_length ls b')))%N
  end.

(** Codes of the same length are numbered in the order of the symbols. *)
Definition canonical_code (ls : list nat) (i : nat) : N :=
  (first_code ls (nth i ls 0%nat) + N.of_nat (with_length (firstn i ls) (nth i ls 0%nat)))%N.

(** The description of the code; the symbols are the positions.  In LSB mode the bits of a
    code are reversed, so that the codewords are the same bits in the order of the stream. *)
Definition canonical (m : mode) (ls : list nat) : list (desc nat) :=
  map (fun i => let b := nth i ls 0 in
                mk_desc (match m with MSB => canonical_code ls i | LSB => value_le (codeword MSB (canonical_code ls i) b) end) b i)
    (seq 0 (length ls)).

(** Kraft's inequality: the sum of [1 / 2^l] over the lengths that are not 0 is at most 1. *)
Definition kraft_of (ls : list nat) : N :=
  fold_right N.add 0%N (map (fun l => if l =? 0 then 0%N else (2 ^ N.of_nat (list_max ls - l))%N) ls).
Definition room_for (ls : list nat) : Prop := (kraft_of ls <= 2 ^ N.of_nat (list_max ls))%N.
