(** Complete codes: those that leave no bit string undecoded. *)
From Coq Require Import List Arith NArith Bool.
From Verif Require Import Base CodebookModel CodebookSpec.
Import ListNotations.
Local Open Scope nat_scope.

(** The length of the longest codeword. *)
Definition longest_word {S : Type} (ds : list (desc S)) : nat := list_max (map d_bits ds).

(** The share of all bit strings of length [longest_word ds] that begin with a given codeword is
    [1 / 2^bits]; this is the sum of these shares, times [2^longest_word ds]. *)
Definition kraft_sum {S : Type} (ds : list (desc S)) : N :=
  fold_right N.add 0%N
    (map (fun d => if 0 <? d_bits d then (2 ^ N.of_nat (longest_word ds - d_bits d))%N else 0%N) ds).

(** The shares add up to 1.  Only the lengths of the codewords matter. *)
Definition complete {S : Type} (ds : list (desc S)) : Prop :=
  kraft_sum ds = (2 ^ N.of_nat (longest_word ds))%N.
