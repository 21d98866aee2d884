(** Large descriptions: words of the same length with consecutive codes. *)
From Coq Require Import List NArith Bool.
From Verif Require Import CodebookModel.
Import ListNotations.

Fixpoint count_up (n : nat) (k : N) : list N :=
  match n with O => [] | S n' => k :: count_up n' (k + 1)%N end.

(** [n] words of [bits] bits whose codes are the multiples of [step]; the symbol of
    a word is its position. *)
Definition evenly (n step : N) (bits : nat) : list (desc N) :=
  map (fun i => mk_desc (i * step)%N bits i) (count_up (N.to_nat n) 0).
