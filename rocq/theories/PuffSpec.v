(** Decoding canonical codes one bit at a time, with nothing but the number of codes of every
    length: the algorithm of puff.c (zlib, contrib/puff), written down from memory. *)
From Coq Require Import List Arith NArith Bool.
From Verif Require Import CanonSpec.
Import ListNotations.
Local Open Scope nat_scope.

(** The symbols with a code of [b] bits, in order. *)
Definition symbols_of (ls : list nat) (b : nat) : list nat :=
  filter (fun i => nth i ls 0 =? b) (seq 0 (length ls)).

(** [code] are the [len] bits read so far, [first] is the first code with one bit more.  The
    result is the symbol and its length. *)
Fixpoint puff_decode (ls : list nat) (len : nat) (code first : N) (bits : list bool) : option (nat * nat) :=
  match bits with
  | [] => None
  | b :: bits' =>
      let code' := (2 * code + (if b then 1 else 0))%N in
      let count := N.of_nat (length (symbols_of ls (S len))) in
      if (code' <? first + count)%N then
        match nth_error (symbols_of ls (S len)) (N.to_nat (code' - first)) with
        | Some i => Some (i, S len)
        | None => None
        end
      else puff_decode ls (S len) code' (2 * (first + count)) bits'
  end.

Definition puff (ls : list nat) (bits : list bool) : option (nat * nat) := puff_decode ls 0 0 0 bits.
