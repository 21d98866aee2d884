(** A reader that starts later: what its calls say about positions. *)
From Coq Require Import List Arith NArith Bool.
From Verif Require Import Base BitModel BitSpec CodebookModel CodebookSpec.
Import ListNotations.
Local Open Scope nat_scope.

(** [consumed] counts from the start of the buffer; everything else is the same. *)
Definition shift_out {S : Type} (k : nat) (st : step S) (o : step_out S) : step_out S :=
  match st, o with
  | Call OpConsumed, Out (OutCount n) => Out (OutCount (k + n))
  | _, _ => o
  end.
Fixpoint shift_outs {S : Type} (k : nat) (sts : list (step S)) (os : list (step_out S)) : list (step_out S) :=
  match sts, os with
  | st :: sts', o :: os' => shift_out k st o :: shift_outs k sts' os'
  | _, _ => []
  end.
