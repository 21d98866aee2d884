(** What a description says: which words stand for which symbols. *)
From Coq Require Import List Arith NArith Bool Permutation.
From Verif Require Import Base BitModel BitSpec CodebookModel CodebookSpec.
Import ListNotations.
Local Open Scope nat_scope.

Definition meaning {S : Type} (m : mode) (ds : list (desc S)) : list (list bool * S) :=
  map (fun d => (word m d, d_sym d)) (filter (fun d => 0 <? d_bits d) ds).

(** [ds'] has the words of [ds] in some order, and symbols renamed by [f]. *)
Definition renamed {S T : Type} (f : S -> T) (m : mode) (ds : list (desc S)) (ds' : list (desc T)) : Prop :=
  Permutation (map (fun c => (fst c, f (snd c))) (meaning m ds)) (meaning m ds').

Definition rename_out {S T : Type} (f : S -> T) (o : step_out S) : step_out T :=
  match o with
  | Out x => Out x
  | Sym (Okay s) => Sym (Okay (f s))
  | Sym (Error e) => Sym (Error e)
  end.
Definition rename_step {S T : Type} (f : S -> T) (st : step S) : step T :=
  match st with
  | Call op => Call op
  | Codeword d => Codeword (mk_desc (d_code d) (d_bits d) (f (d_sym d)))
  end.
