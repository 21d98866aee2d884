(** Bit order turned around: numbers, buffers, codewords and results whose bits are mirrored. *)
From Coq Require Import List Arith NArith Bool.
From Verif Require Import Base BitModel BitSpec CodebookModel CodebookSpec.
Import ListNotations.
Local Open Scope nat_scope.

(** [v] and [w] have [n] bits, in opposite orders. *)
Definition mirrored (n : nat) (v w : N) : Prop :=
  (v < 2 ^ N.of_nat n)%N /\ (w < 2 ^ N.of_nat n)%N /\
  forall k, k < n -> N.testbit v (N.of_nat k) = N.testbit w (N.of_nat (n - 1 - k)).

Definition other_end (e : endian) : endian := match e with LE => BE | BE => LE end.
Definition other_mode (m : mode) : mode := match m with MSB => LSB | LSB => MSB end.

(** Every byte is mirrored; every codeword is. *)
Definition buf_mirrored : list N -> list N -> Prop := Forall2 (mirrored 8).
Definition desc_mirrored {S : Type} (d d' : desc S) : Prop :=
  d_bits d' = d_bits d /\ d_sym d' = d_sym d /\ (used d -> mirrored (d_bits d) (d_code d) (d_code d')).

(** Numbers that are read are mirrored, and nothing else changes. *)
Definition out_mirrored (op : bit_op) (o o' : bit_out) : Prop :=
  match op with
  | OpGet32 n | OpGet64 n | OpPeek32 n | OpPeek64 n => exists v w, o = OutWord v /\ o' = OutWord w /\ mirrored n v w
  | _ => o' = o
  end.
Definition step_mirrored {S : Type} (st : step S) (o o' : step_out S) : Prop :=
  match st with
  | Call op => exists x y, o = Out x /\ o' = Out y /\ out_mirrored op x y
  | Codeword _ => o' = o
  end.
Inductive all_mirrored {C O : Type} (P : C -> O -> O -> Prop) : list C -> list O -> list O -> Prop :=
| am_nil : all_mirrored P [] [] []
| am_cons : forall c cs o os o' os', P c o o' -> all_mirrored P cs os os' -> all_mirrored P (c :: cs) (o :: os) (o' :: os').

(** Both panic, or both end with mirrored results and readers at the same position. *)
Definition runs_mirrored {C O : Type} (P : C -> O -> O -> Prop) (cs : list C) (x y : outcome (reader * list O)) : Prop :=
  (x = Panic /\ y = Panic) \/
  exists r os r' os', x = Ret (r, os) /\ y = Ret (r', os') /\ all_mirrored P cs os os' /\ left r' = left r /\ consumed r' = consumed r.
