(** Specification for codebook descriptions given as separate tables or without
    symbols: the symbol of an entry is its position. *)
From Coq Require Import List Arith NArith Bool.
From Verif Require Import Base BitModel BitSpec CodebookModel CodebookSpec DescModel.
Import ListNotations.
Local Open Scope nat_scope.

(** The entries numbered from [start]. *)
Fixpoint numbered (start : nat) (v : list short_desc) : list (desc nat) :=
  match v with
  | [] => []
  | d :: v' => mk_desc (sh_code d) (sh_bits d) start :: numbered (S start) v'
  end.

(** Two tables side by side. *)
Fixpoint side_by_side (bits : list nat) (codes : list N) : list short_desc :=
  match bits, codes with
  | b :: bits', c :: codes' => mk_short c b :: side_by_side bits' codes'
  | _, _ => []
  end.

(** A reader whose methods return the fields of the entries of [ds]. *)
Definition describes {S : Type} (rd : desc_reader S) (ds : list (desc S)) : Prop :=
  dr_len rd = length ds /\
  forall i d, nth_error ds i = Some d ->
    dr_bits rd i = Ret (d_bits d) /\ dr_code rd i = Ret (d_code d) /\ dr_sym rd i = Ret (d_sym d).

(** Entry [i] of a description without symbols, its position as the symbol. *)
Definition entry (v : list short_desc) (i : nat) : desc nat :=
  nth i (numbered 0 v) (mk_desc 0%N 0 0).

(** The positions [i] of used entries. *)
Definition used_position (v : list short_desc) (i : nat) : Prop :=
  exists s, nth_error v i = Some s /\ 0 < sh_bits s.

(** [n] codeword reads in a row. *)
Fixpoint read_symbols {S : Type} (e : endian) (cb : codebook S) (r : reader) (n : nat)
    : outcome (reader * list (result S codebook_error)) :=
  match n with
  | O => Ret (r, [])
  | Datatypes.S n' =>
      let! (r1, s) := read_cb e cb r in
      let! (r2, ss) := read_symbols e cb r1 n' in
      Ret (r2, s :: ss)
  end.
