(** Specification for codebook descriptions that need not be prefix-free. *)
From Coq Require Import List Arith NArith Bool.
From Verif Require Import Base BitModel BitSpec CodebookModel CodebookSpec.
Import ListNotations.
Local Open Scope nat_scope.
(* From [CodebookModel] only the types of modes, descriptions and errors are used. *)

(** How many further tables the used words can need: one for every 10, 20, ... bits
    after which a word continues. *)
Definition extra_tables (ws : list (list bool)) : nat := list_sum (map (fun w => (length w - 1) / 10) ws).

(** The last used entry whose codeword the bits [l] begin with. *)
Definition starts (w l : list bool) : bool :=
  if list_eq_dec bool_dec (firstn (length w) l) w then true else false.
Fixpoint last_match {S : Type} (m : mode) (ds : list (desc S)) (l : list bool) : option (desc S) :=
  match ds with
  | [] => None
  | d :: ds' =>
      match last_match m ds' l with
      | Some x => Some x
      | None => if (0 <? d_bits d) && starts (word m d) l then Some d else None
      end
  end.

(** [k] reads from bit [p] of [l] on, when the last match wins: the symbols or errors
    and the position reached. *)
Fixpoint last_wins {S : Type} (m : mode) (ds : list (desc S)) (l : list bool) (k p : nat)
    : list (step_out S) * nat :=
  match k with
  | O => ([], p)
  | Datatypes.S k' =>
      match last_match m ds (skipn p l) with
      | Some d =>
          let '(outs, p') := last_wins m ds l k' (p + d_bits d) in (Sym (Okay (d_sym d)) :: outs, p')
      | None => let '(outs, p') := last_wins m ds l k' p in (Sym (Error InvalidCode) :: outs, p')
      end
  end.

(** A codeword read in terms of the other calls of the reader, for codewords of at most
    [L] bits, when the last match wins. *)
Definition read_last {S : Type} (m : mode) (ds : list (desc S)) (L : nat) (e : endian) (r : reader)
    : outcome (reader * result S codebook_error) :=
  let! (_, v) := peek_bits_32 e r L in
  match last_match m ds (codeword m v L) with
  | None => Ret (r, Error InvalidCode)
  | Some d =>
      let! a := available r in
      if (N.of_nat a mod 2 ^ 32 <? N.of_nat (d_bits d))%N then Ret (r, Error InvalidCode)
      else let! r' := skip_bits e r (d_bits d) in Ret (r', Okay (d_sym d))
  end.

(** Whether a codeword of at most 10 bits stays within a table of [2 ^ L] entries. In MSB
    mode bits of it that [u32] has no room for after the shift are lost. *)
Definition fits_table (m : mode) (c : N) (bits L : nat) : bool :=
  match m with
  | MSB => ((c * 2 ^ N.of_nat (L - bits)) mod 2 ^ 32 <? 2 ^ N.of_nat L)%N
  | LSB => (c <? 2 ^ N.of_nat bits)%N
  end.
