(** Codeword reads that are watched for a number of rounds, whether or not they end. *)
From Coq Require Import List Arith NArith Bool.
From Verif Require Import Base BitModel CodebookModel.
Import ListNotations.
Local Open Scope nat_scope.

(** codebook.rs:385-404, the first [rounds] rounds of the loop: the reader after them and,
    if the loop has ended by then, its result. *)
Fixpoint rounds_from {S : Type} (rounds : nat) (e : endian) (cb : codebook S) (r : reader)
    (idx : N) (lut_bits : nat) : outcome (reader * option (result S codebook_error)) :=
  match rounds with
  | O => Ret (r, None)
  | S rounds' =>
      let! (_, v) := peek_bits_32 e r lut_bits in
      let! x := index_at (cb_table cb) (N.to_nat (v + idx)%N) in
      if (x =? TABLE_FILL_VALUE)%N then Ret (r, Some (Error InvalidCode))
      else
        let bits := N.land x 127 in
        let esc := negb (N.land x 128 =? 0)%N in
        let idx' := N.shiftr x 8 in
        let! avail := available r in
        if (N.of_nat avail mod W32 <? bits)%N then Ret (r, Some (Error InvalidCode))
        else
          let! r' := skip_bits e r (if esc then lut_bits else N.to_nat bits) in
          if esc then rounds_from rounds' e cb r' idx' (N.to_nat bits)
          else let! s := index_at (cb_syms cb) (N.to_nat idx') in Ret (r', Some (Okay s))
  end.

(** codebook.rs:381-405 *)
Definition read_rounds {S : Type} (rounds : nat) (e : endian) (cb : codebook S) (r : reader)
    : outcome (reader * option (result S codebook_error)) :=
  rounds_from rounds e cb r 0 (cb_lut_bits cb).
