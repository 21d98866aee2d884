(** Packets whose data are codewords. *)
From Coq Require Import String List Arith NArith ZArith Bool.
From Verif Require Import Base BitModel CodebookModel CodebookSpec FormatModel DemuxModel.
Import ListNotations.
Local Open Scope nat_scope.

(** What a program does with an event: make a bit reader over the data of the packet and read
    [n] codewords. *)
Definition decode_event {S P : Type} (m : mode) (cb : codebook S) (n : nat) (r : result (event P) error) : outcome (option (list (result S codebook_error))) :=
  match r with
  | Okay (NewPacket p) =>
      let! r0 := new (reader_for m) (p_data p) in
      (fix go (n : nat) (r : reader) : outcome (option (list (result S codebook_error))) :=
         match n with
         | O => Ret (Some [])
         | Datatypes.S n' =>
             let! (r', x) := read_cb (reader_for m) cb r in
             let! xs := go n' r' in
             Ret (match xs with Some l => Some (x :: l) | None => None end)
         end) n r0
  | _ => Ret None
  end.
