(** Reading codewords until none is found. *)
From Coq Require Import List Arith NArith Bool.
From Verif Require Import Base BitModel BitSpec CodebookModel CodebookSpec.
Import ListNotations.
Local Open Scope nat_scope.

(** A client's [while let Ok(s) = reader.read_cb(&cb) { syms.push(s) }]; [Ret None] if it is not
    done after [fuel] reads. *)
Fixpoint read_all {S : Type} (fuel : nat) (e : endian) (cb : codebook S) (r : reader) : outcome (option (reader * list S)) :=
  match fuel with
  | O => Ret None
  | Datatypes.S fuel' =>
      let! (r1, res) := read_cb e cb r in
      match res with
      | Error _ => Ret (Some (r1, []))
      | Okay s =>
          let! rest := read_all fuel' e cb r1 in
          match rest with
          | None => Ret None
          | Some (r2, l) => Ret (Some (r2, s :: l))
          end
      end
  end.
