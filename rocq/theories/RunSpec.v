(** Unary codes: counting equal bits. *)
From Coq Require Import List Arith NArith Bool.
From Verif Require Import Base BitModel BitSpec.
Import ListNotations.
Local Open Scope nat_scope.

(** A client's [let mut n = 0; while reader.get_bit() == b { n += 1 }]; [Ret None] if it is not
    done after [fuel] reads. *)
Fixpoint count_run (fuel : nat) (e : endian) (b : bool) (r : reader) : outcome (option (reader * nat)) :=
  match fuel with
  | O => Ret None
  | S fuel' =>
      let! (r1, x) := get_bit e r in
      if Bool.eqb x b then
        let! rest := count_run fuel' e b r1 in
        match rest with
        | None => Ret None
        | Some (r2, n) => Ret (Some (r2, S n))
        end
      else Ret (Some (r1, 0))
  end.

(** At position [p] there are [k] bits [b] and then another one. *)
Definition run_at (l : list bool) (p k : nat) (b : bool) : Prop :=
  (forall i, i < k -> nth_error l (p + i) = Some b) /\ nth_error l (p + k) = Some (negb b).

(** How many bits [b] a list starts with; behind its end there are zeros without end. *)
Fixpoint run_length (b : bool) (l : list bool) : option nat :=
  match l with
  | [] => if b then Some 0 else None
  | x :: l' => if Bool.eqb x b then option_map S (run_length b l') else Some 0
  end.

(** The loop with a check: [while reader.available() > 0 && reader.get_bit() == b { n += 1 }]. *)
Fixpoint count_guarded (fuel : nat) (e : endian) (b : bool) (r : reader) : outcome (option (reader * nat)) :=
  match fuel with
  | O => Ret None
  | S fuel' =>
      let! a := available r in
      if a =? 0 then Ret (Some (r, 0))
      else
        let! (r1, x) := get_bit e r in
        if Bool.eqb x b then
          let! rest := count_guarded fuel' e b r1 in
          match rest with
          | None => Ret None
          | Some (r2, n) => Ret (Some (r2, S n))
          end
        else Ret (Some (r1, 0))
  end.

(** How many bits [b] a list starts with. *)
Fixpoint leading (b : bool) (l : list bool) : nat :=
  match l with
  | [] => 0
  | x :: l' => if Bool.eqb x b then S (leading b l') else 0
  end.
