(** When calls of [AccReader] go too far for a machine that checks arithmetic. *)
From Coq Require Import List Arith NArith ZArith Bool.
From Verif Require Import Base AccModel WordAccModel MachineModel MachineAccModel.
Import ListNotations.
Local Open Scope N_scope.

(** The same width, without overflow checks. *)
Definition unchecked (m : machine) : machine := mk_machine (bits m) false.

(** The window lies in the buffer, the buffer in the address space. *)
Record window (m : machine) {R : Type} (a : wacc R) : Prop := mk_window {
  win_pos : wa_pos a <= wa_end a;
  win_end : wa_end a <= N.of_nat (length (wa_buf a));
  win_len : N.of_nat (length (wa_buf a)) < 2 ^ (bits m - 1);
  win_index : wa_index a < 2 ^ bits m
}.

(** What the types of the arguments say: a slice is shorter than half the address space, an
    offset is an [i64]. *)
Definition call_typed (m : machine) (op : acc_op) : Prop :=
  match op with
  | ARead dst => N.of_nat (length dst) < 2 ^ (bits m - 1)
  | ASeek (Current d) => (d < 2 ^ 63)%Z
  | _ => True
  end.

(** The call, with the answer it would have without checks, takes a counter to 2^bits or
    beyond: a read or a consumed amount the position, or the place in the buffer; a seek the
    position of the end of the buffer, counted from its first byte instead of the next one. *)
Definition too_far (m : machine) {R : Type} (a : wacc R) (op : acc_op) (o : acc_out) : bool :=
  match op, o with
  | ARead _, ORead _ (Okay n) => 2 ^ bits m <=? wa_index a + N.of_nat n
  | AConsume n, _ => (2 ^ bits m <=? wa_index a + N.of_nat n) || (2 ^ bits m <=? wa_pos a + N.of_nat n)
  | ASeek (Start n), _ => (wa_index a <=? N.of_nat n mod 2 ^ bits m) && (2 ^ bits m <=? wa_index a + wa_end a)
  | ASeek (Current d), _ =>
      (0 <=? d)%Z && (Z.to_N d mod 2 ^ bits m <=? wa_end a - wa_pos a) && (2 ^ bits m <=? wa_index a + Z.to_N d mod 2 ^ bits m)
  | _, _ => false
  end.

(** Some call of a history does, the ones before it being carried out without checks. *)
Fixpoint ever_too_far (m : machine) {R : Type} (i : io R) (a : wacc R) (ops : list acc_op) : bool :=
  match ops with
  | [] => false
  | op :: ops' =>
      match m_acc_step (unchecked m) i a op with
      | Ret (a1, o) => too_far m a op o || ever_too_far m i a1 ops'
      | _ => false
      end
  end.
