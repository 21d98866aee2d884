(** Counters as machine words and as numbers. *)
From Coq Require Import List Arith NArith ZArith Bool.
From Verif Require Import Base BitModel WordBitModel AccModel AccSpec WordAccModel.
Import ListNotations.
Local Open Scope N_scope.

(** The same reader with its counters as words. *)
Definition word_reader (r : reader) : wreader :=
  mk_wreader (buffer r) (N.of_nat (index r)) (cache r) (N.of_nat (left r)).

(** The bits that are skipped, in total. *)
Fixpoint total_skip (ops : list bit_op) : N :=
  match ops with
  | [] => 0
  | OpSkip n :: ops' => N.of_nat n + total_skip ops'
  | _ :: ops' => total_skip ops'
  end.

(** The same [AccReader] with its counters as words. *)
Definition word_acc {R : Type} (a : acc R) : wacc R :=
  mk_wacc (inner a) (abuf a) (N.of_nat (apos a)) (N.of_nat (aend a)) (N.of_nat (aindex a)).

(** The arguments of a call are values of their types: no slice is as long as 2^63 bytes,
    positions are [u64] and distances [i64]. *)
Definition call_fits (op : acc_op) : Prop :=
  match op with
  | ARead dst => N.of_nat (length dst) < 2 ^ 63
  | ASeek (Start n) => N.of_nat n < 2 ^ 64
  | ASeek (Current d) => (- 2 ^ 63 <= d < 2 ^ 63)%Z
  | _ => True
  end.

(** The positions a source reports are [u64]. *)
Definition reports_u64 {R : Type} (i : io R) : Prop :=
  forall r s r' q, io_seek i r s = (r', Okay q) -> N.of_nat q < 2 ^ 64.

(** A cursor whose seeks beyond the last [u64] fail. *)
Definition word_cursor_seek (c : cursor) (s : seek_from) : cursor * result nat io_error :=
  let '(c', res) := cursor_seek c s in
  match res with
  | Okay q => if N.of_nat q <? 2 ^ 64 then (c', Okay q) else (c, Error (OtherError 22))
  | Error e => (c', Error e)
  end.
Definition word_cursor_io : io cursor := mk_io cursor_read word_cursor_seek.
