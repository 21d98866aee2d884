(** [AccReader] with unbounded counters as a machine sees it. *)
From Coq Require Import List Arith NArith ZArith Bool.
From Verif Require Import Base AccModel AccSpec WordAccModel MachineModel.
Import ListNotations.
Local Open Scope N_scope.

(** The counters of the buffer are kept, of the position the low bits. *)
Definition seen_on (m : machine) {R : Type} (a : acc R) : wacc R :=
  mk_wacc (inner a) (abuf a) (N.of_nat (apos a)) (N.of_nat (aend a)) (N.of_nat (aindex a) mod 2 ^ bits m).

(** No slice is as long as half the address space; positions fit [usize]. *)
Definition call_within (m : machine) (op : acc_op) : Prop :=
  match op with
  | ARead dst => N.of_nat (length dst) < 2 ^ (bits m - 1)
  | ASeek (Start n) => N.of_nat n < 2 ^ bits m
  | ASeek (Current d) => (d < 2 ^ Z.of_N (bits m) /\ d < 2 ^ 63)%Z
  | _ => True
  end.

(** The positions a source reports fit [usize]. *)
Definition reports_within (m : machine) {R : Type} (i : io R) : Prop :=
  forall r s r' q, io_seek i r s = (r', Okay q) -> N.of_nat q < 2 ^ bits m.

(** No seeks, only reading on. *)
Definition no_seek (op : acc_op) : Prop := match op with ASeek _ => False | _ => True end.

(** A cursor whose seeks beyond the last [usize] fail. *)
Definition narrow_cursor_seek (m : machine) (c : cursor) (s : seek_from) : cursor * result nat io_error :=
  let '(c', res) := cursor_seek c s in
  match res with
  | Okay q => if N.of_nat q <? 2 ^ bits m then (c', Okay q) else (c, Error (OtherError 22))
  | Error e => (c', Error e)
  end.
Definition narrow_cursor_io (m : machine) : io cursor := mk_io cursor_read (narrow_cursor_seek m).
