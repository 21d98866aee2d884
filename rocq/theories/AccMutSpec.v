(** Histories in which the client also reaches the inner reader through
    [AccReader::get_mut], to move it or to change what it reads from. *)
From Coq Require Import List Arith NArith ZArith Bool.
From Verif Require Import Base AccModel AccSpec AccAnySpec.
Import ListNotations.
Local Open Scope nat_scope.
(* From [AccModel] the interface types and [acc_step] are used. *)

(** What is done between two calls through [get_mut] (accreader.rs:47-49): the inner reader
    becomes [f] of what it was, the bytes [s] it reads from become [g s], and its position
    [p] becomes some [p'] with [h s p p']. *)
Inductive mut_op (R : Type) : Type :=
| Call (op : acc_op)
| Touch (f : R -> R) (g : list N -> list N) (h : list N -> nat -> nat -> Prop).
Arguments Call {R}.
Arguments Touch {R}.

Definition set_inner {R : Type} (a : acc R) (r : R) : acc R := mk_acc r (abuf a) (apos a) (aend a) (aindex a).

Fixpoint mut_run {R : Type} (i : io R) (a : acc R) (ops : list (mut_op R)) : outcome (acc R * list acc_out) :=
  match ops with
  | [] => Ret (a, [])
  | Call op :: ops' =>
      let! (a1, o) := acc_step i a op in
      let! (a2, os) := mut_run i a1 ops' in
      Ret (a2, o :: os)
  | Touch f _ _ :: ops' => mut_run i (set_inner a (f (get_mut a))) ops'
  end.

(** [good s r]: [r] is a reader over the bytes [s].  What is done through [get_mut] is what
    it is said to be. *)
Definition touches {R : Type} (good : list N -> R -> Prop) (tell : R -> nat) (op : mut_op R) : Prop :=
  match op with
  | Call _ => True
  | Touch f g h => forall s r, good s r -> good (g s) (f r) /\ h s (tell r) (tell (f r))
  end.

(** The source, the bytes in the buffer, the position of the inner reader in the source, and
    the position the reader takes itself to be at. *)
Record mixed : Type := mk_mixed { x_src : list N; x_buf : list N; x_at : nat; x_told : nat }.

(** The bytes to come: those in the buffer, then those of the source. *)
Definition coming (m : mixed) : list N := x_buf m ++ skipn (x_at m) (x_src m).

(** [n] bytes were delivered and [m] became [m']: the bytes that were to come are still to
    come, without the first [n]. *)
Definition delivered (m : mixed) (n : nat) (m' : mixed) : Prop :=
  x_src m' = x_src m /\ coming m' = skipn n (coming m) /\ n <= length (coming m) /\
  x_at m' + length (x_buf m) = x_at m + n + length (x_buf m') /\ x_told m' = x_told m + n.

(** A seek that reaches the inner reader. *)
Definition mixed_seek (m : mixed) (t : Z) (res : result nat io_error) (m' : mixed) : Prop :=
  match res with
  | Okay q =>
      Z.of_nat q = t /\ x_src m' = x_src m /\ coming m' = skipn q (x_src m) /\
      x_at m' = q + length (x_buf m') /\ x_told m' = q
  | Error _ => m' = m \/ (x_src m' = x_src m /\ x_buf m' = [] /\ Z.of_nat (x_at m') = t /\ x_told m' = x_at m')
  end.

(** A seek inside the buffer. *)
Definition skipped (m : mixed) (n : nat) : mixed := mk_mixed (x_src m) (skipn n (x_buf m)) (x_at m) (x_told m + n).

Definition seek_mixed (m : mixed) (s : seek_from) (res : result nat io_error) (m' : mixed) : Prop :=
  match s with
  | Start n =>
      if (x_told m <=? n) && (n <? x_told m + length (x_buf m)) then res = Okay n /\ m' = skipped m (n - x_told m)
      else mixed_seek m (Z.of_nat n) res m'
  | End d => mixed_seek m (Z.of_nat (length (x_src m)) + d) res m'
  | Current d =>
      if (d <? 0)%Z then mixed_seek m (Z.of_nat (x_at m) + d) res m'
      else if Z.to_nat d <=? length (x_buf m) then res = Okay (x_told m + Z.to_nat d) /\ m' = skipped m (Z.to_nat d)
      else mixed_seek m (Z.of_nat (x_at m) + (d - Z.of_nat (length (x_buf m)))) res m'
  end.

Definition call_mixed (m : mixed) (op : acc_op) (o : acc_out) (m' : mixed) : Prop :=
  match op, o with
  | ARead dst, ORead dst' (Okay n) =>
      length dst' = length dst /\ n <= length dst /\ firstn n dst' = firstn n (coming m) /\ delivered m n m' /\
      (n = 0 -> length dst = 0 \/ coming m = [])
  | ARead dst, ORead dst' (Error _) => length dst' = length dst /\ m' = m
  | AFill, OFill (Okay d) => d = x_buf m' /\ delivered m 0 m' /\ length (x_buf m) <= length (x_buf m')
  | AFill, OFill (Error _) => m' = m
  | AConsume n, OUnit => m' = skipped m n
  | AGrow _, OUnit => m' = m
  | AReset, OUnit => m' = m
  | AData, OData d => m' = m /\ d = x_buf m
  | ACapacity, OCapacity n => m' = m /\ n = length (x_buf m)
  | ASeek s, OSeek res => seek_mixed m s res m'
  | _, _ => False
  end.

Fixpoint history_mixed {R : Type} (m : mixed) (ops : list (mut_op R)) (outs : list acc_out) (m' : mixed) : Prop :=
  match ops, outs with
  | [], [] => m' = m
  | Call op :: ops', o :: outs' => exists m1, call_mixed m op o m1 /\ history_mixed m1 ops' outs' m'
  | Touch _ g h :: ops', outs =>
      exists p, h (x_src m) (x_at m) p /\ history_mixed (mk_mixed (g (x_src m)) (x_buf m) p (x_told m)) ops' outs m'
  | _, _ => False
  end.

(** ** For the examples *)

(** [reader.get_mut().seek(SeekFrom::Start(n))] *)
Definition move_to (n : nat) : mut_op cursor :=
  Touch (fun c => mk_cursor (cur_src c) n (cur_script c)) (fun s => s) (fun _ _ p => p = n).
(** Writing [b] over byte [n] of the file the inner reader reads from, through the inner
    reader, which is left where it was. *)
Definition put (n : nat) (b : N) (s : list N) : list N := firstn n s ++ b :: skipn (S n) s.
Definition overwrite (n : nat) (b : N) : mut_op cursor :=
  Touch (fun c => mk_cursor (put n b (cur_src c)) (cur_pos c) (cur_script c)) (put n b) (fun _ p p' => p' = p).
