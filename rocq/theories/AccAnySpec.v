(** What every sequence of calls on [AccReader] does, without any assumption on the calls or
    on where the inner reader was when it was wrapped. *)
From Coq Require Import List Arith NArith ZArith Bool.
From Verif Require Import Base AccModel AccSpec.
Import ListNotations.
Local Open Scope nat_scope.
(* From [AccModel] the interface types are used. *)

(** accreader.rs:25-27 *)
Definition acc_new {R : Type} (r : R) : acc R := with_capacity 4096 r.
(** accreader.rs:42-44, 47-49 and 54-56 *)
Definition get_ref {R : Type} (a : acc R) : R := inner a.
Definition get_mut {R : Type} (a : acc R) : R := inner a.
Definition into_inner {R : Type} (a : acc R) : R := inner a.

(** The next byte to be delivered is the one at [m_pos] of the source, [m_buf] bytes from
    there are buffered, and the reader takes itself to be at [m_told]. *)
Record machine : Type := mk_machine { m_pos : nat; m_buf : nat; m_told : nat }.

(** A seek that reaches the source: it goes to [t] or fails; if it fails either nothing
    happened or the source is at [t] but could not be read. *)
Definition real_seek (m : machine) (t : Z) (res : result nat io_error) (m' : machine) : Prop :=
  match res with
  | Okay q => Z.of_nat q = t /\ m_pos m' = q /\ m_told m' = q
  | Error _ => m' = m \/ (Z.of_nat (m_pos m') = t /\ m_told m' = m_pos m')
  end.

Definition seek_any (len : nat) (m : machine) (s : seek_from) (res : result nat io_error) (m' : machine) : Prop :=
  match s with
  | Start n =>
      if (m_told m <=? n) && (n <? m_told m + m_buf m) then
        res = Okay n /\ m' = mk_machine (m_pos m + (n - m_told m)) (m_buf m - (n - m_told m)) n
      else real_seek m (Z.of_nat n) res m'
  | End d => real_seek m (Z.of_nat len + d) res m'
  | Current d =>
      if (d <? 0)%Z then real_seek m (Z.of_nat (m_pos m + m_buf m) + d) res m'
      else if Z.to_nat d <=? m_buf m then
        res = Okay (m_told m + Z.to_nat d) /\ m' = mk_machine (m_pos m + Z.to_nat d) (m_buf m - Z.to_nat d) (m_told m + Z.to_nat d)
      else real_seek m (Z.of_nat (m_pos m) + d) res m'
  end.

(** The buffered bytes. *)
Definition window (src : list N) (m : machine) : list N := firstn (m_buf m) (skipn (m_pos m) src).

Definition call_any (src : list N) (m : machine) (op : acc_op) (o : acc_out) (m' : machine) : Prop :=
  m_buf m' <= length src - m_pos m' /\
  match op, o with
  | ARead dst, ORead dst' res =>
      reads src (m_pos m) dst dst' res (m_pos m') /\ m_told m' + m_pos m = m_told m + m_pos m'
  | AFill, OFill res =>
      m_pos m' = m_pos m /\ m_told m' = m_told m /\
      match res with Okay d => d = window src m' /\ m_buf m <= m_buf m' | Error _ => m_buf m' = m_buf m end
  | AConsume n, OUnit => m' = mk_machine (m_pos m + Nat.min n (m_buf m)) (m_buf m - n) (m_told m + n)
  | AGrow _, OUnit => m' = m
  | AReset, OUnit => m' = m
  | AData, OData d => m' = m /\ d = window src m
  | ACapacity, OCapacity n => m' = m /\ n = m_buf m
  | ASeek s, OSeek res => seek_any (length src) m s res m'
  | _, _ => False
  end.

Fixpoint history_any (src : list N) (m : machine) (ops : list acc_op) (outs : list acc_out) (m' : machine) : Prop :=
  match ops, outs with
  | [], [] => m' = m
  | op :: ops', o :: outs' => exists m1, call_any src m op o m1 /\ history_any src m1 ops' outs' m'
  | _, _ => False
  end.
