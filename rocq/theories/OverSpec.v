(** Inner readers that report more bytes than they were given room for.

    Nothing in safe Rust prevents an implementation of [Read] from doing so.  The only thing
    that is sure is that a slice keeps its length. *)
From Coq Require Import List Arith NArith ZArith Bool.
From Verif Require Import Base AccModel StreamModel StreamSpec.
Import ListNotations.
Local Open Scope nat_scope.

Definition sized {R : Type} (i : io R) : Prop :=
  forall r dst r' dst' res, io_read i r dst = (r', dst', res) -> length dst' = length dst.

(** The part of the buffer that is free once the window is at its front. *)
Definition room {R : Type} (a : acc R) : list N := skipn (aend a - apos a) (abuf a).

(** Topping up the buffer reads, and the count reported does not fit. *)
Definition overfills {R : Type} (i : io R) (a : acc R) : Prop :=
  ~ (apos a = 0 /\ aend a = length (abuf a)) /\
  exists r' dst' n, io_read i (inner a) (room a) = (r', dst', Okay n) /\ length (room a) < n.

(** The seek that is passed on, if any. *)
Definition passed_on {R : Type} (a : acc R) (s : seek_from) : option seek_from :=
  let held := aend a - apos a in
  match s with
  | Start p => if (aindex a <=? p) && (p <? aindex a + held) then None else Some (Start p)
  | End d => Some (End d)
  | Current d => if (d <? 0)%Z then Some (Current d)
                 else if (d <=? Z.of_nat held)%Z then None else Some (Current (d - Z.of_nat held))
  end.

(** The call tops up the buffer with too many bytes: [fill_buf] itself, a read of no fewer bytes than
    are held and no more than the buffer has, and a seek that was passed on with success. *)
Definition overlong_call {R : Type} (i : io R) (a : acc R) (op : acc_op) : Prop :=
  match op with
  | AFill => overfills i a
  | ARead dst => aend a - apos a <= length dst <= length (abuf a) /\ overfills i a
  | ASeek s => exists s' r' q, passed_on a s = Some s' /\ io_seek i (inner a) s' = (r', Okay q) /\ overfills i (mk_acc r' (abuf a) 0 0 q)
  | _ => False
  end.

(** The same for readers as the stream getters see them: no panic, and slices keep their length. *)
Definition sized_reader {R : Type} (rd : reader R) : Prop :=
  forall r dst, exists r' dst' res, rd r dst = Ret (r', dst', res) /\ length dst' = length dst.

(** A getter on any such reader does not panic; it is [read_exact] followed by the getter of
    slices, or was interrupted, or takes what it has for the value where [read_exact] panics
    because the reader reported too many bytes. *)
Definition takes_anything {V : Type} (k : nat) (get : list N -> outcome V)
    (sg : forall R, reader R -> nat -> R -> outcome (R * option (result V io_error))) : Prop :=
  forall (R : Type) (rd : reader R), sized_reader rd -> forall fuel r,
    exists r' res, sg R rd fuel r = Ret (r', res) /\
      (sg R rd fuel r = exact_then k get rd fuel r \/
       res = Some (Error Interrupted) \/
       (exact_then k get rd fuel r = Panic /\ exists buf v, length buf = k /\ get buf = Ret v /\ res = Some (Okay v))).

(** A reader that delivers nothing and reports what it is told to. *)
Definition boaster_io : io (list nat) := mk_io
  (fun s dst => match s with [] => ([], dst, Okay 0) | n :: s' => (s', dst, Okay n) end)
  (fun s where_to => match where_to with Start n => (s, Okay n) | _ => (s, Okay 0) end).
