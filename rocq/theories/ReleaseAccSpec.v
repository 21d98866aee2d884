(** What is asked of a source, and of the arguments of calls. *)
From Coq Require Import List Arith NArith ZArith Bool.
From Verif Require Import Base AccModel.
Import ListNotations.
Local Open Scope nat_scope.

(** The contract of [Read::read]: the slice keeps its length, the count is at most that.
    Nothing is said about contents, positions and failures. *)
Definition honest_io {R : Type} (i : io R) : Prop :=
  forall r dst r' dst' res, io_read i r dst = (r', dst', res) ->
    length dst' = length dst /\ match res with Okay n => n <= length dst | Error _ => True end.
