(** The reader of a demuxing [Context], format/src/demuxer.rs, for any width of [usize]; the
    loops of [Context] themselves are those of [WordDemuxModel], which leave the reader open. *)
From Coq Require Import List Arith NArith ZArith Bool.
From Verif Require Import Base AccModel FormatModel DemuxModel WordAccModel MachineModel MachineAccModel.
Import ListNotations.
Local Open Scope nat_scope.

(** accreader.rs:87-95, 141-164, 166-204; [b_grow] is not used, see [machine_grow]. *)
Definition machine_buffered (m : machine) {S : Type} (i : io S) : buffered_io (wacc S) :=
  mk_buffered (m_fill_buf m i) (m_seek m i) m_data (fun a _ => a).
Definition machine_grow (m : machine) {S : Type} (a : wacc S) (n : nat) : outcome (wacc S) := m_grow m a (N.of_nat n).
