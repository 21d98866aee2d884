(** Sessions of a demuxing [Context] for any width of [usize]. *)
From Coq Require Import List Arith NArith ZArith Bool.
From Verif Require Import Base AccModel AccSpec FormatModel DemuxModel DemuxSpec MachineModel MachineAccSpec MachineDemuxModel WordDemuxModel WordDemuxSpec.
Import ListNotations.
Local Open Scope nat_scope.

(** A list of calls on a machine. *)
Definition machine_session (m : machine) {P D S : Type} (i : io S) (ps : parser P D) (rounds : nat) :=
  session (wd_headers (parser_demuxer ps (machine_buffered m i)) (machine_buffered m i) (machine_grow m) rounds)
          (wd_event (parser_demuxer ps (machine_buffered m i)) (machine_buffered m i) (machine_grow m) rounds).

(** The seeks a parser wants are within the contract of [AccReader] and fit [usize]. *)
Definition seeks_within (m : machine) {P D : Type} (ps : parser P D) : Prop :=
  (forall d dat d' s ev, ps_event ps d dat = (d', Okay (s, ev)) -> forward s /\ call_within m (ASeek s)) /\
  (forall d dat info d' info' s, ps_headers ps d dat info = (d', info', Okay s) -> forward s /\ call_within m (ASeek s)).
