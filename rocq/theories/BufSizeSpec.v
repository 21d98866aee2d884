(** How large the buffer of an [AccReader] gets while demuxing. *)
From Coq Require Import List Arith NArith ZArith Bool.
From Verif Require Import Base AccModel AccSpec FormatModel DemuxModel DemuxSpec.
Import ListNotations.
Local Open Scope nat_scope.

(** No request for data of the parser exceeds [m] bytes. *)
Definition requests_at_most {P D : Type} (ps : parser P D) (m : nat) : Prop :=
  forall d dat d' k, (ps_event ps d dat = (d', Error (MoreDataNeeded k)) \/ (exists s, ps_event ps d dat = (d', Okay (s, MoreData k)))) -> k <= m.

(** Packets of [n] bytes. *)
Definition block_packet (body : list N) : packet := mk_packet body None 0 default_time false false.
Definition block_parser (n : nat) : parser unit unit :=
  mk_parser
    (fun d dat info => (d, info, Okay (Current 0)))
    (fun d dat => if length dat <? n then (d, Error (MoreDataNeeded n))
                  else (d, Okay (Current (Z.of_nat n), NewPacket (block_packet (firstn n dat))))).

(** A source that gives one byte at a time. *)
Definition slow_source (src : list N) : cursor := mk_cursor src 0 (repeat (Deliver 1) (length src)).
