(** Which calls of its source demuxing makes. *)
From Coq Require Import List Arith NArith ZArith Bool.
From Verif Require Import Base AccModel AccSpec FormatModel DemuxModel DemuxSpec CallsSpec.
Import ListNotations.
Local Open Scope nat_scope.
(* From [AccModel] and [DemuxModel] only the types are used. *)

(** A parser that never moves beyond the bytes it has seen. *)
Definition within {P D : Type} (ps : parser P D) : Prop :=
  forall d dat d' s ev, ps_event ps d dat = (d', Okay (s, ev)) -> exists k, s = Current (Z.of_nat k) /\ k <= length dat.

(** 1 for an answer that asks for more bytes than will be buffered, 0 for any other. *)
Definition unmet {P : Type} (dat : list N) (res : result (seek_from * event P) error) : nat :=
  match res with
  | Error (MoreDataNeeded n) => if length dat <? n then 1 else 0
  | Okay (Current z, MoreData n) => if length dat - Z.to_nat z <? n then 1 else 0
  | _ => 0
  end.

(** The same parser, counting such answers. *)
Definition counting {P D : Type} (ps : parser P D) : parser P (D * nat) := mk_parser
  (fun d dat info => let '(d', info', res) := ps_headers ps (fst d) dat info in ((d', snd d), info', res))
  (fun d dat => let '(d', res) := ps_event ps (fst d) dat in ((d', snd d + unmet dat res), res)).

(** The same context over a source that notes down its calls, with such a parser. *)
Definition watched {P D S : Type} (c : dctx P D (acc S)) (k : nat) (log : list inner_call) : dctx P (D * nat) (acc (S * list inner_call)) :=
  mk_dctx (c_demuxer c, k) (logged (c_reader c) log) (c_info c).

Definition not_eof {P : Type} (r : result (event P) error) : Prop := r <> Okay Eof.

(** The same parser, counting how often it is given the headers. *)
Definition header_counting {P D : Type} (ps : parser P D) : parser P (D * nat) := mk_parser
  (fun d dat info => let '(d', info', res) := ps_headers ps (fst d) dat info in ((d', S (snd d)), info', res))
  (fun d dat => let '(d', res) := ps_event ps (fst d) dat in ((d', snd d), res)).
