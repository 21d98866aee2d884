(** What is asked of the demuxing [Context] on machine words. *)
From Coq Require Import List Arith NArith ZArith Bool.
From Verif Require Import Base AccModel AccSpec FormatModel DemuxModel DemuxSpec WordAccModel WordSpec WordDemuxModel.
Import ListNotations.
Local Open Scope nat_scope.

(** ** Sessions *)

Inductive ctx_call := ReadHeaders | ReadEvent.

(** What a call returned; nothing if it did not return within the rounds it was given. *)
Inductive ctx_out (P : Type) :=
| GotHeaders (r : option (result unit error))
| GotEvent (r : option (result (event P) error)).
Arguments GotHeaders {P}.
Arguments GotEvent {P}.

(** A list of calls, each with [rounds] rounds, by a step function. *)
Fixpoint session {C P : Type} (headers : C -> outcome (C * option (result unit error)))
    (event : C -> outcome (C * option (result (event P) error))) (calls : list ctx_call) (c : C) : outcome (C * list (ctx_out P)) :=
  match calls with
  | [] => Ret (c, [])
  | ReadHeaders :: calls' =>
      let! (c1, r) := headers c in
      let! (c2, rs) := session headers event calls' c1 in
      Ret (c2, GotHeaders r :: rs)
  | ReadEvent :: calls' =>
      let! (c1, r) := event c in
      let! (c2, rs) := session headers event calls' c1 in
      Ret (c2, GotEvent r :: rs)
  end.

(** The session of a parser over an [AccReader] with unbounded counters, *)
Definition plain_session {P D S : Type} (i : io S) (ps : parser P D) (rounds : nat) :=
  session (read_headers (parser_demuxer ps (acc_buffered i)) (acc_buffered i) rounds)
          (read_event (parser_demuxer ps (acc_buffered i)) (acc_buffered i) rounds).
(** with words, *)
Definition word_session {P D S : Type} (i : io S) (ps : parser P D) (rounds : nat) :=
  session (wd_headers (parser_demuxer ps (word_buffered i)) (word_buffered i) word_grow rounds)
          (wd_event (parser_demuxer ps (word_buffered i)) (word_buffered i) word_grow rounds).
(** and with words that wrap around. *)
Definition release_session {P D S : Type} (i : io S) (ps : parser P D) (rounds : nat) :=
  session (wd_headers (parser_demuxer ps (release_buffered i)) (release_buffered i) release_grow rounds)
          (wd_event (parser_demuxer ps (release_buffered i)) (release_buffered i) release_grow rounds).

(** ** Parsers *)

(** The seeks a parser wants are within the contract of [AccReader] and of their types. *)
Definition seeks_fit {P D : Type} (ps : parser P D) : Prop :=
  (forall d dat d' s ev, ps_event ps d dat = (d', Okay (s, ev)) -> forward s /\ call_fits (ASeek s)) /\
  (forall d dat info d' info' s, ps_headers ps d dat info = (d', info', Okay s) -> forward s /\ call_fits (ASeek s)).

(** [n] is a request for more data that the parser makes on some data. *)
Definition asks {P D : Type} (ps : parser P D) (n : nat) : Prop :=
  (exists d dat d', ps_event ps d dat = (d', Error (MoreDataNeeded n))) \/
  (exists d dat d' s, ps_event ps d dat = (d', Okay (s, MoreData n))) \/
  (exists d dat info d' info', ps_headers ps d dat info = (d', info', Error (MoreDataNeeded n))).

(** The same context with words for counters, and the size of its buffer. *)
Definition word_ctx {P D S : Type} (c : dctx P D (acc S)) : dctx P D (wacc S) :=
  mk_dctx (c_demuxer c) (word_acc (c_reader c)) (c_info c).
Definition room {P D S : Type} (c : dctx P D (acc S)) : N := N.of_nat (length (abuf (c_reader c))).
