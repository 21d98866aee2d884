(** What demuxing must do: deterministic incremental parsers and the events of a
    byte sequence, independent of any reader. *)
From Coq Require Import List Arith NArith ZArith Bool.
From Verif Require Import Base AccModel AccSpec FormatModel DemuxModel.
Import ListNotations.
Local Open Scope nat_scope.
(* From [DemuxModel] only the types (events, demuxers, contexts) and the interface
   record [buffered_io] are used here. *)

(** ** Streams and packets *)

(** The first stream whose index, as a signed word, is [idx]. *)
Fixpoint first_stream {P : Type} (l : list (stream P)) (idx : Z) : option (stream P) :=
  match l with
  | [] => None
  | s :: l' => if (as_signed 64 (s_index s) =? idx)%Z then Some s else first_stream l' idx
  end.

(** [p'] is the packet [p] as delivered to the caller. *)
Definition delivered_packet {P : Type} (streams : list (stream P)) (p p' : packet) : Prop :=
  p_data p' = p_data p /\ p_pos p' = p_pos p /\ p_stream_index p' = p_stream_index p /\
  p_key p' = p_key p /\ p_corrupted p' = p_corrupted p /\
  t_pts (p_t p') = t_pts (p_t p) /\ t_dts (p_t p') = t_dts (p_t p) /\ t_duration (p_t p') = t_duration (p_t p) /\
  t_private (p_t p') = t_private (p_t p) /\
  t_timebase (p_t p') =
    match t_timebase (p_t p), first_stream streams (p_stream_index p) with
    | Some tb, _ => Some tb
    | None, Some s => Some (s_timebase s)
    | None, None => None
    end.

(** The streams announced by a list of results. *)
Fixpoint announced {P : Type} (l : list (result (event P) error)) : list (stream P) :=
  match l with
  | [] => []
  | Okay (NewStream s) :: l' => s :: announced l'
  | _ :: l' => announced l'
  end.

Definition wants_more (e : error) : Prop := match e with MoreDataNeeded _ => True | _ => False end.

(** ** Incremental parsers *)

(** A demuxer that decides from the buffered bytes alone and leaves the reader
    alone. *)
Record parser (P D : Type) : Type := mk_parser {
  ps_headers : D -> list N -> global_info P -> D * global_info P * result seek_from error;
  ps_event : D -> list N -> D * result (seek_from * event P) error
}.
Arguments mk_parser {P D}.
Arguments ps_headers {P D}.
Arguments ps_event {P D}.

Definition parser_demuxer {P D R : Type} (ps : parser P D) (b : buffered_io R) : demuxer_fns P D R :=
  mk_demuxer
    (fun d r info => let! dat := b_data b r in
       let '(d', info', res) := ps_headers ps d dat info in Ret (d', r, info', res))
    (fun d r => let! dat := b_data b r in
       let '(d', res) := ps_event ps d dat in Ret (d', r, res)).

(** Seeks that are valid whatever the source is. *)
Definition plain_seek (s : seek_from) : Prop :=
  match s with Start _ => True | Current d => (0 <= d)%Z | End _ => False end.

(** Decisions are stable under more data; a request for more data changes nothing
    and names the total number of bytes needed, which are really needed. *)
Record incremental {P D : Type} (ps : parser P D) : Prop := {
  inc_more : forall d dat d' n, ps_event ps d dat = (d', Error (MoreDataNeeded n)) -> d' = d /\ length dat < n;
  inc_stable : forall d dat more d' res, ps_event ps d dat = (d', res) ->
    (forall n, res <> Error (MoreDataNeeded n)) -> ps_event ps d (dat ++ more) = (d', res);
  inc_seek : forall d dat d' s ev, ps_event ps d dat = (d', Okay (s, ev)) -> plain_seek s;
  inc_skip : forall d dat d' s n, ps_event ps d dat = (d', Okay (s, MoreData n)) ->
    forall dat', length dat' < n -> exists m, ps_event ps d' dat' = (d', Error (MoreDataNeeded m))
}.

(** A parser whose requests to be called again ([Event::MoreDataNeeded]) always
    skip at least one byte, and never on empty data. *)
Definition skips_forward {P D : Type} (ps : parser P D) : Prop :=
  forall d dat d' s n, ps_event ps d dat = (d', Okay (s, MoreData n)) ->
    dat <> [] /\ exists k, (0 < k)%Z /\ s = Current k.

(** The same for headers; here any positive request for more data will do. *)
Record incremental_headers {P D : Type} (ps : parser P D) : Prop := {
  inh_more : forall d dat info d' info' n, ps_headers ps d dat info = (d', info', Error (MoreDataNeeded n)) ->
    d' = d /\ info' = info /\ 0 < n;
  inh_stable : forall d dat more info d' info' res, ps_headers ps d dat info = (d', info', res) ->
    (forall n, res <> Error (MoreDataNeeded n)) -> ps_headers ps d (dat ++ more) info = (d', info', res);
  inh_seek : forall d dat info d' info' s, ps_headers ps d dat info = (d', info', Okay s) -> plain_seek s
}.

(** ** The events of a byte sequence *)

(** One result with the new parser state, position and streams: the parser sees all
    the bytes from position [p] on; [rounds] bounds the number of skips. *)
Definition register {P : Type} (info : global_info P) (ev : event P) : global_info P :=
  match ev with
  | NewStream s => mk_info (g_duration info) (g_timebase info) (g_streams info ++ [s])
  | _ => info
  end.

Definition stamped {P : Type} (info : global_info P) (ev : event P) : event P :=
  match ev with
  | NewPacket p =>
      match t_timebase (p_t p), first_stream (g_streams info) (p_stream_index p) with
      | None, Some s =>
          NewPacket (mk_packet (p_data p) (p_pos p) (p_stream_index p)
            (mk_time (t_pts (p_t p)) (t_dts (p_t p)) (t_duration (p_t p)) (Some (s_timebase s)) (t_private (p_t p)))
            (p_key p) (p_corrupted p))
      | _, _ => ev
      end
  | _ => ev
  end.

Fixpoint next_event {P D : Type} (ps : parser P D) (src : list N) (rounds : nat) (d : D) (p : nat) (info : global_info P)
    : option (D * nat * global_info P * result (event P) error) :=
  match rounds with
  | O => None
  | S rounds' =>
      match ps_event ps d (skipn p src) with
      | (_, Error (MoreDataNeeded _)) => Some (d, p, info, Okay Eof)
      | (d', Error e) => Some (d', p, info, Error e)
      | (d', Okay (s, ev)) =>
          let p' := Z.to_nat (target (length src) p s) in
          match ev with
          | MoreData _ => next_event ps src rounds' d' p' info
          | _ => Some (d', p', register info ev, Okay (stamped (register info ev) ev))
          end
      end
  end.

Fixpoint all_events {P D : Type} (ps : parser P D) (src : list N) (rounds calls : nat) (d : D) (p : nat) (info : global_info P)
    : option (D * nat * global_info P * list (result (event P) error)) :=
  match calls with
  | O => Some (d, p, info, [])
  | S calls' =>
      match next_event ps src rounds d p info with
      | None => None
      | Some (d1, p1, info1, r) =>
          match all_events ps src rounds calls' d1 p1 info1 with
          | None => None
          | Some (d2, p2, info2, rs) => Some (d2, p2, info2, r :: rs)
          end
      end
  end.

(** ** Well-behaved demuxers over an [AccReader] *)

(** The demuxer touches the reader only by calls that respect the contracts. *)
Definition contract_demuxer {P D S : Type} (i : io S) (dm : demuxer_fns P D (acc S)) : Prop :=
  forall d r d' r' res, dm_event dm d r = Ret (d', r', res) ->
    exists ops outs, acc_legal i r ops /\ acc_run i r ops = Ret (r', outs).
Definition contract_seeks {P D R : Type} (dm : demuxer_fns P D R) : Prop :=
  forall d r d' r' s ev, dm_event dm d r = Ret (d', r', Okay (s, ev)) -> forward s.
