(** Transcription of format/src/demuxer.rs.

    [Context<D, R>] is generic in the demuxer and the reader; so is the model.  A
    demuxer is any pair of functions that may do anything to the reader (they
    receive [&mut dyn Buffered]).  The loops take a number of rounds and give
    [None] when it is used up, so that "returns" and "loops forever" can both be
    stated. *)
From Coq Require Import List Arith NArith ZArith Bool.
From Verif Require Import Base AccModel FormatModel.
Import ListNotations.
Local Open Scope nat_scope.

(** demuxer.rs:16-31 *)
Inductive event (P : Type) : Type :=
| NewPacket (p : packet)
| NewStream (s : stream P)
| MoreData (n : nat)
| Continue
| Eof.
Arguments NewPacket {P}.
Arguments NewStream {P}.
Arguments MoreData {P}.
Arguments Continue {P}.
Arguments Eof {P}.

(** The part of [Buffered] (buffer/mod.rs:8-13: [BufRead + Seek], [data], [grow])
    that [Context] calls. *)
Record buffered_io (R : Type) : Type := mk_buffered {
  b_fill : R -> outcome (R * result (list N) io_error);
  b_seek : R -> seek_from -> outcome (R * result nat io_error);
  b_data : R -> outcome (list N);
  b_grow : R -> nat -> R
}.
Arguments mk_buffered {R}.
Arguments b_fill {R}.
Arguments b_seek {R}.
Arguments b_data {R}.
Arguments b_grow {R}.

(** accreader.rs:87-95, 141-164, 166-204 *)
Definition acc_buffered {S : Type} (i : io S) : buffered_io (acc S) :=
  mk_buffered (fill_buf i) (seek i) data grow.

(** demuxer.rs:34-42 *)
Record demuxer_fns (P D R : Type) : Type := mk_demuxer {
  dm_headers : D -> R -> global_info P -> outcome (D * R * global_info P * result seek_from error);
  dm_event : D -> R -> outcome (D * R * result (seek_from * event P) error)
}.
Arguments mk_demuxer {P D R}.
Arguments dm_headers {P D R}.
Arguments dm_event {P D R}.

(** demuxer.rs:46-55 *)
Record dctx (P D R : Type) : Type := mk_dctx {
  c_demuxer : D;
  c_reader : R;
  c_info : global_info P
}.
Arguments mk_dctx {P D R}.
Arguments c_demuxer {P D R}.
Arguments c_reader {P D R}.
Arguments c_info {P D R}.

(** demuxer.rs:59-70 *)
Definition context_new {P D R : Type} (d : D) (r : R) : dctx P D R := mk_dctx d r (mk_info None None []).

Definition set_timebase (p : packet) (tb : rational) : packet :=
  mk_packet (p_data p) (p_pos p) (p_stream_index p)
    (mk_time (t_pts (p_t p)) (t_dts (p_t p)) (t_duration (p_t p)) (Some tb) (t_private (p_t p)))
    (p_key p) (p_corrupted p).

Section Demux.
Context {P D R : Type}.
Variable dm : demuxer_fns P D R.
Variable b : buffered_io R.

Notation ctx := (dctx P D R).

(** demuxer.rs:77-90; the result of the seek is dropped *)
Definition read_headers_internal (c : ctx) : outcome (ctx * result unit error) :=
  let! (d', r', info', res) := dm_headers dm (c_demuxer c) (c_reader c) (c_info c) in
  match res with
  | Error e => Ret (mk_dctx d' r' info', Error e)
  | Okay s =>
      let! (r'', _) := b_seek b r' s in
      Ret (mk_dctx d' r'' info', Okay tt)
  end.

(** demuxer.rs:93-107 *)
Fixpoint read_headers (rounds : nat) (c : ctx) : outcome (ctx * option (result unit error)) :=
  match rounds with
  | O => Ret (c, None)
  | S rounds' =>
      let! (r', fr) := b_fill b (c_reader c) in
      let c1 := mk_dctx (c_demuxer c) r' (c_info c) in
      match fr with
      | Error e => Ret (c1, Some (Error (Io e)))
      | Okay _ =>
          let! (c2, res) := read_headers_internal c1 in
          match res with
          | Error (MoreDataNeeded needed) =>
              read_headers rounds' (mk_dctx (c_demuxer c2) (b_grow b (c_reader c2) needed) (c_info c2))
          | Error e => Ret (c2, Some (Error e))
          | Okay _ => Ret (c2, Some (Okay tt))
          end
      end
  end.

(** demuxer.rs:109-139; the closure of [find] is lines 126-130 *)
Definition read_event_internal (c : ctx) : outcome (ctx * result (event P) error) :=
  let! (d', r', res) := dm_event dm (c_demuxer c) (c_reader c) in
  match res with
  | Error e => Ret (mk_dctx d' r' (c_info c), Error e)
  | Okay (s, ev) =>
      let! (r'', sr) := b_seek b r' s in
      match sr with
      | Error e => Ret (mk_dctx d' r'' (c_info c), Error (Io e))
      | Okay _ =>
          let info := c_info c in
          let info1 :=
            match ev with
            | NewStream st => mk_info (g_duration info) (g_timebase info) (g_streams info ++ [st])
            | _ => info
            end in
          let c1 := mk_dctx d' r'' info1 in
          match ev with
          | MoreData size => Ret (c1, Error (MoreDataNeeded size))
          | NewPacket pkt =>
              match t_timebase (p_t pkt) with
              | Some _ => Ret (c1, Okay ev)
              | None =>
                  match find (fun s => (as_isize (s_index s) =? p_stream_index pkt)%Z) (g_streams info1) with
                  | Some st => Ret (c1, Okay (NewPacket (set_timebase pkt (s_timebase st))))
                  | None => Ret (c1, Okay ev)
                  end
              end
          | _ => Ret (c1, Okay ev)
          end
      end
  end.

(** demuxer.rs:142-165 *)
Fixpoint read_event (rounds : nat) (c : ctx) : outcome (ctx * option (result (event P) error)) :=
  match rounds with
  | O => Ret (c, None)
  | S rounds' =>
      let! (c1, res) := read_event_internal c in
      match res with
      | Error (MoreDataNeeded needed) =>
          let! d := b_data b (c_reader c1) in
          if needed <=? length d then read_event rounds' c1
          else
            let r2 := b_grow b (c_reader c1) needed in
            let! (r3, fr) := b_fill b r2 in
            let c3 := mk_dctx (c_demuxer c1) r3 (c_info c1) in
            match fr with
            | Error e => Ret (c3, Some (Error (Io e)))
            | Okay _ =>
                let! d3 := b_data b r3 in
                if length d3 <=? length d then Ret (c3, Some (Okay Eof)) else read_event rounds' c3
            end
      | Error e => Ret (c1, Some (Error e))
      | Okay ev => Ret (c1, Some (Okay ev))
      end
  end.

(** Several calls of [read_event]; [None] as soon as one does not return. *)
Fixpoint read_events (rounds : nat) (calls : nat) (c : ctx) : outcome (ctx * option (list (result (event P) error))) :=
  match calls with
  | O => Ret (c, Some [])
  | S calls' =>
      let! (c1, r) := read_event rounds c in
      match r with
      | None => Ret (c1, None)
      | Some ev =>
          let! (c2, rest) := read_events rounds calls' c1 in
          match rest with
          | None => Ret (c2, None)
          | Some evs => Ret (c2, Some (ev :: evs))
          end
      end
  end.

End Demux.

(** demuxer.rs:205 *)
Definition probe_score_extension : N := 50.

(** demuxer.rs:213-232; a descriptor is any type [T] with a score function *)
Definition probe {T : Type} (score : T -> list N -> N) (descs : list T) (dat : list N) : option T :=
  let '(mx, candidate) :=
    fold_left (fun '(mx, candidate) desc =>
      let sc := score desc dat in
      if (mx <? sc)%N then (sc, Some desc) else (mx, candidate)) descs (0%N, None) in
  if (probe_score_extension <? mx)%N then candidate else None.
