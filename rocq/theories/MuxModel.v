(** Transcription of format/src/muxer.rs and of the codec registries of
    codec/src/{common,decoder,encoder}.rs.

    Outputs are an arbitrary type [W] with the functions of std::io::Write and
    std::io::Seek.  Positions are [nat]: [WordCountModel] has [Writer] on 64-bit words,
    and C107 relates the two.  Muxers are an arbitrary type [M] with the methods of the trait
    [Muxer]; a method that does not return is [None].  Options values are an
    arbitrary type [V]. *)
From Coq Require Import List Arith NArith ZArith Bool String.
From Verif Require Import Base AccModel FormatModel.
Import ListNotations.
Local Open Scope nat_scope.

(** ** std::io::Write *)

(** [Write::write], [Write::flush] and [Seek::seek] *)
Record sink (W : Type) : Type := mk_sink {
  sk_write : W -> list N -> W * result nat io_error;
  sk_flush : W -> W * result unit io_error;
  sk_seek : W -> seek_from -> W * result nat io_error
}.
Arguments mk_sink {W}.
Arguments sk_write {W}.
Arguments sk_flush {W}.
Arguments sk_seek {W}.

(** [Write::write_all] (standard library, provided method): calls [write] until
    everything is written; [Ok(0)] is the error [WriteZero], [Interrupted] is
    retried, a count larger than the buffer makes [&buf[n..]] panic.  At most [fuel]
    calls are made; running out of fuel is [None]. *)
Fixpoint write_all {W : Type} (s : sink W) (fuel : nat) (w : W) (buf : list N) : outcome (W * option (result unit io_error)) :=
  match buf with
  | [] => Ret (w, Some (Okay tt))
  | _ :: _ =>
      match fuel with
      | O => Ret (w, None)
      | S fuel' =>
          let '(w1, res) := sk_write s w buf in
          match res with
          | Okay O => Ret (w1, Some (Error WriteZero))
          | Okay n => let! rest := slice buf n (List.length buf) in write_all s fuel' w1 rest
          | Error Interrupted => write_all s fuel' w1 buf
          | Error e => Ret (w1, Some (Error e))
          end
      end
  end.

(** ** Writer *)

(** muxer.rs:12-15 *)
Record writer (W : Type) : Type := mk_writer { w_inner : W; w_written : nat }.
Arguments mk_writer {W}.
Arguments w_inner {W}.
Arguments w_written {W}.

(** muxer.rs:19-24 *)
Definition writer_new {W : Type} (w : W) : writer W := mk_writer w 0.

(** muxer.rs:29-31 and 34-36 *)
Definition writer_position {W : Type} (w : writer W) : nat := w_written w.
Definition writer_as_ref {W : Type} (w : writer W) : W * nat := (w_inner w, w_written w).

Section Writer.
Context {W : Type}.
Variable s : sink W.

(** muxer.rs:40-48 *)
Definition writer_write (w : writer W) (buf : list N) : writer W * result nat io_error :=
  let '(w', res) := sk_write s (w_inner w) buf in
  match res with
  | Okay n => (mk_writer w' (w_written w + n), Okay n)
  | Error e => (mk_writer w' (w_written w), Error e)
  end.

(** muxer.rs:50-52 *)
Definition writer_flush (w : writer W) : writer W * result unit io_error :=
  let '(w', res) := sk_flush s (w_inner w) in (mk_writer w' (w_written w), res).

(** muxer.rs:59-63 *)
Definition writer_seek (w : writer W) (sk : seek_from) : writer W * result nat io_error :=
  let '(w', res) := sk_seek s (w_inner w) sk in
  match res with
  | Okay p => (mk_writer w' p, Okay p)
  | Error e => (mk_writer w' (w_written w), Error e)
  end.

(** [Writer] is itself an output: muxer.rs:39-64 *)
Definition writer_sink : sink (writer W) := mk_sink writer_write writer_flush writer_seek.

End Writer.

(** The calls a client of [Writer] can make ([write_all] included). *)
Inductive writer_op : Type := WWrite (buf : list N) | WAll (fuel : nat) (buf : list N) | WFlush | WSeek (sk : seek_from).
Inductive writer_out : Type :=
| WWrote (res : result nat io_error)
| WWroteAll (res : option (result unit io_error))
| WFlushed (res : result unit io_error)
| WSought (res : result nat io_error).

Definition writer_step {W : Type} (s : sink W) (w : writer W) (op : writer_op) : outcome (writer W * writer_out) :=
  match op with
  | WWrite buf => let '(w', res) := writer_write s w buf in Ret (w', WWrote res)
  | WAll fuel buf => let! (w', res) := write_all (writer_sink s) fuel w buf in Ret (w', WWroteAll res)
  | WFlush => let '(w', res) := writer_flush s w in Ret (w', WFlushed res)
  | WSeek sk => let '(w', res) := writer_seek s w sk in Ret (w', WSought res)
  end.

Fixpoint writer_run {W : Type} (s : sink W) (w : writer W) (ops : list writer_op) : outcome (writer W * list writer_out) :=
  match ops with
  | [] => Ret (w, [])
  | op :: ops' =>
      let! (w1, o) := writer_step s w op in
      let! (w2, os) := writer_run s w1 ops' in
      Ret (w2, o :: os)
  end.

(** ** Muxers *)

(** muxer.rs:67-87.  The methods that write get the writer and return it. *)
Record muxer (P V M W : Type) : Type := mk_muxer {
  mx_configure : M -> outcome (M * option (result unit error));
  mx_header : M -> writer W -> outcome (M * writer W * option (result unit error));
  mx_packet : M -> writer W -> packet -> outcome (M * writer W * option (result unit error));
  mx_trailer : M -> writer W -> outcome (M * writer W * option (result unit error));
  mx_info : M -> global_info P -> outcome (M * option (result unit error));
  mx_option : M -> string -> V -> outcome (M * option (result unit error))
}.
Arguments mk_muxer {P V M W}.
Arguments mx_configure {P V M W}.
Arguments mx_header {P V M W}.
Arguments mx_packet {P V M W}.
Arguments mx_trailer {P V M W}.
Arguments mx_info {P V M W}.
Arguments mx_option {P V M W}.

(** muxer.rs:91-98 ([user_private] is only carried along) and 102-108 *)
Record mctx (M W : Type) : Type := mk_mctx { mc_muxer : M; mc_writer : writer W; mc_private : option nat }.
Arguments mk_mctx {M W}.
Arguments mc_muxer {M W}.
Arguments mc_writer {M W}.
Arguments mc_private {M W}.
Definition mctx_new {M W : Type} (m : M) (w : writer W) : mctx M W := mk_mctx m w None.

Section Context.
Context {P V M W : Type}.
Variable mx : muxer P V M W.
Variable s : sink W.

(** muxer.rs:111-113 *)
Definition mux_configure (c : mctx M W) : outcome (mctx M W * option (result unit error)) :=
  let! (m', res) := mx_configure mx (mc_muxer c) in Ret (mk_mctx m' (mc_writer c) (mc_private c), res).

(** muxer.rs:117-119 *)
Definition write_header (c : mctx M W) : outcome (mctx M W * option (result unit error)) :=
  let! (m', w', res) := mx_header mx (mc_muxer c) (mc_writer c) in Ret (mk_mctx m' w' (mc_private c), res).

(** muxer.rs:123-125 *)
Definition write_packet (c : mctx M W) (p : packet) : outcome (mctx M W * option (result unit error)) :=
  let! (m', w', res) := mx_packet mx (mc_muxer c) (mc_writer c) p in Ret (mk_mctx m' w' (mc_private c), res).

(** muxer.rs:129-134 *)
Definition write_trailer (c : mctx M W) : outcome (mctx M W * option (result unit error)) :=
  let! (m', w', res) := mx_trailer mx (mc_muxer c) (mc_writer c) in
  match res with
  | Some (Okay _) =>
      let '(w'', fres) := writer_flush s w' in
      match fres with
      | Okay _ => Ret (mk_mctx m' w'' (mc_private c), Some (Okay tt))
      | Error e => Ret (mk_mctx m' w'' (mc_private c), Some (Error (Io e)))
      end
  | _ => Ret (mk_mctx m' w' (mc_private c), res)
  end.

(** muxer.rs:137-139 *)
Definition mux_set_info (c : mctx M W) (g : global_info P) : outcome (mctx M W * option (result unit error)) :=
  let! (m', res) := mx_info mx (mc_muxer c) g in Ret (mk_mctx m' (mc_writer c) (mc_private c), res).

(** muxer.rs:145-150 *)
Definition mux_set_option (c : mctx M W) (key : string) (val : V) : outcome (mctx M W * option (result unit error)) :=
  let! (m', res) := mx_option mx (mc_muxer c) key val in Ret (mk_mctx m' (mc_writer c) (mc_private c), res).

End Context.

(** The calls a client of the context can make. *)
Inductive mux_op (P V : Type) : Type :=
| MConfigure
| MHeader
| MPacket (p : packet)
| MTrailer
| MInfo (g : global_info P)
| MOption (key : string) (val : V).
Arguments MConfigure {P V}.
Arguments MHeader {P V}.
Arguments MPacket {P V}.
Arguments MTrailer {P V}.
Arguments MInfo {P V}.
Arguments MOption {P V}.

Definition mux_step {P V M W : Type} (mx : muxer P V M W) (s : sink W) (c : mctx M W) (op : mux_op P V)
  : outcome (mctx M W * option (result unit error)) :=
  match op with
  | MConfigure => mux_configure mx c
  | MHeader => write_header mx c
  | MPacket p => write_packet mx c p
  | MTrailer => write_trailer mx s c
  | MInfo g => mux_set_info mx c g
  | MOption key val => mux_set_option mx c key val
  end.

(** All calls are made, whatever their results; [None] when one does not return. *)
Fixpoint mux_run {P V M W : Type} (mx : muxer P V M W) (s : sink W) (c : mctx M W) (ops : list (mux_op P V))
  : outcome (mctx M W * option (list (result unit error))) :=
  match ops with
  | [] => Ret (c, Some [])
  | op :: ops' =>
      let! (c1, res) := mux_step mx s c op in
      match res with
      | None => Ret (c1, None)
      | Some r =>
          let! (c2, rest) := mux_run mx s c1 ops' in
          match rest with
          | None => Ret (c2, None)
          | Some rs => Ret (c2, Some (r :: rs))
          end
      end
  end.

(** ** Lookups *)

(** muxer.rs:198-200; [describe_name] is [describe().name] *)
Definition mux_by_name {T : Type} (describe_name : T -> string) (l : list T) (name : string) : option T :=
  find (fun d => String.eqb (describe_name d) name) l.

(** [HashMap<&'static str, Vec<&'static T>>] as the list of its entries; [get] and
    [entry(k).or_default().push(v)] *)
Definition name_map (T : Type) : Type := list (string * list T).
Fixpoint map_get {T : Type} (m : name_map T) (k : string) : option (list T) :=
  match m with
  | [] => None
  | (k', v) :: m' => if String.eqb k' k then Some v else map_get m' k
  end.
Fixpoint map_push {T : Type} (m : name_map T) (k : string) (v : T) : name_map T :=
  match m with
  | [] => [(k, [v])]
  | (k', vs) :: m' => if String.eqb k' k then (k', vs ++ [v]) :: m' else (k', vs) :: map_push m' k v
  end.

Section Codecs.
Context {T : Type}.
(** [describe().codec] *)
Variable codec_of : T -> string.

(** decoder.rs:108-112 and encoder.rs:143-147 (the two registries are the same code) *)
Definition codecs_new : name_map T := [].

(** decoder.rs:115-117, encoder.rs:150-152 *)
Definition codecs_by_name (c : name_map T) (name : string) : outcome (option T) :=
  match map_get c name with
  | None => Ret None
  | Some descs => let! d := index_at descs 0 in Ret (Some d)
  end.

(** decoder.rs:119-123, encoder.rs:154-158 *)
Definition codecs_append (c : name_map T) (desc : T) : name_map T := map_push c (codec_of desc) desc.

(** common.rs:21-28 *)
Definition codecs_from_list (descs : list T) : name_map T := fold_left codecs_append descs codecs_new.

(** decoder.rs:52-59, encoder.rs:50-57 *)
Definition context_by_name {D : Type} (create : T -> D) (c : name_map T) (name : string) : outcome (option D) :=
  let! r := codecs_by_name c name in Ret (option_map create r).

End Codecs.
