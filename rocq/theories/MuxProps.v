(** C41-C47: streams, writer, muxer context, registries. *)
From Coq Require Import List Arith NArith ZArith Bool String.
From Verif Require Import Base AccModel FormatModel MuxModel MuxSpec MuxProofs MuxMain.
Import ListNotations.
Local Open Scope nat_scope.

(** C41 *)
Theorem C41_add_stream : forall (P : Type) (g g' : global_info P) st k, add_stream g st = (g', k) ->
  k = N.of_nat (List.length (g_streams g)) /\
  g_duration g' = g_duration g /\ g_timebase g' = g_timebase g /\
  exists st', g_streams g' = g_streams g ++ [st'] /\ s_index st' = k /\ same_stream st' st /\
    ((0 <= s_id st)%Z -> s_id st' = s_id st) /\ ((s_id st < 0)%Z -> s_id st' = as_isize (s_index st)).
Proof. exact @add_stream_spec. Qed.
Print Assumptions C41_add_stream.

(** Any number of streams: the indices handed out and stored are consecutive. *)
Theorem C41_consecutive : forall (P : Type) (l : list (stream P)) g g' ks, add_streams g l = (g', ks) ->
  ks = map (fun k => N.of_nat (List.length (g_streams g) + k)) (seq 0 (List.length l)) /\
  exists l', g_streams g' = g_streams g ++ l' /\ Forall2 same_stream l' l /\ map s_index l' = ks /\
    Forall2 (fun st' st => s_id st' = if (s_id st <? 0)%Z then as_isize (s_index st) else s_id st) l' l.
Proof. exact @add_streams_spec. Qed.
Print Assumptions C41_consecutive.

Example C41_example :
  add_streams (mk_info None (Some (1, 90)%Z) []) [stream_from_params 7 (1, 2)%Z; mk_stream 44 9%N 8 (Some 1%N) None (1, 3)%Z None] =
  (mk_info None (Some (1, 90)%Z) [mk_stream 0 0%N 7 None None (1, 2)%Z None; mk_stream 44 1%N 8 (Some 1%N) None (1, 3)%Z None], [0; 1]%N).
Proof. vm_compute; reflexivity. Qed.

(** C42 is false: two streams made by [Stream::from_params] get the same id. *)
Theorem C42_automatic_ids_refuted :
  exists (a b : stream unit), a = stream_from_params tt (1, 25)%Z /\ b = stream_from_params tt (1, 25)%Z /\
    (s_id a < 0)%Z /\ (s_id b < 0)%Z /\
    map s_id (g_streams (fst (add_streams (mk_info None None []) [a; b]))) = [0; 0]%Z.
Proof. exact c42_automatic_ids_refuted. Qed.
Print Assumptions C42_automatic_ids_refuted.

(** The id is the index the stream had before it was added, so the ids are unique
    exactly when the caller has set distinct indices. *)
Theorem C42_automatic_ids_partial : forall (P : Type) (l : list (stream P)) g ks,
  add_streams (mk_info None None []) l = (g, ks) ->
  (forall st, In st l -> (s_id st < 0)%Z /\ (s_index st < 2 ^ 63)%N) -> NoDup (map s_index l) <-> NoDup (map s_id (g_streams g)).
Proof. exact @auto_ids_unique. Qed.
Print Assumptions C42_automatic_ids_partial.

Example C42_example :
  map s_id (g_streams (fst (add_streams (mk_info None None [])
    [mk_stream (-1) 5%N tt None None (1, 1)%Z None; mk_stream (-7) 3%N tt None None (1, 1)%Z None]))) = [5; 3]%Z.
Proof. vm_compute; reflexivity. Qed.

(** C43 *)
Theorem C43_by_name : forall (T : Type) (name_of : T -> string) l name d,
  mux_by_name name_of l name = Some d <-> first_named name_of l name d.
Proof. exact @find_named. Qed.
Print Assumptions C43_by_name.

Theorem C43_by_name_none : forall (T : Type) (name_of : T -> string) l name,
  mux_by_name name_of l name = None <-> forall x, In x l -> name_of x <> name.
Proof. exact @find_unnamed. Qed.
Print Assumptions C43_by_name_none.

Example C43_example :
  mux_by_name fst [("avi", 1); ("mkv", 2); ("mkv", 3)]%string "mkv" = Some ("mkv", 2)%string /\
  mux_by_name fst [("avi", 1); ("mkv", 2)]%string "mk" = None.
Proof. split; vm_compute; reflexivity. Qed.

(** C44: the position of a writer is the position of its output, after any calls. *)
Theorem C44_position : forall (W : Type) (s : sink W) good tell w0 ops w' outs,
  sink_ok s good tell -> good w0 -> tell w0 = 0 -> writer_run s (writer_new w0) ops = Ret (w', outs) ->
  writer_position w' = tell (w_inner w').
Proof. exact c44_position. Qed.
Print Assumptions C44_position.

(** Without seeks it is the number of accepted bytes, for any output at all. *)
Theorem C44_accepted_bytes : forall (W : Type) (s : sink W) w0 ops w' outs,
  forallb plain_op ops = true -> writer_run s (writer_new w0) ops = Ret (w', outs) -> writer_position w' = accepted outs.
Proof. exact c44_accepted_bytes. Qed.
Print Assumptions C44_accepted_bytes.

Theorem C44_write_all : forall (W : Type) (s : sink W) fuel w buf w',
  write_all (writer_sink s) fuel w buf = Ret (w', Some (Okay tt)) -> writer_position w' = writer_position w + List.length buf.
Proof. exact @write_all_counts. Qed.
Print Assumptions C44_write_all.

(** On an output that is not at position 0 the writer is behind by that much until a
    seek succeeds. *)
Theorem C44_displaced : forall (W : Type) (s : sink W) good tell w0 ops w' outs,
  sink_ok s good tell -> good w0 -> forallb no_seek ops = true -> writer_run s (writer_new w0) ops = Ret (w', outs) ->
  writer_position w' + tell w0 = tell (w_inner w').
Proof. exact c44_displaced. Qed.
Print Assumptions C44_displaced.

Example C44_example :
  sink_ok file_sink (fun _ => True) f_pos /\
  exists outs, writer_run file_sink (writer_new (mk_file [] 0 0 [Okay 2; Error Interrupted; Okay 1]))
    [WWrite [1; 2; 3]%N; WAll 9 [4; 5]%N; WSeek (Start 1); WSeek (Current (-9)); WWrite [7; 8]%N; WFlush] =
    Ret (mk_writer (mk_file [1; 7; 8; 5]%N 3 1 []) 3, outs).
Proof. split; [exact file_ok|]. eexists. vm_compute; reflexivity. Qed.

(** C45: each call reaches the muxer exactly once and in order ([logged] notes the
    calls it gets and is otherwise the given muxer). *)
Theorem C45_calls_in_order : forall (P V M W : Type) (mx : muxer P V M W) s ops m l w u c' rs,
  mux_run mx s (mk_mctx m w u) ops = Ret (c', Some rs) ->
  mux_run (logged mx) s (mk_mctx (m, l) w u) ops = Ret (mk_mctx (mc_muxer c', l ++ ops) (mc_writer c') (mc_private c'), Some rs) /\
  List.length rs = List.length ops /\ mc_private c' = u.
Proof. exact @logged_run. Qed.
Print Assumptions C45_calls_in_order.

(** For muxers that append, the output grows by what the calls produced, in order:
    everything for calls that succeed, an initial part for calls that fail on the
    output; there is a flush exactly at the end of each successful trailer. *)
Theorem C45_output : forall (P V M W : Type) (em : emitter P V M) (s : sink W) good tape fuel ops c c' rs,
  keeps s good tape -> good (w_inner (mc_writer c)) ->
  mux_run (emitter_muxer em s fuel) s c ops = Ret (c', Some rs) ->
  exists marks, tape (w_inner (mc_writer c')) = tape (w_inner (mc_writer c)) ++ marks /\
    output em (mc_muxer c) ops rs (mc_muxer c') marks.
Proof. exact c45_output. Qed.
Print Assumptions C45_output.

(** If the output accepts everything, possibly in pieces, every call returns and the
    output is the concatenation. *)
Theorem C45_whole_output : forall (P V M W : Type) (em : emitter P V M) (s : sink W) good tape ops m w u m' rs marks,
  keeps s good tape -> accepts s good -> good (w_inner w) -> whole_output em m ops = (m', rs, marks) ->
  exists fuel c', mux_run (emitter_muxer em s fuel) s (mk_mctx m w u) ops = Ret (c', Some rs) /\
    mc_muxer c' = m' /\ tape (w_inner (mc_writer c')) = tape (w_inner w) ++ marks.
Proof. exact c45_whole_output. Qed.
Print Assumptions C45_whole_output.

(** The muxer of the project's tests, but numbering its packets; it refuses an empty
    packet. *)

Example C45_example :
  keeps pipe_sink generous pp_marks /\ accepts pipe_sink generous /\
  whole_output ex_emitter 0%N [MConfigure; MHeader; MPacket (packet_zeroed 2); MPacket packet_new; MPacket (packet_zeroed 1); MTrailer] =
    (2%N, [Okay tt; Okay tt; Okay tt; Error InvalidData; Okay tt; Okay tt],
     [Byte 68%N; Byte 72%N; Byte 0%N; Byte 0%N; Byte 0%N; Byte 1%N; Byte 0%N; Byte 84%N; Flushed]) /\
  exists c', mux_run (emitter_muxer ex_emitter pipe_sink 9) pipe_sink (mctx_new 0%N (writer_new (mk_pipe [] [Okay 1; Okay 1; Okay 2; Okay 1])))
    [MConfigure; MHeader; MPacket (packet_zeroed 2); MPacket packet_new; MPacket (packet_zeroed 1); MTrailer] =
    Ret (c', Some [Okay tt; Okay tt; Okay tt; Error InvalidData; Okay tt; Okay tt]) /\
    w_inner (mc_writer c') = mk_pipe [Byte 68%N; Byte 72%N; Byte 0%N; Byte 0%N; Byte 0%N; Byte 1%N; Byte 0%N; Byte 84%N; Flushed] [].
Proof.
  split; [exact pipe_keeps_generous|]. split; [exact pipe_accepts|]. split; [vm_compute; reflexivity|].
  eexists. split; vm_compute; reflexivity.
Qed.

(** A trailer that fails half-way is not followed by a flush. *)
Example C45_example_failure :
  exists c', mux_run (emitter_muxer ex_emitter pipe_sink 9) pipe_sink (mctx_new 0%N (writer_new (mk_pipe [] [Okay 1; Error (OtherError 28)])))
    [MHeader; MTrailer] = Ret (c', Some [Error (Io (OtherError 28)); Okay tt]) /\
    pp_marks (w_inner (mc_writer c')) = [Byte 68%N; Byte 84%N; Flushed] /\
  exists c'', mux_run (emitter_muxer ex_emitter pipe_sink 9) pipe_sink (mctx_new 0%N (writer_new (mk_pipe [] [Okay 2; Error (OtherError 28)])))
    [MHeader; MTrailer] = Ret (c'', Some [Okay tt; Error (Io (OtherError 28))]) /\
    pp_marks (w_inner (mc_writer c'')) = [Byte 68%N; Byte 72%N].
Proof. eexists. split; [vm_compute; reflexivity|]. split; [vm_compute; reflexivity|]. eexists. split; vm_compute; reflexivity. Qed.

(** C46: lookup in a registry built from a list returns the first codec of that
    name; [codecs_by_name] does not panic. *)
Theorem C46_lookup : forall (T : Type) (codec_of : T -> string) l name,
  exists r, codecs_by_name (codecs_from_list codec_of l) name = Ret r /\
    (forall d, r = Some d <-> first_named codec_of l name d) /\
    (r = None <-> forall x, In x l -> codec_of x <> name).
Proof. exact c46_lookup. Qed.
Print Assumptions C46_lookup.

(** A decoder or encoder context is created from that descriptor. *)
Theorem C46_context_by_name : forall (T D : Type) (codec_of : T -> string) (create : T -> D) l name,
  exists r, context_by_name create (codecs_from_list codec_of l) name = Ret r /\
    (forall d, first_named codec_of l name d -> r = Some (create d)) /\
    (r = None <-> forall x, In x l -> codec_of x <> name).
Proof. exact c46_context_by_name. Qed.
Print Assumptions C46_context_by_name.

Example C46_example :
  codecs_by_name (codecs_from_list fst [("vp9", 1); ("opus", 2); ("vp9", 3)]%string) "vp9" = Ret (Some ("vp9", 1)%string) /\
  codecs_by_name (codecs_from_list fst [("vp9", 1); ("opus", 2); ("vp9", 3)]%string) "vp8" = Ret None /\
  context_by_name snd (codecs_from_list fst [("vp9", 1); ("opus", 2); ("vp9", 3)]%string) "opus" = Ret (Some 2).
Proof. repeat (apply conj; [vm_compute; reflexivity|]). vm_compute; reflexivity. Qed.

(** C47 *)
Theorem C47_append_keeps_lookups : forall (T : Type) (codec_of : T -> string) l1 l2 name d,
  codecs_by_name (codecs_from_list codec_of l1) name = Ret (Some d) ->
  codecs_by_name (codecs_from_list codec_of (l1 ++ l2)) name = Ret (Some d).
Proof. exact @from_list_app. Qed.
Print Assumptions C47_append_keeps_lookups.

Theorem C47_append_commutes : forall (T : Type) (codec_of : T -> string) l1 l2 a b name, codec_of a <> codec_of b ->
  codecs_by_name (codecs_from_list codec_of (l1 ++ a :: b :: l2)) name =
  codecs_by_name (codecs_from_list codec_of (l1 ++ b :: a :: l2)) name.
Proof. exact @append_commute. Qed.
Print Assumptions C47_append_commutes.

Example C47_example :
  codecs_by_name (codecs_from_list fst [("vp9", 1); ("av1", 4)]%string) "vp9" = Ret (Some ("vp9", 1)%string) /\
  codecs_by_name (codecs_from_list fst [("vp9", 1); ("av1", 4); ("vp9", 7)]%string) "vp9" = Ret (Some ("vp9", 1)%string).
Proof. split; vm_compute; reflexivity. Qed.
