(** C179: what a program writes that reads, decodes, encodes and writes. *)
From Coq Require Import String List Arith NArith ZArith Bool.
From Verif Require Import Base AccModel AccSpec FormatModel FrameModel DemuxModel DemuxSpec MuxModel MuxSpec MuxProofs.
From Verif Require Import CodecModel PipeSpec PipeProofs TranscodeSpec TranscodeProofs.
Import ListNotations.
Local Open Scope nat_scope.

(** The program, which works on each event before it reads the next, ends as the computation on the bytes alone does, with
    the same calls' results and the same output, for every way the source cuts its reads, every capacity and every way the
    output cuts its writes. *)
Theorem C179_output : forall (S P V D M W K : Type) (i : io S) src good tell (ps : parser P D) (em : emitter P V M) (s : sink W) goodw tape (cl : client P V K)
    first calls rounds cap r0 d k m w0 u,
  source_ok i src good tell -> never_fails i src good tell -> incremental ps -> incremental_headers ps -> good r0 -> tell r0 = 0 ->
  keeps s goodw tape -> accepts s goodw -> goodw w0 ->
  exists n0, forall n, n0 <= n ->
  match transcoded ps em cl src first rounds calls d k m with
  | Ret (Some (k', rss, marks)) => exists c mc,
      transcode (parser_demuxer ps (acc_buffered i)) (acc_buffered i) (emitter_muxer em s n) s cl first n calls
        (context_new d (with_capacity cap r0)) k (mk_mctx m (writer_new w0) u) = Ret (c, k', mc, Some rss) /\
      tape (w_inner (mc_writer mc)) = tape w0 ++ marks
  | Ret None => True
  | Panic => transcode (parser_demuxer ps (acc_buffered i)) (acc_buffered i) (emitter_muxer em s n) s cl first n calls
        (context_new d (with_capacity cap r0)) k (mk_mctx m (writer_new w0) u) = Panic
  | UB => transcode (parser_demuxer ps (acc_buffered i)) (acc_buffered i) (emitter_muxer em s n) s cl first n calls
        (context_new d (with_capacity cap r0)) k (mk_mctx m (writer_new w0) u) = UB
  end.
Proof. exact transcoding. Qed.
Print Assumptions C179_output.

(** With a parser that only skips forward it does end, whatever the file, and larger bounds change nothing. *)
Theorem C179_ends : forall (P V D M K : Type) src (ps : parser P D) (em : emitter P V M) (cl : client P V K),
  skips_forward ps -> forall first calls d k m d1 info1 sk,
  ps_headers ps d src (mk_info None None []) = (d1, info1, Okay sk) ->
  exists rounds, transcoded ps em cl src first rounds calls d k m <> Ret None.
Proof. exact @transcoded_total. Qed.
Print Assumptions C179_ends.

Theorem C179_stable : forall (P V D M K : Type) (ps : parser P D) (em : emitter P V M) (cl : client P V K) src first calls d k m n r,
  transcoded ps em cl src first n calls d k m <> Ret None -> n <= r ->
  transcoded ps em cl src first r calls d k m = transcoded ps em cl src first n calls d k m.
Proof. exact transcoded_stable. Qed.
Print Assumptions C179_stable.

(** So the same file gives the same output, however it is read and written. *)
Theorem C179_same_output : forall (S S' P V D M W W' K : Type) (i : io S) (i' : io S') src good tell good' tell' (ps : parser P D) (em : emitter P V M)
    (s : sink W) goodw tape (s' : sink W') goodw' tape' (cl : client P V K) first calls cap cap' r0 r0' d k m w0 u w0' u' d1 info1 sk,
  source_ok i src good tell -> never_fails i src good tell -> good r0 -> tell r0 = 0 ->
  source_ok i' src good' tell' -> never_fails i' src good' tell' -> good' r0' -> tell' r0' = 0 ->
  keeps s goodw tape -> accepts s goodw -> goodw w0 -> tape w0 = [] ->
  keeps s' goodw' tape' -> accepts s' goodw' -> goodw' w0' -> tape' w0' = [] ->
  incremental ps -> incremental_headers ps -> skips_forward ps -> ps_headers ps d src (mk_info None None []) = (d1, info1, Okay sk) ->
  exists n0, forall n, n0 <= n ->
  match transcode (parser_demuxer ps (acc_buffered i)) (acc_buffered i) (emitter_muxer em s n) s cl first n calls
          (context_new d (with_capacity cap r0)) k (mk_mctx m (writer_new w0) u),
        transcode (parser_demuxer ps (acc_buffered i')) (acc_buffered i') (emitter_muxer em s' n) s' cl first n calls
          (context_new d (with_capacity cap' r0')) k (mk_mctx m (writer_new w0') u') with
  | Ret (_, k1, mc1, Some rss1), Ret (_, k2, mc2, Some rss2) =>
      k1 = k2 /\ rss1 = rss2 /\ tape (w_inner (mc_writer mc1)) = tape' (w_inner (mc_writer mc2))
  | Panic, Panic => True
  | UB, UB => True
  | _, _ => False
  end.
Proof. exact transcoding_same. Qed.
Print Assumptions C179_same_output.

(** A program that decodes and encodes through the contexts writes what one writes that calls the codecs themselves. *)
Theorem C179_contexts : forall (P V D E : Type) (dd : decoder D) (en : encoder E) (DD M : Type) (ps : parser P DD) (em : emitter P V M)
    src most first calls rounds d k m,
  transcoded ps em (codec_client (context_methods dd en) most) src first rounds calls d (in_contexts k) m =
  match transcoded ps em (codec_client (bare_methods dd en) most) src first rounds calls d k m with
  | Ret (Some (k', rss, marks)) => Ret (Some (in_contexts k', rss, marks))
  | Ret None => Ret None
  | Panic => Panic
  | UB => UB
  end.
Proof. exact @transcoded_wrapped. Qed.
Print Assumptions C179_contexts.

(** Two packets decoded, encoded backwards and written behind each other, read in pieces of one and two bytes and written in
    pieces. *)
Example C179_example :
  let file := [76; 80; 2; 0; 0; 0; 0; 0; 0; 0; 0; 0; 0; 2; 1; 7; 8; 1; 0; 0; 0; 0; 0; 0; 0; 0; 0; 0; 2; 2; 9; 255; 255; 255; 255]%N in
  let out := [76; 80; 2; 0; 0; 0; 0; 0; 0; 0; 0; 0; 0; 2; 0; 8; 7; 1; 0; 0; 0; 0; 0; 0; 0; 0; 0; 0; 2; 0; 9; 1; 0; 0; 0; 0; 0; 0; 0; 0; 0; 0; 2; 0; 2; 255; 255; 255; 255]%N in
  skips_forward lp_parser /\
  transcoded lp_parser lp_emitter (codec_client (context_methods ex_decoder ex_encoder) 5) file (fun g => [MInfo g; MHeader]) 2 3 tt
    (in_contexts ([], (0, []))) tt =
    Ret (Some (in_contexts ([], (2, [])), [[Okay tt; Okay tt]; [Okay tt]; [Okay tt]; [Okay tt; Okay tt]], map Byte out ++ [Flushed])) /\
  match transcode (parser_demuxer lp_parser (acc_buffered cursor_io)) (acc_buffered cursor_io) (emitter_muxer lp_emitter pipe_sink 60) pipe_sink
      (codec_client (context_methods ex_decoder ex_encoder) 5) (fun g => [MInfo g; MHeader]) 20 3
      (context_new tt (with_capacity 1 (mk_cursor file 0 [Deliver 1; Deliver 2; Deliver 1]))) (in_contexts ([], (0, [])))
      (mctx_new tt (writer_new (mk_pipe [] [Okay 1; Okay 9; Okay 3]))) with
  | Ret (_, _, mc, Some _) => pp_marks (w_inner (mc_writer mc)) = map Byte out ++ [Flushed]
  | _ => False
  end.
Proof.
  cbv zeta. split.
  { intros d dat d' s n H. cbn [lp_parser ps_event] in H. destruct (_ <? 4); [discriminate|]. destruct (_ =? lp_end)%N; [discriminate|].
    destruct (_ <? _)%N; discriminate. }
  split; [vm_compute; reflexivity|]. vm_compute. reflexivity.
Qed.
