(** C187. *)
From Coq Require Import String List Arith NArith ZArith Bool.
From Verif Require Import Base BitModel BitSpec CodebookModel CodebookSpec CodebookExamples.
From Verif Require Import AccModel AccSpec FormatModel DemuxModel DemuxSpec MuxModel MuxSpec MuxProofs PipeSpec PipeProofs MessagePipeSpec.
From Verif Require Import MessagePipeProofs.
Import ListNotations.
Local Open Scope nat_scope.

(** C187: messages over a prefix code are written as the data of packets by a muxer, through the
    muxing context, to any output; the file is read by the demuxing context from any source of these
    bytes; each packet is then decoded with the codebook.  The result is the messages, in order. *)
Theorem C187_messages : forall (Sy P V M D : Type) ord m (ds : list (desc Sy)) cb (em : emitter P V M) (ps : parser P D) m0 d0 info kept agree,
  permuting ord -> valid_description m ds -> new_codebook ord ds m = Ret (Okay cb) ->
  format_pair em ps m0 d0 info kept agree -> (forall p, p_data (kept p) = p_data p) -> incremental ps -> incremental_headers ps ->
  forall (W : Type) (s : sink W) good tape fuel w0 u msgs pkts c',
  keeps s good tape -> good w0 -> tape w0 = [] ->
  Forall (fun msg => Forall (fun d => In d ds /\ used d) msg /\ (N.of_nat (8 * List.length (encode m msg)) < 2 ^ 32)%N) msgs ->
  map p_data pkts = map (encode m) msgs ->
  mux_run (emitter_muxer em s fuel) s (mk_mctx m0 (writer_new w0) u) (MHeader :: map MPacket pkts ++ [MTrailer]) =
    Ret (c', Some (Okay tt :: map (fun _ => Okay tt) pkts ++ [Okay tt])) ->
  exists file, tape (w_inner (mc_writer c')) = map Byte file ++ [Flushed] /\
    forall (S : Type) (i : io S) good' tell cap r0, source_ok i file good' tell -> never_fails i file good' tell -> good' r0 -> tell r0 = 0 ->
      exists n c1 c2 evs,
        read_headers (parser_demuxer ps (acc_buffered i)) (acc_buffered i) n (context_new d0 (with_capacity cap r0)) = Ret (c1, Some (Okay tt)) /\
        read_events (parser_demuxer ps (acc_buffered i)) (acc_buffered i) n (List.length msgs + 1) c1 = Ret (c2, Some (evs ++ [Okay Eof])) /\
        Forall2 (fun msg ev => decode_event m cb (List.length msg) ev = Ret (Some (map (fun d => Okay (d_sym d)) msg))) msgs evs.
Proof. exact messages_through. Qed.
Print Assumptions C187_messages.

(** Three messages, one of them empty, in the length-prefixed format of C87. *)
Definition C187_words : list (desc nat) := [mk_desc 0 1 10; mk_desc 2 2 20; mk_desc 3072 12 30].
Definition C187_sent : list (list (desc nat)) := [[mk_desc 2 2 20; mk_desc 3072 12 30; mk_desc 0 1 10]; []; [mk_desc 0 1 10; mk_desc 0 1 10]].
Definition C187_packets : list packet := map (fun msg => mk_packet (encode MSB msg) None 2 default_time false false) C187_sent.
Example C187_example :
  valid_description MSB C187_words /\ map p_data C187_packets = map (encode MSB) C187_sent /\
  exists cb c' file c1 c2 evs, new_codebook (fun _ cc => cc) C187_words MSB = Ret (Okay cb) /\
    mux_run (emitter_muxer lp_emitter pipe_sink 99) pipe_sink (mctx_new tt (writer_new (mk_pipe [] [Okay 1; Error Interrupted; Okay 9])))
      (MHeader :: map MPacket C187_packets ++ [MTrailer]) = Ret (c', Some [Okay tt; Okay tt; Okay tt; Okay tt; Okay tt]) /\
    pp_marks (w_inner (mc_writer c')) = map Byte file ++ [Flushed] /\
    read_headers (parser_demuxer lp_parser (acc_buffered cursor_io)) (acc_buffered cursor_io) 9
      (context_new tt (with_capacity 1 (mk_cursor file 0 [Deliver 1; Deliver 2; Deliver 4]))) = Ret (c1, Some (Okay tt)) /\
    read_events (parser_demuxer lp_parser (acc_buffered cursor_io)) (acc_buffered cursor_io) 9 4 c1 = Ret (c2, Some (evs ++ [Okay Eof])) /\
    map (fun '(msg, ev) => decode_event MSB cb (List.length msg) ev) (combine C187_sent evs) =
      [Ret (Some [Okay 20; Okay 30; Okay 10]); Ret (Some []); Ret (Some [Okay 10; Okay 10])].
Proof.
  split; [apply validb_sound; vm_compute; reflexivity|]. split; [reflexivity|].
  eexists _, _, _, _, _, (map (fun p => Okay (stamped lp_info (NewPacket (lp_kept p)))) C187_packets).
  split; [vm_compute; reflexivity|]. split; [vm_compute; reflexivity|].
  split; [cbn [w_inner mc_writer pp_marks]; instantiate (1 := [76; 80]%N ++ flat_map lp_record C187_packets ++ [255; 255; 255; 255]%N); vm_compute; reflexivity|].
  split; [vm_compute; reflexivity|]. split; [vm_compute; reflexivity|]. vm_compute; reflexivity.
Qed.
