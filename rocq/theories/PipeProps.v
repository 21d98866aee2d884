(** C87: what a muxer wrote is what a demuxer reads. *)
From Coq Require Import List Arith NArith ZArith Bool String.
From Verif Require Import Base AccModel AccSpec FormatModel DemuxModel DemuxSpec DemuxExamples MuxModel MuxSpec MuxProofs PipeSpec PipeProofs.
Import ListNotations.
Local Open Scope nat_scope.

(** [read_headers] and then any number of calls of [read_event] give the decisions of
    the parser about the whole source: first about the headers, then about the rest,
    from the position the headers asked for. *)
Theorem C31_headers_then_events : forall (S P D : Type) (i : io S) src good tell (ps : parser P D) cap r0 d calls rs,
  source_ok i src good tell -> never_fails i src good tell -> incremental ps -> incremental_headers ps -> good r0 -> tell r0 = 0 ->
  (exists n c1 c2,
     read_headers (parser_demuxer ps (acc_buffered i)) (acc_buffered i) n (context_new d (with_capacity cap r0)) = Ret (c1, Some (Okay tt)) /\
     read_events (parser_demuxer ps (acc_buffered i)) (acc_buffered i) n calls c1 = Ret (c2, Some rs)) <->
  (exists d1 info1 s m d' p' info', ps_headers ps d src (mk_info None None []) = (d1, info1, Okay s) /\
     all_events ps src m calls d1 (Z.to_nat (target (List.length src) 0 s)) info1 = Some (d', p', info', rs)).
Proof. exact c31_headers_then_events. Qed.
Print Assumptions C31_headers_then_events.

Example C31_headers_then_events_example :
  all_events lp_parser [76; 80; 1; 0; 0; 0; 0; 0; 0; 0; 0; 0; 0; 2; 3; 99; 5]%N 1 2 tt 2 lp_info =
  Some (tt, 16, lp_info, [Okay (NewPacket (mk_packet [99]%N None 2 (mk_time None None None (Some (1, 48000)%Z) None) true true)); Okay Eof]).
Proof. vm_compute. reflexivity. Qed.

(** For a muxer and a parser that agree about a format: headers, any packets and the
    trailer are written through the [Writer] and the muxer context to an output of any
    kind; some packets may be refused by the muxer.  If the output made none of the
    calls fail, then the demuxer context and the [AccReader], over any source of the
    bytes the output received and with any capacity, give back the packets written, in
    order, and then the end. *)
Theorem C87_mux_then_demux : forall (P V M D : Type) (em : emitter P V M) (ps : parser P D) m0 d0 info kept agree,
  format_pair em ps m0 d0 info kept agree ->
  forall (W : Type) (s : sink W) good tape fuel w0 u pkts c' prs,
  keeps s good tape -> good w0 -> tape w0 = [] -> incremental ps -> incremental_headers ps ->
  mux_run (emitter_muxer em s fuel) s (mk_mctx m0 (writer_new w0) u) (MHeader :: map MPacket pkts ++ [MTrailer]) =
    Ret (c', Some (Okay tt :: prs ++ [Okay tt])) ->
  List.length prs = List.length pkts -> existsb io_failure prs = false ->
  exists file, tape (w_inner (mc_writer c')) = map Byte file ++ [Flushed] /\
    forall (S : Type) (i : io S) good' tell cap r0, source_ok i file good' tell -> never_fails i file good' tell -> good' r0 -> tell r0 = 0 ->
     exists n c1 c2,
       read_headers (parser_demuxer ps (acc_buffered i)) (acc_buffered i) n (context_new d0 (with_capacity cap r0)) = Ret (c1, Some (Okay tt)) /\
       c_info c1 = info /\
       read_events (parser_demuxer ps (acc_buffered i)) (acc_buffered i) n (List.length (written pkts prs) + 1) c1 =
         Ret (c2, Some (map (fun p => Okay (stamped info (NewPacket (kept p)))) (written pkts prs) ++ [Okay Eof])).
Proof. exact @mux_then_demux. Qed.
Print Assumptions C87_mux_then_demux.

(** There is such a format.  Its muxer and parser use the byte functions of the
    bitstream crate; every list of packets shorter than 2^32-1 bytes each survives. *)
Theorem C87_length_prefixed : forall (W : Type) (s : sink W) good tape w0 u pkts,
  keeps s good tape -> accepts s good -> good w0 -> tape w0 = [] -> forallb lp_fits pkts = true ->
  exists fuel c' file,
    mux_run (emitter_muxer lp_emitter s fuel) s (mk_mctx tt (writer_new w0) u) (MHeader :: map MPacket pkts ++ [MTrailer]) =
      Ret (c', Some (Okay tt :: map (fun _ => Okay tt) pkts ++ [Okay tt])) /\
    tape (w_inner (mc_writer c')) = map Byte file ++ [Flushed] /\
    forall (S : Type) (i : io S) good' tell cap r0, source_ok i file good' tell -> never_fails i file good' tell -> good' r0 -> tell r0 = 0 ->
      exists n c1 c2,
        read_headers (parser_demuxer lp_parser (acc_buffered i)) (acc_buffered i) n (context_new tt (with_capacity cap r0)) = Ret (c1, Some (Okay tt)) /\
        c_info c1 = lp_info /\
        read_events (parser_demuxer lp_parser (acc_buffered i)) (acc_buffered i) n (List.length pkts + 1) c1 =
          Ret (c2, Some (map (fun p => Okay (stamped lp_info (NewPacket (lp_kept p)))) pkts ++ [Okay Eof])).
Proof. exact length_prefixed. Qed.
Print Assumptions C87_length_prefixed.

(** Two packets, one of them of a stream without timebase, written in pieces with an
    interruption, read in pieces into a buffer of one byte. *)
Example C87_example :
  let p1 := mk_packet [7; 8]%N (Some 5%N) 2 (mk_time (Some 3%Z) None None None None) true false in
  let p2 := mk_packet []%N None (-9) default_time false true in
  let file := [76; 80; 2; 0; 0; 0; 0; 0; 0; 0; 0; 0; 0; 2; 1; 7; 8; 0; 0; 0; 0; 255; 255; 255; 255; 255; 255; 255; 247; 2; 255; 255; 255; 255]%N in
  format_pair lp_emitter lp_parser tt tt lp_info lp_kept (fun _ _ => True) /\ incremental lp_parser /\ incremental_headers lp_parser /\
  exists c', mux_run (emitter_muxer lp_emitter pipe_sink 40) pipe_sink (mctx_new tt (writer_new (mk_pipe [] [Okay 1; Error Interrupted; Okay 9; Okay 3])))
    [MHeader; MPacket p1; MPacket (mk_packet [1]%N None (2 ^ 63) default_time false false); MPacket p2; MTrailer] =
    Ret (c', Some [Okay tt; Okay tt; Error InvalidData; Okay tt; Okay tt]) /\
  pp_marks (w_inner (mc_writer c')) = map Byte file ++ [Flushed] /\
  exists c1 c2,
    read_headers (parser_demuxer lp_parser (acc_buffered cursor_io)) (acc_buffered cursor_io) 9
      (context_new tt (with_capacity 1 (mk_cursor file 0 [Deliver 1; Deliver 2; Deliver 4]))) = Ret (c1, Some (Okay tt)) /\
    read_events (parser_demuxer lp_parser (acc_buffered cursor_io)) (acc_buffered cursor_io) 9 3 c1 =
      Ret (c2, Some [Okay (NewPacket (mk_packet [7; 8]%N None 2 (mk_time None None None (Some (1, 48000)%Z) None) true false));
                     Okay (NewPacket (mk_packet [] None (-9) default_time false true)); Okay Eof]).
Proof.
  cbv zeta. split; [exact (lp_pair tt)|]. split; [exact lp_incremental|]. split; [exact lp_headers|].
  eexists. split; [vm_compute; reflexivity|]. split; [vm_compute; reflexivity|].
  eexists _, _. split; [vm_compute; reflexivity|]. vm_compute; reflexivity.
Qed.
