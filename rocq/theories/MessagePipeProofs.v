(** Messages through a file. *)
From Coq Require Import String List Arith NArith ZArith Bool Lia.
From Verif Require Import Base BitModel BitSpec CodebookModel CodebookSpec CodebookProofs5.
From Verif Require Import AccModel AccSpec FormatModel DemuxModel DemuxSpec MuxModel MuxSpec MuxProofs PipeSpec PipeProofs MessagePipeSpec.
Import ListNotations.
Local Open Scope nat_scope.

Lemma decode_run : forall (S P : Type) m (cb : codebook S) (msg : list (desc S)) (p : packet) r0 r,
  new (reader_for m) (p_data p) = Ret r0 ->
  run_mixed (reader_for m) cb r0 (map Codeword msg) = Ret (r, map (fun d => Sym (Okay (d_sym d))) msg) ->
  decode_event m cb (length msg) (Okay (NewPacket p) : result (event P) error) = Ret (Some (map (fun d => Okay (d_sym d)) msg)).
Proof.
  intros S P m cb msg p r0 r E0 E. cbn [decode_event]. rewrite E0. cbn [obind]. clear E0. revert r0 r E.
  induction msg as [|d msg IH]; intros r0 r E; [reflexivity|]. cbn [map run_mixed length] in *.
  destruct (read_cb (reader_for m) cb r0) as [[r1 x]| |]; try discriminate E. cbn [obind] in *.
  destruct (run_mixed (reader_for m) cb r1 (map Codeword msg)) as [[r2 os]| |] eqn:E2; try discriminate E. cbn [obind] in *.
  injection E as E3 E4 E5. subst r2 x os. rewrite (IH r1 r E2). reflexivity.
Qed.

Lemma stamped_packet : forall (P : Type) (info : global_info P) p, exists p', stamped info (NewPacket p) = NewPacket p' /\ p_data p' = p_data p.
Proof.
  intros P info p. cbn [stamped]. destruct (t_timebase (p_t p)); [exists p; auto|].
  destruct (first_stream (g_streams info) (p_stream_index p)); eexists; split; reflexivity.
Qed.

Lemma written_all : forall pkts, written pkts (map (fun _ => Okay tt) pkts) = pkts.
Proof. induction pkts as [|p pkts IH]; [reflexivity|]. cbn [map written]. rewrite IH. reflexivity. Qed.

Lemma messages_through : forall (Sy P V M D : Type) ord m (ds : list (desc Sy)) cb (em : emitter P V M) (ps : parser P D) m0 d0 info kept agree,
  permuting ord -> valid_description m ds -> new_codebook ord ds m = Ret (Okay cb) ->
  format_pair em ps m0 d0 info kept agree -> (forall p, p_data (kept p) = p_data p) -> incremental ps -> incremental_headers ps ->
  forall (W : Type) (s : sink W) good tape fuel w0 u msgs pkts c',
  keeps s good tape -> good w0 -> tape w0 = [] ->
  Forall (fun msg => Forall (fun d => In d ds /\ used d) msg /\ (N.of_nat (8 * List.length (encode m msg)) < 2 ^ 32)%N) msgs ->
  map p_data pkts = map (encode m) msgs ->
  mux_run (emitter_muxer em s fuel) s (mk_mctx m0 (writer_new w0) u) (MHeader :: map MPacket pkts ++ [MTrailer]) =
    Ret (c', Some (Okay tt :: map (fun _ => Okay tt) pkts ++ [Okay tt])) ->
  exists file, tape (w_inner (mc_writer c')) = map Byte file ++ [Flushed] /\
    forall (S : Type) (i : io S) good' tell cap r0, source_ok i file good' tell -> never_fails i file good' tell -> good' r0 -> tell r0 = 0 ->
      exists n c1 c2 evs,
        read_headers (parser_demuxer ps (acc_buffered i)) (acc_buffered i) n (context_new d0 (with_capacity cap r0)) = Ret (c1, Some (Okay tt)) /\
        read_events (parser_demuxer ps (acc_buffered i)) (acc_buffered i) n (List.length msgs + 1) c1 = Ret (c2, Some (evs ++ [Okay Eof])) /\
        Forall2 (fun msg ev => decode_event m cb (List.length msg) ev = Ret (Some (map (fun d => Okay (d_sym d)) msg))) msgs evs.
Proof.
  intros Sy P V M D ord m ds cb em ps m0 d0 info kept agree Hord Hds Hcb Hfp Hk Hi Hh W s good tape fuel w0 u msgs pkts c' Hs Hg Ht Hm Hp E.
  destruct (mux_then_demux em ps m0 d0 info kept agree Hfp W s good tape fuel w0 u pkts c' (map (fun _ => Okay tt) pkts) Hs Hg Ht Hi Hh E) as [file [Ef Hr]].
  - apply map_length.
  - clear. induction pkts as [|p pkts IH]; [reflexivity|exact IH].
  - exists file. split; [exact Ef|]. intros S i good' tell cap r0 H1 H2 H3 H4. destruct (Hr S i good' tell cap r0 H1 H2 H3 H4) as [n [c1 [c2 [E1 [_ E2]]]]].
    rewrite written_all in E2. assert (L : List.length pkts = List.length msgs).
    { rewrite <- (map_length p_data), Hp, map_length. reflexivity. }
    rewrite L in E2. exists n, c1, c2, (map (fun p => Okay (stamped info (NewPacket (kept p)))) pkts).
    split; [exact E1|]. split; [exact E2|]. clear - Hord Hds Hcb Hk Hm Hp.
    revert pkts Hp Hm. induction msgs as [|msg msgs IH]; intros pkts Hp Hm; destruct pkts as [|p pkts]; try discriminate Hp; [constructor|].
    cbn [map] in *. injection Hp as Hp1 Hp2. inversion Hm as [|? ? [Hm1 Hm2] Hm3]; subst. constructor; [|apply IH; assumption].
    destruct (stamped_packet P info (kept p)) as [p' [-> Ed]]. rewrite Hk, Hp1 in Ed.
    destruct (message_round_trip Sy ord m ds msg cb Hord Hds Hcb Hm1 Hm2) as [r0 [r [Er0 [Er _]]]]. rewrite <- Ed in Er0.
    exact (decode_run Sy P m cb msg p' r0 r Er0 Er).
Qed.
