(** Programs that read one file and write another. *)
From Coq Require Import String List Arith NArith ZArith Bool Lia.
From Coq Require Import ZifyBool ZifyNat ZifyN.
From Verif Require Import Base AccModel AccSpec AccProofs FormatModel FrameModel DemuxModel DemuxSpec DemuxProofs DemuxProofs2 DemuxProofs3.
From Verif Require Import MuxModel MuxSpec MuxProofs CodecModel PipeProofs TranscodeSpec.
Import ListNotations.
Local Open Scope nat_scope.

Lemma output_kept : forall (P V M W : Type) (em : emitter P V M) (s : sink W) good tape fuel ops c c' rs,
  keeps s good tape -> good (w_inner (mc_writer c)) -> mux_run (emitter_muxer em s fuel) s c ops = Ret (c', Some rs) ->
  good (w_inner (mc_writer c')).
Proof.
  intros P V M W em s good tape fuel ops. induction ops as [|op ops IH]; intros c c' rs Hk Hg E; cbn [mux_run] in E.
  - injection E as <- _. exact Hg.
  - destruct (mux_step (emitter_muxer em s fuel) s c op) as [[c1 [r|]]| |] eqn:E1; try discriminate. cbn [obind] in E.
    destruct (mux_run (emitter_muxer em s fuel) s c1 ops) as [[c2 [rs'|]]| |] eqn:E2; try discriminate. cbn [obind] in E.
    injection E as <- _. destruct c as [m w u]. cbn [mc_writer] in Hg.
    destruct (step_output em s good tape Hk _ _ _ _ _ _ _ Hg E1) as [_ [_ [K2 _]]]. eapply IH; eassumption.
Qed.

Section Transcode.
Context {S P V D M W K : Type}.
Variable i : io S.
Variable src : list N.
Variable good : S -> Prop.
Variable tell : S -> nat.
Hypothesis Hsrc : source_ok i src good tell.
Hypothesis Hnf : never_fails i src good tell.
Variable ps : parser P D.
Hypothesis Hinc : incremental ps.
Hypothesis Hinch : incremental_headers ps.
Variable em : emitter P V M.
Variable s : sink W.
Variable goodw : W -> Prop.
Variable tape : W -> list mark.
Hypothesis Hk : keeps s goodw tape.
Hypothesis Ha : accepts s goodw.
Variable cl : client P V K.
Notation dm := (parser_demuxer ps (acc_buffered i)).
Notation bio := (acc_buffered i).
Notation mx := (emitter_muxer em s).
Notation at_state := (at_state src good tell).

(** From some number of rounds on, whatever state the output is in. *)
Definition agrees (m : M) (run : nat -> mctx M W -> outcome (dctx P D (acc S) * K * mctx M W * option (list (list (result unit error)))))
    (want : outcome (option (K * list (list (result unit error)) * list mark))) : Prop :=
  exists n0, forall n mc, n0 <= n -> mc_muxer mc = m -> goodw (w_inner (mc_writer mc)) ->
  match want with
  | Ret (Some (k, rss, marks)) => exists c mc', run n mc = Ret (c, k, mc', Some rss) /\ tape (w_inner (mc_writer mc')) = tape (w_inner (mc_writer mc)) ++ marks
  | Ret None => True
  | Panic => run n mc = Panic
  | UB => run n mc = UB
  end.

Lemma each_run : forall ops m m1 rs marks n mc, whole_output em m ops = (m1, rs, marks) -> mc_muxer mc = m -> goodw (w_inner (mc_writer mc)) ->
  longest em m ops <= n -> exists mc1, mux_run (mx n) s mc ops = Ret (mc1, Some rs) /\
    mc_muxer mc1 = m1 /\ tape (w_inner (mc_writer mc1)) = tape (w_inner (mc_writer mc)) ++ marks /\ goodw (w_inner (mc_writer mc1)).
Proof.
  intros ops m m1 rs marks n mc Ew Em Hg Hn. destruct mc as [mm ww uu]. cbn [mc_muxer] in Em. subst mm.
  destruct (run_accepted_whole em s goodw tape Hk Ha ops n m ww uu m1 rs marks Hg Hn Ew) as [mc1 [F1 [F2 F3]]].
  exists mc1. split; [exact F1|]. split; [exact F2|]. split; [exact F3|]. eapply output_kept; eassumption.
Qed.

Lemma pump_agrees : forall calls rounds c d p info k last m, at_state c d p info ->
  agrees m (fun n mc => pump dm bio (mx n) s cl n calls c k last mc) (pumped ps em cl src rounds calls d p info k last m).
Proof.
  induction calls as [|calls IH]; intros rounds c d p info k last m Hat; cbn [pumped].
  - exists 0. intros n mc _ _ _. exists c, mc. cbn [pump]. rewrite app_nil_r. split; reflexivity.
  - destruct (next_event ps src rounds d p info) as [[[[d1 p1] info1] ev]|] eqn:En; [|exists 0; intros; exact I].
    destruct (event_complete i src good tell Hsrc ps Hnf Hinc _ _ _ _ _ _ _ _ _ Hat En) as [n1 [c1 [E1 H1]]].
    assert (M1 : forall n, n1 <= n -> read_event dm bio n c = Ret (c1, Some ev)) by (intros n Hn; apply (read_event_mono _ _ n1); assumption).
    destruct (cl k last ev) as [[k1 ops]| |] eqn:Ec; cbn [obind].
    + destruct (whole_output em m ops) as [[m1 rs] marks] eqn:Ew.
      destruct (IH rounds c1 d1 p1 info1 k1 rs m1 H1) as [n2 G].
      exists (n1 + n2 + longest em m ops). intros n mc Hn Em Hg.
      destruct (each_run ops m m1 rs marks n mc Ew Em Hg ltac:(lia)) as [mc1 [F1 [F2 [F3 F4]]]].
      specialize (G n mc1 ltac:(lia) F2 F4). cbn [pump]. rewrite M1 by lia. cbn [obind]. rewrite Ec. cbn [obind]. rewrite F1. cbn [obind].
      destruct (pumped ps em cl src rounds calls d1 p1 info1 k1 rs m1) as [[[[k2 rss] more]|]| |]; cbn [obind].
      * destruct G as [c2 [mc2 [G1 G2]]]. rewrite G1. cbn [obind option_map]. exists c2, mc2. split; [reflexivity|].
        rewrite G2, F3, app_assoc. reflexivity.
      * exact I.
      * rewrite G. reflexivity.
      * rewrite G. reflexivity.
    + exists n1. intros n mc Hn _ _. cbn [pump]. rewrite M1 by exact Hn. cbn [obind]. rewrite Ec. reflexivity.
    + exists n1. intros n mc Hn _ _. cbn [pump]. rewrite M1 by exact Hn. cbn [obind]. rewrite Ec. reflexivity.
Qed.

Lemma transcode_agrees : forall first calls rounds cap r0 d k m, good r0 -> tell r0 = 0 ->
  agrees m (fun n mc => transcode dm bio (mx n) s cl first n calls (context_new d (with_capacity cap r0)) k mc)
    (transcoded ps em cl src first rounds calls d k m).
Proof.
  intros first calls rounds cap r0 d k m Hg0 Ht. unfold transcoded.
  destruct (ps_headers ps d src (mk_info None None [])) as [[d1 info1] res] eqn:Eh.
  destruct res as [sk|e]; [|exists 0; intros; exact I].
  pose proof (fresh_at (P := P) src good tell cap r0 d Hg0 Ht) as Hat.
  destruct (headers_complete i src good tell Hsrc ps Hnf Hinch _ d 0 _ d1 info1 (Okay sk) Hat Eh ltac:(discriminate)) as [n1 [c1 [E1 H1]]].
  assert (M1 : forall n, n1 <= n -> read_headers dm bio n (context_new d (with_capacity cap r0)) = Ret (c1, Some (Okay tt))).
  { intros n Hn. eapply headers_mono; eassumption. }
  destruct (whole_output em m (first info1)) as [[m1 rs] marks] eqn:Ew.
  destruct (pump_agrees calls rounds c1 _ _ _ k rs m1 H1) as [n2 G].
  exists (n1 + n2 + longest em m (first info1)). intros n mc Hn Em Hg.
  destruct (each_run _ m m1 rs marks n mc Ew Em Hg ltac:(lia)) as [mc1 [F1 [F2 [F3 F4]]]].
  specialize (G n mc1 ltac:(lia) F2 F4). unfold transcode. rewrite M1 by lia. cbn [obind].
  rewrite (proj2 (proj2 H1)), F1. cbn [obind].
  destruct (pumped ps em cl src rounds calls d1 _ info1 k rs m1) as [[[[k2 rss] more]|]| |]; cbn [obind].
  - destruct G as [c2 [mc2 [G1 G2]]]. rewrite G1. cbn [obind option_map]. exists c2, mc2. split; [reflexivity|].
    rewrite G2, F3, app_assoc. reflexivity.
  - exact I.
  - rewrite G. reflexivity.
  - rewrite G. reflexivity.
Qed.

(** Parsers that only skip forward leave nothing open. *)
Lemma pumped_mono : forall calls n m d p info k last mm, pumped ps em cl src n calls d p info k last mm <> Ret None -> n <= m ->
  pumped ps em cl src m calls d p info k last mm = pumped ps em cl src n calls d p info k last mm.
Proof.
  induction calls as [|calls IH]; intros n m d p info k last mm H Hm; cbn [pumped] in *; [reflexivity|].
  destruct (next_event ps src n d p info) as [[[[d1 p1] info1] ev]|] eqn:En; [|contradiction].
  rewrite (next_event_mono src ps n m _ _ _ _ En Hm).
  destruct (cl k last ev) as [[k1 ops]| |]; cbn [obind] in *; [|reflexivity|reflexivity].
  destruct (whole_output em mm ops) as [[m1 rs] marks].
  rewrite (IH n m); [reflexivity| |exact Hm]. intros E. rewrite E in H. cbn [obind] in H. apply H. reflexivity.
Qed.

Lemma pumped_total : skips_forward ps -> forall calls d p info k last m, exists rounds,
  pumped ps em cl src rounds calls d p info k last m <> Ret None.
Proof.
  intros Hf. induction calls as [|calls IH]; intros d p info k last m; cbn [pumped]; [exists 0; discriminate|].
  destruct (next_event_total src ps Hf d p info) as [n1 [[[[d1 p1] info1] ev] En]].
  destruct (cl k last ev) as [[k1 ops]| |] eqn:Ec.
  - destruct (whole_output em m ops) as [[m1 rs] marks] eqn:Ew. destruct (IH d1 p1 info1 k1 rs m1) as [n2 H2].
    exists (n1 + n2). rewrite (next_event_mono src ps n1 (n1 + n2) _ _ _ _ En) by lia. rewrite Ec. cbn [obind]. rewrite Ew.
    rewrite (pumped_mono calls n2 (n1 + n2)) by (try assumption; lia).
    destruct (pumped ps em cl src n2 calls d1 p1 info1 k1 rs m1) as [[[[k2 rss] more]|]| |]; cbn [obind]; try discriminate. contradiction.
  - exists n1. rewrite En, Ec. discriminate.
  - exists n1. rewrite En, Ec. discriminate.
Qed.

Lemma transcoded_total : skips_forward ps -> forall first calls d k m d1 info1 sk,
  ps_headers ps d src (mk_info None None []) = (d1, info1, Okay sk) ->
  exists rounds, transcoded ps em cl src first rounds calls d k m <> Ret None.
Proof.
  intros Hf first calls d k m d1 info1 sk Eh. unfold transcoded. rewrite Eh.
  destruct (whole_output em m (first info1)) as [[m1 rs] marks].
  destruct (pumped_total Hf calls d1 (Z.to_nat (target (List.length src) 0 sk)) info1 k rs m1) as [n H]. exists n.
  destruct (pumped ps em cl src n calls d1 _ info1 k rs m1) as [[[[k2 rss] more]|]| |]; cbn [obind]; try discriminate. contradiction.
Qed.
End Transcode.

(** ** Contexts around codecs *)
Definition wrapped {A B C : Type} (f : A -> B) (r : outcome (A * C)) : outcome (B * C) :=
  match r with Ret (a, c) => Ret (f a, c) | Panic => Panic | UB => UB end.

Lemma take_wrapped : forall (Z Z' A : Type) (f : Z -> Z') get (get' : Z' -> outcome (Z' * result A codec_error)),
  (forall z, get' (f z) = wrapped f (get z)) -> forall most z, take_all get' most (f z) = wrapped f (take_all get most z).
Proof.
  intros Z Z' A f get get' H. induction most as [|most IH]; intros z; cbn [take_all]; [reflexivity|]. rewrite H.
  destruct (get z) as [[z1 [a|e]]| |]; cbn [wrapped obind]; try reflexivity. rewrite IH.
  destruct (take_all get most z1) as [[z2 l]| |]; reflexivity.
Qed.

Section Contexts.
Context {P V D E : Type}.
Variable dd : decoder D.
Variable en : encoder E.
Notation bare := (bare_methods dd en).
Notation ctxs := (context_methods dd en).

Lemma frames_wrapped : forall most x, take_all (receive_frame ctxs) most (mk_dec_ctx x) = wrapped mk_dec_ctx (take_all (receive_frame bare) most x).
Proof. intros. apply take_wrapped. intros z. cbn. unfold ctx_receive_frame. cbn [dc_dec]. destruct (dd_receive_frame dd z) as [[? ?]| |]; reflexivity. Qed.

Lemma packets_wrapped : forall most y, take_all (receive_packet ctxs) most (mk_enc_ctx y) = wrapped mk_enc_ctx (take_all (receive_packet bare) most y).
Proof. intros. apply take_wrapped. intros z. cbn. unfold enc_receive_packet. cbn [ec_enc]. destruct (en_receive_packet en z) as [[? ?]| |]; reflexivity. Qed.

Lemma encode_wrapped : forall most frames y, encode_all ctxs most (mk_enc_ctx y) frames = wrapped mk_enc_ctx (encode_all bare most y frames).
Proof.
  intros most. induction frames as [|f frames IH]; intros y; cbn [encode_all]; [reflexivity|].
  cbn [context_methods bare_methods send_frame]. unfold enc_send_frame. cbn [ec_enc].
  destruct (en_send_frame en y f) as [[y1 r]| |]; cbn [obind]; try reflexivity. rewrite packets_wrapped.
  destruct (take_all (receive_packet bare) most y1) as [[y2 l]| |]; cbn [obind wrapped]; try reflexivity. rewrite IH.
  destruct (encode_all bare most y2 frames) as [[y3 rest]| |]; reflexivity.
Qed.

Lemma client_wrapped : forall most k last ev,
  codec_client (P := P) (V := V) ctxs most (in_contexts k) last ev = wrapped in_contexts (codec_client bare most k last ev).
Proof.
  intros most [x y] last ev. unfold codec_client, in_contexts. cbn [fst snd].
  destruct ev as [ev|e]; [|reflexivity]. destruct ev; try reflexivity.
  - cbn [context_methods bare_methods send_packet]. unfold ctx_send_packet. cbn [dc_dec].
    destruct (dd_send_packet dd x p) as [[x1 r]| |]; cbn [obind]; try reflexivity. rewrite frames_wrapped.
    destruct (take_all (receive_frame bare) most x1) as [[x2 frames]| |]; cbn [obind wrapped]; try reflexivity. rewrite encode_wrapped.
    destruct (encode_all bare most y frames) as [[y2 packets]| |]; reflexivity.
  - cbn [context_methods bare_methods flush_decoder flush_encoder]. unfold ctx_flush, enc_flush. cbn [dc_dec].
    destruct (dd_flush dd x) as [[x1 r]| |]; cbn [obind]; try reflexivity. rewrite frames_wrapped.
    destruct (take_all (receive_frame bare) most x1) as [[x2 frames]| |]; cbn [obind wrapped]; try reflexivity. rewrite encode_wrapped.
    destruct (encode_all bare most y frames) as [[y2 packets]| |]; cbn [obind wrapped ec_enc]; try reflexivity.
    destruct (en_flush en y2) as [[y3 r2]| |]; cbn [obind]; try reflexivity. rewrite packets_wrapped.
    destruct (take_all (receive_packet bare) most y3) as [[y4 l]| |]; reflexivity.
Qed.

Definition wrapped_result {A B C : Type} (f : A -> B) (r : outcome (option (A * list (list (result unit error)) * C))) : outcome (option (B * list (list (result unit error)) * C)) :=
  match r with Ret (Some (a, rss, c)) => Ret (Some (f a, rss, c)) | Ret None => Ret None | Panic => Panic | UB => UB end.

Lemma pumped_wrapped : forall (DD M : Type) (ps : parser P DD) (em : emitter P V M) src most calls rounds d p info k last m,
  pumped ps em (codec_client ctxs most) src rounds calls d p info (in_contexts k) last m =
  wrapped_result in_contexts (pumped ps em (codec_client bare most) src rounds calls d p info k last m).
Proof.
  intros DD M ps em src most. induction calls as [|calls IH]; intros rounds d p info k last m; cbn [pumped]; [reflexivity|].
  destruct (next_event ps src rounds d p info) as [[[[d1 p1] info1] ev]|]; [|reflexivity]. rewrite client_wrapped.
  destruct (codec_client bare most k last ev) as [[k1 ops]| |]; cbn [obind wrapped]; try reflexivity.
  destruct (whole_output em m ops) as [[m1 rs] marks]. rewrite IH.
  destruct (pumped ps em (codec_client bare most) src rounds calls d1 p1 info1 k1 rs m1) as [[[[k2 rss] more]|]| |]; reflexivity.
Qed.

Lemma transcoded_wrapped : forall (DD M : Type) (ps : parser P DD) (em : emitter P V M) src most first calls rounds d k m,
  transcoded ps em (codec_client ctxs most) src first rounds calls d (in_contexts k) m =
  wrapped_result in_contexts (transcoded ps em (codec_client bare most) src first rounds calls d k m).
Proof.
  intros DD M ps em src most first calls rounds d k m. unfold transcoded.
  destruct (ps_headers ps d src (mk_info None None [])) as [[d1 info1] [sk|e]]; [|reflexivity].
  destruct (whole_output em m (first info1)) as [[m1 rs] marks]. rewrite pumped_wrapped.
  destruct (pumped ps em (codec_client bare most) src rounds calls d1 _ info1 k rs m1) as [[[[k2 rss] more]|]| |]; reflexivity.
Qed.
End Contexts.

Lemma transcoded_stable : forall (P V D M K : Type) (ps : parser P D) (em : emitter P V M) (cl : client P V K) src first calls d k m n r,
  transcoded ps em cl src first n calls d k m <> Ret None -> n <= r ->
  transcoded ps em cl src first r calls d k m = transcoded ps em cl src first n calls d k m.
Proof.
  intros P V D M K ps em cl src first calls d k m n r H Hr. unfold transcoded in *.
  destruct (ps_headers ps d src (mk_info None None [])) as [[d1 info1] [sk|e]]; [|reflexivity].
  destruct (whole_output em m (first info1)) as [[m1 rs] marks].
  rewrite (pumped_mono src ps em cl calls n r); [reflexivity| |exact Hr]. intros E. rewrite E in H. apply H. reflexivity.
Qed.

Lemma transcoding : forall (S P V D M W K : Type) (i : io S) src good tell (ps : parser P D) (em : emitter P V M) (s : sink W) goodw tape (cl : client P V K)
    first calls rounds cap r0 d k m w0 u,
  source_ok i src good tell -> never_fails i src good tell -> incremental ps -> incremental_headers ps -> good r0 -> tell r0 = 0 ->
  keeps s goodw tape -> accepts s goodw -> goodw w0 ->
  exists n0, forall n, n0 <= n ->
  match transcoded ps em cl src first rounds calls d k m with
  | Ret (Some (k', rss, marks)) => exists c mc,
      transcode (parser_demuxer ps (acc_buffered i)) (acc_buffered i) (emitter_muxer em s n) s cl first n calls
        (context_new d (with_capacity cap r0)) k (mk_mctx m (writer_new w0) u) = Ret (c, k', mc, Some rss) /\
      tape (w_inner (mc_writer mc)) = tape w0 ++ marks
  | Ret None => True
  | Panic => transcode (parser_demuxer ps (acc_buffered i)) (acc_buffered i) (emitter_muxer em s n) s cl first n calls
        (context_new d (with_capacity cap r0)) k (mk_mctx m (writer_new w0) u) = Panic
  | UB => transcode (parser_demuxer ps (acc_buffered i)) (acc_buffered i) (emitter_muxer em s n) s cl first n calls
        (context_new d (with_capacity cap r0)) k (mk_mctx m (writer_new w0) u) = UB
  end.
Proof.
  intros S P V D M W K i src good tell ps em s goodw tape cl first calls rounds cap r0 d k m w0 u Hs Hnf Hi Hh Hg Ht Hk Ha Hw.
  destruct (transcode_agrees i src good tell Hs Hnf ps Hi Hh em s goodw tape Hk Ha cl first calls rounds cap r0 d k m Hg Ht) as [n0 G].
  exists n0. intros n Hn. specialize (G n (mk_mctx m (writer_new w0) u) Hn eq_refl Hw). exact G.
Qed.

Lemma transcoding_same : forall (S S' P V D M W W' K : Type) (i : io S) (i' : io S') src good tell good' tell' (ps : parser P D) (em : emitter P V M)
    (s : sink W) goodw tape (s' : sink W') goodw' tape' (cl : client P V K) first calls cap cap' r0 r0' d k m w0 u w0' u' d1 info1 sk,
  source_ok i src good tell -> never_fails i src good tell -> good r0 -> tell r0 = 0 ->
  source_ok i' src good' tell' -> never_fails i' src good' tell' -> good' r0' -> tell' r0' = 0 ->
  keeps s goodw tape -> accepts s goodw -> goodw w0 -> tape w0 = [] ->
  keeps s' goodw' tape' -> accepts s' goodw' -> goodw' w0' -> tape' w0' = [] ->
  incremental ps -> incremental_headers ps -> skips_forward ps -> ps_headers ps d src (mk_info None None []) = (d1, info1, Okay sk) ->
  exists n0, forall n, n0 <= n ->
  match transcode (parser_demuxer ps (acc_buffered i)) (acc_buffered i) (emitter_muxer em s n) s cl first n calls
          (context_new d (with_capacity cap r0)) k (mk_mctx m (writer_new w0) u),
        transcode (parser_demuxer ps (acc_buffered i')) (acc_buffered i') (emitter_muxer em s' n) s' cl first n calls
          (context_new d (with_capacity cap' r0')) k (mk_mctx m (writer_new w0') u') with
  | Ret (_, k1, mc1, Some rss1), Ret (_, k2, mc2, Some rss2) =>
      k1 = k2 /\ rss1 = rss2 /\ tape (w_inner (mc_writer mc1)) = tape' (w_inner (mc_writer mc2))
  | Panic, Panic => True
  | UB, UB => True
  | _, _ => False
  end.
Proof.
  intros S S' P V D M W W' K i i' src good tell good' tell' ps em s goodw tape s' goodw' tape' cl first calls cap cap' r0 r0' d k m w0 u w0' u' d1 info1 sk
    A1 A2 A3 A4 B1 B2 B3 B4 C1 C2 C3 C4 D1 D2 D3 D4 Hi Hh Hf Eh.
  destruct (transcoded_total src ps em cl Hf first calls d k m d1 info1 sk Eh) as [rounds Hr].
  destruct (transcoding S P V D M W K i src good tell ps em s goodw tape cl first calls rounds cap r0 d k m w0 u A1 A2 Hi Hh A3 A4 C1 C2 C3) as [n1 G1].
  destruct (transcoding S' P V D M W' K i' src good' tell' ps em s' goodw' tape' cl first calls rounds cap' r0' d k m w0' u' B1 B2 Hi Hh B3 B4 D1 D2 D3) as [n2 G2].
  exists (n1 + n2). intros n Hn. specialize (G1 n ltac:(lia)). specialize (G2 n ltac:(lia)).
  destruct (transcoded ps em cl src first rounds calls d k m) as [[[[k' rss] marks]|]| |].
  - destruct G1 as [c1 [mc1 [E1 T1]]]. destruct G2 as [c2 [mc2 [E2 T2]]]. rewrite E1, E2. rewrite T1, T2, C4, D4. repeat split; reflexivity.
  - contradiction.
  - rewrite G1, G2. exact I.
  - rewrite G1, G2. exact I.
Qed.
