(** The proofs of the theorems of [MuxProps]. *)
From Coq Require Import List Arith NArith ZArith Bool String.
From Verif Require Import Base AccModel FormatModel MuxModel MuxSpec MuxProofs.
Import ListNotations.
Local Open Scope nat_scope.

Lemma c42_automatic_ids_refuted :
  exists (a b : stream unit), a = stream_from_params tt (1, 25)%Z /\ b = stream_from_params tt (1, 25)%Z /\
    (s_id a < 0)%Z /\ (s_id b < 0)%Z /\
    map s_id (g_streams (fst (add_streams (mk_info None None []) [a; b]))) = [0; 0]%Z.
Proof.
  exists (stream_from_params tt (1, 25)%Z), (stream_from_params tt (1, 25)%Z). repeat (apply conj; [reflexivity|]). reflexivity.
Qed.

Lemma c44_position : forall (W : Type) (s : sink W) good tell w0 ops w' outs,
  sink_ok s good tell -> good w0 -> tell w0 = 0 -> writer_run s (writer_new w0) ops = Ret (w', outs) ->
  writer_position w' = tell (w_inner w').
Proof.
  intros W s good tell w0 ops w' outs Hs Hg Ht E.
  exact (proj2 (run_placed s good tell Hs ops (writer_new w0) w' outs (conj Hg (eq_sym Ht)) E)).
Qed.

Lemma c44_accepted_bytes : forall (W : Type) (s : sink W) w0 ops w' outs,
  forallb plain_op ops = true -> writer_run s (writer_new w0) ops = Ret (w', outs) -> writer_position w' = accepted outs.
Proof. intros W s w0 ops. exact (run_accepted W s ops (writer_new w0)). Qed.

Lemma c44_displaced : forall (W : Type) (s : sink W) good tell w0 ops w' outs,
  sink_ok s good tell -> good w0 -> forallb no_seek ops = true -> writer_run s (writer_new w0) ops = Ret (w', outs) ->
  writer_position w' + tell w0 = tell (w_inner w').
Proof.
  intros W s good tell w0 ops w' outs Hs Hg Hn E.
  exact (proj2 (run_displaced s good tell Hs (tell w0) ops (writer_new w0) w' outs Hn (conj Hg eq_refl) E)).
Qed.

Lemma c45_output : forall (P V M W : Type) (em : emitter P V M) (s : sink W) good tape fuel ops c c' rs,
  keeps s good tape -> good (w_inner (mc_writer c)) ->
  mux_run (emitter_muxer em s fuel) s c ops = Ret (c', Some rs) ->
  exists marks, tape (w_inner (mc_writer c')) = tape (w_inner (mc_writer c)) ++ marks /\
    output em (mc_muxer c) ops rs (mc_muxer c') marks.
Proof. intros P V M W em s good tape fuel ops c c' rs Hk. exact (run_output em s good tape Hk fuel ops c c' rs). Qed.

Lemma c45_whole_output : forall (P V M W : Type) (em : emitter P V M) (s : sink W) good tape ops m w u m' rs marks,
  keeps s good tape -> accepts s good -> good (w_inner w) -> whole_output em m ops = (m', rs, marks) ->
  exists fuel c', mux_run (emitter_muxer em s fuel) s (mk_mctx m w u) ops = Ret (c', Some rs) /\
    mc_muxer c' = m' /\ tape (w_inner (mc_writer c')) = tape (w_inner w) ++ marks.
Proof.
  intros P V M W em s good tape ops m w u m' rs marks Hk Ha Hg E. exists (longest em m ops).
  exact (run_accepted_whole em s good tape Hk Ha ops (longest em m ops) m w u m' rs marks Hg (le_n _) E).
Qed.

Definition ex_emitter : emitter unit unit N := {|
  em_configure := fun m => (m, Okay tt);
  em_header := fun m => (m, Okay [68; 72]%N);
  em_packet := fun m p => match p_data p with [] => (m, Error InvalidData) | d => ((m + 1)%N, Okay (m :: d)) end;
  em_trailer := fun m => (m, Okay [84]%N);
  em_info := fun m _ => (m, Okay tt);
  em_option := fun m _ _ => (m, Okay tt)
|}.

Lemma c46_lookup : forall (T : Type) (codec_of : T -> string) l name,
  exists r, codecs_by_name (codecs_from_list codec_of l) name = Ret r /\
    (forall d, r = Some d <-> first_named codec_of l name d) /\
    (r = None <-> forall x, In x l -> codec_of x <> name).
Proof.
  intros T codec_of l name. exists (mux_by_name codec_of l name).
  split; [apply from_list_lookup|]. split; [intros d; apply find_named|apply find_unnamed].
Qed.

Lemma c46_context_by_name : forall (T D : Type) (codec_of : T -> string) (create : T -> D) l name,
  exists r, context_by_name create (codecs_from_list codec_of l) name = Ret r /\
    (forall d, first_named codec_of l name d -> r = Some (create d)) /\
    (r = None <-> forall x, In x l -> codec_of x <> name).
Proof.
  intros T D codec_of create l name. exists (option_map create (mux_by_name codec_of l name)).
  split; [unfold context_by_name; rewrite from_list_lookup; reflexivity|]. split.
  - intros d Hd. apply find_named in Hd. rewrite Hd. reflexivity.
  - rewrite <- find_unnamed. destruct (mux_by_name codec_of l name); cbn; split; congruence.
Qed.
