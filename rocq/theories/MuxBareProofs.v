(** [Context] and [Writer] removed from muxing. *)
From Coq Require Import Ascii String List Arith NArith ZArith Bool Lia.
From Verif Require Import Base AccModel FormatModel MuxModel WriterCallsSpec WriterCallsProofs MuxBareSpec.
Import ListNotations.
Local Open Scope nat_scope.

(** A writer over [s] and the output with its notes. *)
Definition match_out {W : Type} (w : writer W) (o : W * list output_call) : Prop := w_inner w = fst o /\ w_written w = position_after 0 (snd o).

Lemma step_both : forall (W : Type) (s : sink W) (w : writer W) (o : W * list output_call) (op : writer_op), match_out w o ->
  match writer_step s w op, direct_step (noting s) o op with
  | Ret (w', x), Ret (o', y) => match_out w' o' /\ x = y
  | Panic, Panic => True
  | UB, UB => True
  | _, _ => False
  end.
Proof.
  intros W s w [wi log] op [H1 H2]. cbn [fst snd] in *.
  assert (D : direct_step (noting s) (wi, log) op = forget (writer_step (noting s) (note w log) op)).
  { rewrite step_direct. unfold note. cbn [w_inner]. rewrite H1. reflexivity. }
  assert (F : forall A (x : outcome (writer W * A)) y, x = y -> forget x = forget y) by (intros A x y ->; reflexivity).
  rewrite D. destruct (writer_step s w op) as [[w' x]| |] eqn:E.
  - destruct (step_noted s op w w' x log E) as [calls [E1 [_ P]]]. rewrite E1. cbn [forget obind]. split; [|reflexivity].
    unfold match_out, note. cbn [w_inner fst snd]. split; [reflexivity|]. rewrite position_app, <- H2. exact P.
  - destruct op as [buf|fuel buf| |sk]; cbn [writer_step] in *.
    + destruct (writer_write s w buf); discriminate E.
    + destruct (write_all (writer_sink s) fuel w buf) as [[w1 r]| |] eqn:Ea; try discriminate E.
      assert (G : write_all (writer_sink (noting s)) fuel (note w log) buf = Panic).
      { clear - Ea. revert w log buf Ea. induction fuel as [|fuel IH]; intros w log buf Ea; destruct buf as [|b buf]; cbn [write_all] in *; try discriminate Ea.
        cbn [writer_sink sk_write] in *. unfold writer_write in *. cbn [note w_inner w_written noting sk_write fst snd] in *.
        destruct (sk_write s (w_inner w) (b :: buf)) as [w1 [[|n]|e]]; try discriminate Ea.
        - destruct (slice (b :: buf) (S n) (Datatypes.length (b :: buf))) as [rest| |]; cbn [obind] in *; try discriminate Ea; [|reflexivity].
          exact (IH _ _ _ Ea).
        - destruct e; try discriminate Ea. exact (IH _ _ _ Ea). }
      rewrite G. cbn [obind forget]. exact I.
    + destruct (writer_flush s w); discriminate E.
    + destruct (writer_seek s w sk); discriminate E.
  - destruct op as [buf|fuel buf| |sk]; cbn [writer_step] in *.
    + destruct (writer_write s w buf); discriminate E.
    + destruct (write_all (writer_sink s) fuel w buf) as [[w1 r]| |] eqn:Ea; try discriminate E. exfalso.
      clear - Ea. revert w buf Ea. induction fuel as [|fuel IH]; intros w buf Ea; destruct buf as [|b buf]; cbn [write_all] in *; try discriminate Ea.
      cbn [writer_sink sk_write] in *. unfold writer_write in *.
      destruct (sk_write s (w_inner w) (b :: buf)) as [w1 [[|n]|e]]; try discriminate Ea.
      * destruct (slice (b :: buf) (S n) (Datatypes.length (b :: buf))) as [rest| |] eqn:Es; cbn [obind] in *; try discriminate Ea; [exact (IH _ _ Ea)|].
        unfold slice in Es. destruct ((S n <=? Datatypes.length (b :: buf)) && (Datatypes.length (b :: buf) <=? Datatypes.length (b :: buf)))%bool; discriminate Es.
      * destruct e; try discriminate Ea. exact (IH _ _ Ea).
    + destruct (writer_flush s w); discriminate E.
    + destruct (writer_seek s w sk); discriminate E.
Qed.

Section Methods.
Context {M W : Type}.
Variable s : sink W.

Lemma method_both : forall (t : method M) (w : writer W) (o : W * list output_call), match_out w o ->
  match on_writer s w t, on_output s o t with
  | Ret (m, w', r), Ret (m', o', r') => match_out w' o' /\ m = m' /\ r = r'
  | Panic, Panic => True
  | UB, UB => True
  | _, _ => False
  end.
Proof.
  induction t as [m res|op next IH|next IH]; intros w o H; cbn [on_writer on_output].
  - auto.
  - pose proof (step_both W s w o op H) as S. destruct (writer_step s w op) as [[w1 x]| |]; destruct (direct_step (noting s) o op) as [[o1 y]| |];
      try contradiction S; cbn [obind]; try exact I. destruct S as [S <-]. apply IH, S.
  - unfold writer_position. destruct H as [H1 H2]. rewrite <- H2. apply IH. split; assumption.
Qed.

Lemma flush_both : forall (w : writer W) (o : W * list output_call), match_out w o ->
  match_out (fst (writer_flush s w)) (fst (sk_flush (noting s) o)) /\ snd (writer_flush s w) = snd (sk_flush (noting s) o).
Proof.
  intros w [wi log] [H1 H2]. cbn [fst snd] in *. unfold writer_flush. cbn [noting sk_flush fst snd]. rewrite H1. destruct (sk_flush s wi) as [w1 res].
  cbn [fst snd]. split; [|reflexivity]. split; [reflexivity|]. cbn [w_written snd]. rewrite position_app, <- H2. reflexivity.
Qed.
End Methods.

Section Context.
Context {P V M W : Type}.
Variable me : methods P V M.
Variable s : sink W.

Lemma mux_step_both : forall op m w u o, match_out w o ->
  match mux_step (muxer_of me s) s (mk_mctx m w u) op, bare_step me s m o op with
  | Ret (c, r), Ret (m', o', r') => match_out (mc_writer c) o' /\ mc_muxer c = m' /\ mc_private c = u /\ r = r'
  | Panic, Panic => True
  | UB, UB => True
  | _, _ => False
  end.
Proof.
  intros op m w u o H. destruct op as [| |p| |g|key val]; cbn [mux_step bare_step].
  - unfold mux_configure. cbn [muxer_of mx_configure mc_muxer obind]. destruct (me_configure me m) as [m' r]. cbn. auto.
  - unfold write_header. cbn [muxer_of mx_header mc_muxer mc_writer]. pose proof (method_both s (me_header me m) w o H) as B.
    destruct (on_writer s w (me_header me m)) as [[[m1 w1] r1]| |]; destruct (on_output s o (me_header me m)) as [[[m2 o2] r2]| |]; try contradiction B; cbn; auto.
    destruct B as [B1 [B2 B3]]. auto.
  - unfold write_packet. cbn [muxer_of mx_packet mc_muxer mc_writer]. pose proof (method_both s (me_packet me m p) w o H) as B.
    destruct (on_writer s w (me_packet me m p)) as [[[m1 w1] r1]| |]; destruct (on_output s o (me_packet me m p)) as [[[m2 o2] r2]| |]; try contradiction B; cbn; auto.
    destruct B as [B1 [B2 B3]]. auto.
  - unfold write_trailer. cbn [muxer_of mx_trailer mc_muxer mc_writer]. pose proof (method_both s (me_trailer me m) w o H) as B.
    destruct (on_writer s w (me_trailer me m)) as [[[m1 w1] r1]| |]; destruct (on_output s o (me_trailer me m)) as [[[m2 o2] r2]| |]; try contradiction B; cbn [obind]; auto.
    destruct B as [B1 [B2 <-]]. destruct r1 as [[[]|e]|]; [|cbn; auto|cbn; auto].
    pose proof (flush_both s w1 o2 B1) as [F1 F2]. cbn [mc_private]. destruct (writer_flush s w1) as [w3 f]. destruct (sk_flush (noting s) o2) as [o3 f2]. cbn [fst snd] in *. subst f2.
    destruct f as [[]|e]; cbn; auto.
  - unfold mux_set_info. cbn [muxer_of mx_info mc_muxer obind]. destruct (me_info me m g) as [m' r]. cbn. auto.
  - unfold mux_set_option. cbn [muxer_of mx_option mc_muxer obind]. destruct (me_option me m key val) as [m' r]. cbn. auto.
Qed.

Lemma mux_run_both : forall ops m w u o, match_out w o ->
  seen_context (mux_run (muxer_of me s) s (mk_mctx m w u) ops) = seen_bare (bare_run me s m o ops).
Proof.
  induction ops as [|op ops IH]; intros m w u o H; cbn [mux_run bare_run].
  - destruct H as [H1 H2]. cbn. unfold writer_position. rewrite H1, H2. reflexivity.
  - pose proof (mux_step_both op m w u o H) as B.
    destruct (mux_step (muxer_of me s) s (mk_mctx m w u) op) as [[c r]| |]; destruct (bare_step me s m o op) as [[[m1 o1] r1]| |]; try contradiction B; cbn [obind]; try reflexivity.
    destruct B as [B1 [B2 [B3 <-]]]. destruct c as [cm cw cu]. cbn [mc_muxer mc_writer mc_private] in *. subst cm cu. destruct r as [r|].
    + pose proof (IH m1 cw u o1 B1) as E.
      destruct (mux_run (muxer_of me s) s (mk_mctx m1 cw u) ops) as [[c2 [rs|]]| |]; destruct (bare_run me s m1 o1 ops) as [[[m2 o2] [rs2|]]| |]; cbn [seen_context seen_bare obind] in *;
        try discriminate E; try (injection E as E1 E2 E3 E4); try (injection E as E1 E2 E3); try (rewrite E1, E2, E3; subst; reflexivity); try reflexivity.
    + destruct B1 as [H1 H2]. cbn. unfold writer_position. rewrite H1, H2. reflexivity.
Qed.
End Context.

Lemma mux_bare : forall (P V M W : Type) (me : methods P V M) (s : sink W) (m : M) (w0 : W) (ops : list (mux_op P V)),
  seen_context (mux_run (muxer_of me s) s (mctx_new m (writer_new w0)) ops) = seen_bare (bare_run me s m (w0, []) ops).
Proof. intros. apply mux_run_both. split; reflexivity. Qed.
