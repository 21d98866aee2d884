(** [Writer] adds a count to its output and nothing else. *)
From Coq Require Import List Arith NArith ZArith Bool Lia.
From Coq Require Import ZifyBool ZifyNat ZifyN.
From Verif Require Import Base AccModel MuxModel WriterCallsSpec.
Import ListNotations.
Local Open Scope nat_scope.

Section Writer.
Context {W : Type}.
Variable s : sink W.

Definition forget {A : Type} (x : outcome (writer W * A)) : outcome (W * A) := let! (w, a) := x in Ret (w_inner w, a).

Lemma all_direct : forall fuel w buf, forget (write_all (writer_sink s) fuel w buf) = write_all s fuel (w_inner w) buf.
Proof.
  induction fuel as [|fuel IH]; intros w buf; destruct buf as [|b buf]; try reflexivity.
  cbn [write_all writer_sink sk_write]. unfold writer_write. destruct (sk_write s (w_inner w) (b :: buf)) as [w1 [[|n]|e]].
  - reflexivity.
  - destruct (slice (b :: buf) (S n) (length (b :: buf))) as [rest| |]; cbn [obind forget]; try reflexivity. rewrite IH. reflexivity.
  - destruct e; try reflexivity. rewrite IH. reflexivity.
Qed.

Lemma step_direct : forall w op, forget (writer_step s w op) = direct_step s (w_inner w) op.
Proof.
  intros w [buf|fuel buf| |sk]; cbn [writer_step direct_step].
  - unfold writer_write. destruct (sk_write s (w_inner w) buf) as [w1 [n|e]]; reflexivity.
  - rewrite <- all_direct. destruct (write_all (writer_sink s) fuel w buf) as [[w1 res]| |]; reflexivity.
  - unfold writer_flush. destruct (sk_flush s (w_inner w)) as [w1 res]; reflexivity.
  - unfold writer_seek. destruct (sk_seek s (w_inner w) sk) as [w1 [n|e]]; reflexivity.
Qed.

Lemma run_direct : forall ops w, forget (writer_run s w ops) = direct_run s (w_inner w) ops.
Proof.
  induction ops as [|op ops IH]; intros w; [reflexivity|]. cbn [writer_run direct_run]. rewrite <- step_direct.
  destruct (writer_step s w op) as [[w1 o]| |]; cbn [obind forget]; try reflexivity. rewrite <- IH.
  destruct (writer_run s w1 ops) as [[w2 os]| |]; reflexivity.
Qed.
End Writer.

Lemma position_app : forall l1 l2 p, position_after p (l1 ++ l2) = position_after (position_after p l1) l2.
Proof. induction l1 as [|[buf [n|e]|res|sk [q|e]] l1 IH]; intros l2 p; cbn [app position_after]; auto. Qed.

Section Noting.
Context {W : Type}.
Variable s : sink W.
Definition note (w : writer W) (log : list output_call) : writer (W * list output_call) := mk_writer (w_inner w, log) (w_written w).

Lemma all_noted : forall fuel w buf w' res log, write_all (writer_sink s) fuel w buf = Ret (w', res) ->
  exists calls, write_all (writer_sink (noting s)) fuel (note w log) buf = Ret (note w' (log ++ calls), res) /\ writes_only calls /\
    w_written w' = position_after (w_written w) calls.
Proof.
  induction fuel as [|fuel IH]; intros w buf w' res log E; destruct buf as [|b buf]; cbn [write_all] in *;
    try (injection E as <- <-; exists []; rewrite app_nil_r; split; [reflexivity|]; split; [intros c []|reflexivity]).
  cbn [writer_sink sk_write] in *. unfold writer_write in *. cbn [note w_inner w_written noting sk_write fst snd] in *.
  destruct (sk_write s (w_inner w) (b :: buf)) as [w1 r] eqn:Ew.
  assert (One : forall r, writes_only [OWrite (b :: buf) r]) by (intros r1 c [<-|[]]; eauto).
  assert (Cons : forall r calls, writes_only calls -> writes_only (OWrite (b :: buf) r :: calls)) by (intros r1 calls H c [<-|Hc]; eauto).
  destruct r as [[|n]|e].
  - injection E as <- <-. exists [OWrite (b :: buf) (Okay 0)]. split; [reflexivity|]. split; [apply One|reflexivity].
  - destruct (slice (b :: buf) (S n) (length (b :: buf))) as [rest| |]; cbn [obind] in *; [|discriminate E|discriminate E].
    destruct (IH _ _ _ _ (log ++ [OWrite (b :: buf) (Okay (S n))]) E) as [calls [E1 [H1 H2]]].
    exists (OWrite (b :: buf) (Okay (S n)) :: calls). unfold note in E1. cbn [w_inner w_written] in *. rewrite E1, <- app_assoc. cbn [app position_after]. auto.
  - destruct e.
    all: try (injection E as <- <-; eexists [OWrite (b :: buf) (Error _)]; split; [reflexivity|]; split; [apply One|reflexivity]).
    destruct (IH _ _ _ _ (log ++ [OWrite (b :: buf) (Error Interrupted)]) E) as [calls [E1 [H1 H2]]].
    exists (OWrite (b :: buf) (Error Interrupted) :: calls). unfold note in E1. cbn [w_inner w_written] in *. rewrite E1, <- app_assoc. cbn [app position_after]. auto.
Qed.

Lemma step_noted : forall op w w' o log, writer_step s w op = Ret (w', o) ->
  exists calls, writer_step (noting s) (note w log) op = Ret (note w' (log ++ calls), o) /\ passes op o calls /\
    w_written w' = position_after (w_written w) calls.
Proof.
  intros [buf|fuel buf| |sk] w w' o log E; cbn [writer_step] in *.
  - unfold writer_write in *. cbn [note w_inner w_written noting sk_write fst snd]. destruct (sk_write s (w_inner w) buf) as [w1 [n|e]];
      injection E as <- <-; eexists; (split; [reflexivity|]; split; reflexivity).
  - destruct (write_all (writer_sink s) fuel w buf) as [[w1 res]| |] eqn:Ea; [|discriminate E|discriminate E]. cbn [obind] in E. injection E as <- <-.
    destruct (all_noted fuel w buf w1 res log Ea) as [calls [E1 [H1 H2]]]. rewrite E1. exists calls. split; [reflexivity|]. split; [exact H1|exact H2].
  - unfold writer_flush in *. cbn [note w_inner w_written noting sk_flush fst snd]. destruct (sk_flush s (w_inner w)) as [w1 res].
    injection E as <- <-. eexists. split; [reflexivity|]. split; reflexivity.
  - unfold writer_seek in *. cbn [note w_inner w_written noting sk_seek fst snd]. destruct (sk_seek s (w_inner w) sk) as [w1 [n|e]];
      injection E as <- <-; eexists; (split; [reflexivity|]; split; reflexivity).
Qed.

Lemma run_noted : forall ops w w' outs log, writer_run s w ops = Ret (w', outs) ->
  exists calls, writer_run (noting s) (note w log) ops = Ret (note w' (log ++ calls), outs) /\ passes_all ops outs calls /\
    w_written w' = position_after (w_written w) calls.
Proof.
  induction ops as [|op ops IH]; intros w w' outs log E; cbn [writer_run] in *.
  - injection E as <- <-. exists []. rewrite app_nil_r. split; [reflexivity|]. split; reflexivity.
  - destruct (writer_step s w op) as [[w1 o]| |] eqn:E1; [|discriminate E|discriminate E]. cbn [obind] in E.
    destruct (writer_run s w1 ops) as [[w2 os]| |] eqn:E2; [|discriminate E|discriminate E]. cbn [obind] in E. injection E as <- <-.
    destruct (step_noted op w w1 o log E1) as [c1 [F1 [G1 H1]]]. rewrite F1. cbn [obind].
    destruct (IH w1 w2 os (log ++ c1) E2) as [c2 [F2 [G2 H2]]]. rewrite F2. cbn [obind].
    exists (c1 ++ c2). rewrite app_assoc. split; [reflexivity|]. split; [exists c1, c2; auto|]. rewrite position_app, <- H1. exact H2.
Qed.
End Noting.

Lemma writer_calls : forall (W : Type) (s : sink W) ops w0 w' outs, writer_run s (writer_new w0) ops = Ret (w', outs) ->
  exists calls, writer_run (noting s) (writer_new (w0, [])) ops = Ret (mk_writer (w_inner w', calls) (writer_position w'), outs) /\
    passes_all ops outs calls /\ writer_position w' = position_after 0 calls.
Proof. intros W s ops w0 w' outs E. exact (run_noted s ops (writer_new w0) w' outs [] E). Qed.
