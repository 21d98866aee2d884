(** Proofs about the writer, the muxer context, streams and registries. *)
From Coq Require Import List Arith NArith ZArith Bool String Lia.
From Coq Require FinFun.
From Verif Require Import Base AccModel FormatModel MuxModel MuxSpec.
Import ListNotations.
Local Open Scope nat_scope.

Lemma slice_tail : forall (A : Type) (l : list A) n,
  slice l n (List.length l) = if n <=? List.length l then Ret (skipn n l) else Panic.
Proof.
  intros A l n. unfold slice. rewrite Nat.leb_refl, andb_true_r. destruct (Nat.leb_spec n (List.length l)); [|reflexivity].
  f_equal. apply firstn_all2. rewrite skipn_length. lia.
Qed.

(** ** Writer *)

Section Position.
Context {W : Type}.
Variable s : sink W.
Variable good : W -> Prop.
Variable tell : W -> nat.
Hypothesis Hs : sink_ok s good tell.

Definition placed (w : writer W) : Prop := good (w_inner w) /\ w_written w = tell (w_inner w).

Lemma write_placed : forall w buf w' res, placed w -> writer_write s w buf = (w', res) -> placed w'.
Proof.
  intros [w k] buf w' res [Hg Hk] E. unfold writer_write in E. cbn [w_inner w_written] in *.
  destruct (sk_write s w buf) as [w1 r] eqn:E1. destruct (sko_write s good tell Hs w buf w1 r Hg E1) as [Hg1 H].
  destruct r as [n|e]; inversion E; subst; split; cbn [w_inner w_written]; try assumption; lia.
Qed.

Lemma flush_placed : forall w w' res, placed w -> writer_flush s w = (w', res) -> placed w'.
Proof.
  intros [w k] w' res [Hg Hk] E. unfold writer_flush in E. cbn [w_inner w_written] in *.
  destruct (sk_flush s w) as [w1 r] eqn:E1. destruct (sko_flush s good tell Hs w w1 r Hg E1) as [Hg1 H].
  inversion E; subst; split; cbn [w_inner w_written]; [assumption|lia].
Qed.

Lemma seek_placed : forall w sk w' res, placed w -> writer_seek s w sk = (w', res) -> placed w'.
Proof.
  intros [w k] sk w' res [Hg Hk] E. unfold writer_seek in E. cbn [w_inner w_written] in *.
  destruct (sk_seek s w sk) as [w1 r] eqn:E1. destruct (sko_seek s good tell Hs w sk w1 r Hg E1) as [Hg1 H].
  destruct r as [n|e]; inversion E; subst; split; cbn [w_inner w_written]; try assumption; lia.
Qed.

Lemma all_placed : forall fuel w buf w' res, placed w -> write_all (writer_sink s) fuel w buf = Ret (w', res) -> placed w'.
Proof.
  induction fuel as [|fuel IH]; intros w buf w' res Hp E; destruct buf as [|x buf]; cbn [write_all] in E;
    try (inversion E; subst; assumption).
  cbn [sk_write writer_sink] in E. destruct (writer_write s w (x :: buf)) as [w1 r] eqn:E1.
  pose proof (write_placed _ _ _ _ Hp E1) as Hp1.
  destruct r as [[|n]|e].
  - inversion E; subst; assumption.
  - rewrite slice_tail in E. destruct (S n <=? List.length (x :: buf)); [|discriminate].
    exact (IH _ _ _ _ Hp1 E).
  - destruct e; try (inversion E; subst; assumption). exact (IH _ _ _ _ Hp1 E).
Qed.

Lemma step_placed : forall w op w' o, placed w -> writer_step s w op = Ret (w', o) -> placed w'.
Proof.
  intros w [buf|fuel buf| |sk] w' o Hp E; cbn [writer_step] in E.
  - destruct (writer_write s w buf) as [w1 r] eqn:E1. inversion E; subst. exact (write_placed _ _ _ _ Hp E1).
  - destruct (write_all (writer_sink s) fuel w buf) as [[w1 r]| |] eqn:E1; try discriminate.
    inversion E; subst. exact (all_placed _ _ _ _ _ Hp E1).
  - destruct (writer_flush s w) as [w1 r] eqn:E1. inversion E; subst. exact (flush_placed _ _ _ Hp E1).
  - destruct (writer_seek s w sk) as [w1 r] eqn:E1. inversion E; subst. exact (seek_placed _ _ _ _ Hp E1).
Qed.

Lemma run_placed : forall ops w w' outs, placed w -> writer_run s w ops = Ret (w', outs) -> placed w'.
Proof.
  induction ops as [|op ops IH]; intros w w' outs Hp E; cbn [writer_run] in E.
  - inversion E; subst; assumption.
  - destruct (writer_step s w op) as [[w1 o]| |] eqn:E1; try discriminate. cbn [obind] in E.
    destruct (writer_run s w1 ops) as [[w2 os]| |] eqn:E2; try discriminate. cbn [obind] in E.
    inversion E; subst. exact (IH _ _ _ (step_placed _ _ _ _ Hp E1) E2).
Qed.

(** A writer on an output that is not at its beginning is off by that much until
    the first seek. *)
Definition displaced (k : nat) (w : writer W) : Prop := good (w_inner w) /\ w_written w + k = tell (w_inner w).

Lemma write_displaced : forall k w buf w' res, displaced k w -> writer_write s w buf = (w', res) -> displaced k w'.
Proof.
  intros d [w k] buf w' res [Hg Hk] E. unfold writer_write in E. cbn [w_inner w_written] in *.
  destruct (sk_write s w buf) as [w1 r] eqn:E1. destruct (sko_write s good tell Hs w buf w1 r Hg E1) as [Hg1 H].
  destruct r as [n|e]; inversion E; subst; split; cbn [w_inner w_written]; try assumption; lia.
Qed.

Lemma all_displaced : forall k fuel w buf w' res, displaced k w -> write_all (writer_sink s) fuel w buf = Ret (w', res) -> displaced k w'.
Proof.
  intros k. induction fuel as [|fuel IH]; intros w buf w' res Hp E; destruct buf as [|x buf]; cbn [write_all] in E;
    try (inversion E; subst; assumption).
  cbn [sk_write writer_sink] in E. destruct (writer_write s w (x :: buf)) as [w1 r] eqn:E1.
  pose proof (write_displaced _ _ _ _ _ Hp E1) as Hp1.
  destruct r as [[|n]|e].
  - inversion E; subst; assumption.
  - rewrite slice_tail in E. destruct (S n <=? List.length (x :: buf)); [|discriminate].
    exact (IH _ _ _ _ Hp1 E).
  - destruct e; try (inversion E; subst; assumption). exact (IH _ _ _ _ Hp1 E).
Qed.

Lemma run_displaced : forall k ops w w' outs, forallb no_seek ops = true -> displaced k w -> writer_run s w ops = Ret (w', outs) -> displaced k w'.
Proof.
  intros k. induction ops as [|op ops IH]; intros w w' outs Hn Hp E; cbn [writer_run] in E.
  - inversion E; subst; assumption.
  - cbn [forallb] in Hn. apply andb_true_iff in Hn. destruct Hn as [Hop Hn].
    destruct (writer_step s w op) as [[w1 o]| |] eqn:E1; try discriminate. cbn [obind] in E.
    destruct (writer_run s w1 ops) as [[w2 os]| |] eqn:E2; try discriminate. cbn [obind] in E.
    inversion E; subst. apply (IH w1 w' os Hn); [|exact E2].
    destruct op as [buf|fuel buf| |sk]; cbn [writer_step] in E1; [| | |discriminate].
    + destruct (writer_write s w buf) as [w3 r] eqn:E3. inversion E1; subst. exact (write_displaced _ _ _ _ _ Hp E3).
    + destruct (write_all (writer_sink s) fuel w buf) as [[w3 r]| |] eqn:E3; try discriminate.
      inversion E1; subst. exact (all_displaced _ _ _ _ _ _ Hp E3).
    + destruct (writer_flush s w) as [w3 r] eqn:E3. inversion E1; subst.
      destruct w as [w kk], Hp as [Hg Hk]. unfold writer_flush in E3. cbn [w_inner w_written] in *.
      destruct (sk_flush s w) as [w4 r4] eqn:E4. destruct (sko_flush s good tell Hs w w4 r4 Hg E4) as [Hg1 H].
      inversion E3; subst; split; cbn [w_inner w_written]; [assumption|lia].
Qed.

End Position.

(** Without a contract: the position counts the accepted bytes. *)
Lemma run_accepted : forall (W : Type) (s : sink W) ops w w' outs,
  forallb plain_op ops = true -> writer_run s w ops = Ret (w', outs) -> w_written w' = w_written w + accepted outs.
Proof.
  intros W s. induction ops as [|op ops IH]; intros w w' outs Hn E; cbn [writer_run] in E.
  - inversion E; subst. cbn. lia.
  - cbn [forallb] in Hn. apply andb_true_iff in Hn. destruct Hn as [Hop Hn].
    destruct (writer_step s w op) as [[w1 o]| |] eqn:E1; try discriminate. cbn [obind] in E.
    destruct (writer_run s w1 ops) as [[w2 os]| |] eqn:E2; try discriminate. cbn [obind] in E.
    inversion E; subst. specialize (IH _ _ _ Hn E2). rewrite IH.
    destruct op as [buf|fuel buf| |sk]; cbn [writer_step] in E1; try discriminate.
    + unfold writer_write in E1. destruct (sk_write s (w_inner w) buf) as [w3 [n|e]]; inversion E1; subst; cbn [w_written accepted]; lia.
    + unfold writer_flush in E1. destruct (sk_flush s (w_inner w)) as [w3 r]; inversion E1; subst; cbn [w_written accepted]; lia.
Qed.

Lemma write_all_counts : forall (W : Type) (s : sink W) fuel w buf w',
  write_all (writer_sink s) fuel w buf = Ret (w', Some (Okay tt)) -> w_written w' = w_written w + List.length buf.
Proof.
  intros W s. induction fuel as [|fuel IH]; intros w buf w' E; destruct buf as [|x buf]; cbn [write_all] in E;
    try (inversion E; subst; cbn [List.length]; lia).
  cbn [sk_write writer_sink] in E. unfold writer_write in E.
  destruct (sk_write s (w_inner w) (x :: buf)) as [w1 [[|n]|e]].
  - discriminate.
  - rewrite slice_tail in E. destruct (Nat.leb_spec (S n) (List.length (x :: buf))); [|discriminate].
    cbn [obind] in E. rewrite (IH _ _ _ E). cbn [w_written]. rewrite skipn_length. lia.
  - destruct e; try discriminate. rewrite (IH _ _ _ E). reflexivity.
Qed.

(** ** The context *)

Lemma logged_run : forall (P V M W : Type) (mx : muxer P V M W) s ops m l w u c' rs,
  mux_run mx s (mk_mctx m w u) ops = Ret (c', Some rs) ->
  mux_run (logged mx) s (mk_mctx (m, l) w u) ops = Ret (mk_mctx (mc_muxer c', l ++ ops) (mc_writer c') (mc_private c'), Some rs) /\
  List.length rs = List.length ops /\ mc_private c' = u.
Proof.
  intros P V M W mx s. induction ops as [|op ops IH]; intros m l w u c' rs E; cbn [mux_run] in E |- *.
  - inversion E; subst. rewrite app_nil_r. split; [reflexivity|]. split; reflexivity.
  - destruct (mux_step mx s (mk_mctx m w u) op) as [[c1 [r|]]| |] eqn:E1; try discriminate. cbn [obind] in E.
    destruct (mux_run mx s c1 ops) as [[c2 [rs'|]]| |] eqn:E2; try discriminate. cbn [obind] in E.
    inversion E; subst. clear E.
    assert (mux_step (logged mx) s (mk_mctx (m, l) w u) op = Ret (mk_mctx (mc_muxer c1, l ++ [op]) (mc_writer c1) (mc_private c1), Some r) /\ mc_private c1 = u) as [K1 K2].
    { destruct op as [| |p| |g|key val]; cbn [mux_step] in E1 |- *.
      - unfold mux_configure in E1 |- *. cbn [logged mx_configure mc_muxer mc_writer mc_private fst snd] in *.
        destruct (mx_configure mx m) as [[m' r']| |]; try discriminate. cbn [obind] in *. inversion E1; subst. split; reflexivity.
      - unfold write_header in E1 |- *. cbn [logged mx_header mc_muxer mc_writer mc_private fst snd] in *.
        destruct (mx_header mx m w) as [[[m' w'] r']| |]; try discriminate. cbn [obind] in *. inversion E1; subst. split; reflexivity.
      - unfold write_packet in E1 |- *. cbn [logged mx_packet mc_muxer mc_writer mc_private fst snd] in *.
        destruct (mx_packet mx m w p) as [[[m' w'] r']| |]; try discriminate. cbn [obind] in *. inversion E1; subst. split; reflexivity.
      - unfold write_trailer in E1 |- *. cbn [logged mx_trailer mc_muxer mc_writer mc_private fst snd] in *.
        destruct (mx_trailer mx m w) as [[[m' w'] r']| |]; try discriminate. cbn [obind] in *.
        destruct r' as [[[]|e]|]; try (inversion E1; subst; split; reflexivity).
        destruct (writer_flush s w') as [w'' [[]|e]]; inversion E1; subst; split; reflexivity.
      - unfold mux_set_info in E1 |- *. cbn [logged mx_info mc_muxer mc_writer mc_private fst snd] in *.
        destruct (mx_info mx m g) as [[m' r']| |]; try discriminate. cbn [obind] in *. inversion E1; subst. split; reflexivity.
      - unfold mux_set_option in E1 |- *. cbn [logged mx_option mc_muxer mc_writer mc_private fst snd] in *.
        destruct (mx_option mx m key val) as [[m' r']| |]; try discriminate. cbn [obind] in *. inversion E1; subst. split; reflexivity. }
    rewrite K1. cbn [obind]. destruct c1 as [m1 w1 u1]. cbn [mc_muxer mc_writer mc_private] in *. subst u1.
    destruct (IH m1 (l ++ [op]) w1 u c' rs' E2) as [K3 [K4 K5]].
    rewrite K3. cbn [obind]. rewrite <- app_assoc. cbn [app]. split; [reflexivity|]. split; [cbn [List.length]; congruence|exact K5].
Qed.

Section Output.
Context {P V M W : Type}.
Variable em : emitter P V M.
Variable s : sink W.
Variable good : W -> Prop.
Variable tape : W -> list mark.
Hypothesis Hk : keeps s good tape.

Lemma write_kept : forall w buf w' res, good (w_inner w) -> writer_write s w buf = (w', res) ->
  good (w_inner w') /\
  match res with
  | Okay n => n <= List.length buf /\ tape (w_inner w') = tape (w_inner w) ++ map Byte (firstn n buf)
  | Error _ => tape (w_inner w') = tape (w_inner w)
  end.
Proof.
  intros [w k] buf w' res Hg E. unfold writer_write in E. cbn [w_inner w_written] in *.
  destruct (sk_write s w buf) as [w1 r] eqn:E1. destruct (kp_write s good tape Hk w buf w1 r Hg E1) as [Hg1 H].
  destruct r as [n|e]; inversion E; subst; split; cbn [w_inner]; assumption.
Qed.

Lemma flush_kept : forall w w' res, good (w_inner w) -> writer_flush s w = (w', res) ->
  good (w_inner w') /\
  match res with Okay _ => tape (w_inner w') = tape (w_inner w) ++ [Flushed] | Error _ => tape (w_inner w') = tape (w_inner w) end.
Proof.
  intros [w k] w' res Hg E. unfold writer_flush in E. cbn [w_inner w_written] in *.
  destruct (sk_flush s w) as [w1 r] eqn:E1. destruct (kp_flush s good tape Hk w w1 r Hg E1) as [Hg1 H].
  inversion E; subst; split; cbn [w_inner]; assumption.
Qed.

Lemma firstn_skipn_le : forall (A : Type) n k (l : list A), firstn n l ++ firstn k (skipn n l) = firstn (n + k) l.
Proof.
  intros A n k l. revert n. induction l as [|x l IH]; intros n; [rewrite skipn_nil, !firstn_nil; reflexivity|].
  destruct n as [|n]; [reflexivity|]. cbn. rewrite IH. reflexivity.
Qed.

Lemma all_kept : forall fuel w buf w' res, good (w_inner w) -> write_all (writer_sink s) fuel w buf = Ret (w', Some res) ->
  good (w_inner w') /\
  match res with
  | Okay _ => tape (w_inner w') = tape (w_inner w) ++ map Byte buf
  | Error _ => exists k, tape (w_inner w') = tape (w_inner w) ++ map Byte (firstn k buf)
  end.
Proof.
  induction fuel as [|fuel IH]; intros w buf w' res Hg E; destruct buf as [|x buf]; cbn [write_all] in E;
    try (inversion E; subst; cbn [map]; rewrite app_nil_r; split; [assumption|reflexivity]); [discriminate|].
  cbn [sk_write writer_sink] in E. destruct (writer_write s w (x :: buf)) as [w1 r] eqn:E1.
  destruct (write_kept _ _ _ _ Hg E1) as [Hg1 H1].
  destruct r as [[|n]|e].
  - inversion E; subst. split; [assumption|]. exists 0. apply H1.
  - rewrite slice_tail in E. destruct (S n <=? List.length (x :: buf)); [|discriminate].
    cbn [obind] in E. destruct (IH _ _ _ _ Hg1 E) as [Hg2 H2]. split; [assumption|]. destruct H1 as [_ H1].
    destruct res as [u|e].
    + rewrite H2, H1, <- app_assoc, <- map_app, firstn_skipn. reflexivity.
    + destruct H2 as [k H2]. exists (S n + k). rewrite H2, H1, <- app_assoc, <- map_app, firstn_skipn_le. reflexivity.
  - assert (forall e', Ret (w1, Some (Error e')) = Ret (w', Some res) ->
      good (w_inner w') /\ match res with Okay _ => tape (w_inner w') = tape (w_inner w) ++ map Byte (x :: buf)
        | Error _ => exists k, tape (w_inner w') = tape (w_inner w) ++ map Byte (firstn k (x :: buf)) end) as Hend.
    { intros e' E'. inversion E'; subst. split; [assumption|]. exists 0. cbn. rewrite app_nil_r. exact H1. }
    destruct e; try (exact (Hend _ E)).
    destruct (IH _ _ _ _ Hg1 E) as [Hg2 H2]. split; [assumption|]. rewrite <- H1. exact H2.
Qed.

Lemma emit_kept : forall fuel (d : M * result (list N) error) w m' w' r, good (w_inner w) -> emit s fuel d w = Ret (m', w', Some r) ->
  m' = fst d /\ good (w_inner w') /\
  exists marks, tape (w_inner w') = tape (w_inner w) ++ marks /\ leaves false (snd d) r marks.
Proof.
  intros fuel [m [buf|e]] w m' w' r Hg E; cbn [emit fst snd] in *.
  - destruct (write_all (writer_sink s) fuel w buf) as [[w1 r1]| |] eqn:E1; try discriminate. cbn [obind] in E.
    destruct r1 as [r1|]; [|discriminate]. destruct (all_kept _ _ _ _ _ Hg E1) as [Hg1 H1].
    destruct r1 as [u|e]; inversion E; subst; (split; [reflexivity|split; [assumption|]]).
    + exists (map Byte buf). cbn [leaves]. rewrite app_nil_r. split; [exact H1|reflexivity].
    + destruct H1 as [k H1]. exists (map Byte (firstn k buf)). split; [exact H1|]. exists k. reflexivity.
  - inversion E; subst. split; [reflexivity|]. split; [assumption|]. exists []. rewrite app_nil_r. cbn. split; [reflexivity|split; reflexivity].
Qed.

Lemma quiet_leaves : forall (m : M) (r r' : result unit error), r' = r ->
  leaves false (snd (m, match r with Okay _ => Okay [] | Error e => Error e end)) r' [].
Proof. intros m [[]|e] r' ->; cbn; [reflexivity|split; reflexivity]. Qed.

Lemma step_output : forall fuel op m w u c1 r, good (w_inner w) ->
  mux_step (emitter_muxer em s fuel) s (mk_mctx m w u) op = Ret (c1, Some r) ->
  mc_muxer c1 = fst (decides em m op) /\ mc_private c1 = u /\ good (w_inner (mc_writer c1)) /\
  exists marks, tape (w_inner (mc_writer c1)) = tape (w_inner w) ++ marks /\ leaves (is_trailer op) (snd (decides em m op)) r marks.
Proof.
  intros fuel op m w u c1 r Hg E. destruct op as [| |p| |g|key val]; cbn [mux_step is_trailer decides] in E |- *.
  - unfold mux_configure in E. cbn [emitter_muxer mx_configure mc_muxer mc_writer mc_private] in E.
    destruct (em_configure em m) as [m' r']. cbn [obind] in E. inversion E; subst. cbn [mc_muxer mc_writer mc_private].
    repeat (split; [first [reflexivity|assumption]|]). exists []. rewrite app_nil_r. split; [reflexivity|apply quiet_leaves; reflexivity].
  - unfold write_header in E. cbn [emitter_muxer mx_header mc_muxer mc_writer mc_private] in E.
    destruct (emit s fuel (em_header em m) w) as [[[m' w'] r']| |] eqn:E1; try discriminate. cbn [obind] in E. inversion E; subst.
    destruct (emit_kept _ _ _ _ _ _ Hg E1) as [K1 [K2 K3]]. repeat (split; [first [assumption|reflexivity]|]). exact K3.
  - unfold write_packet in E. cbn [emitter_muxer mx_packet mc_muxer mc_writer mc_private] in E.
    destruct (emit s fuel (em_packet em m p) w) as [[[m' w'] r']| |] eqn:E1; try discriminate. cbn [obind] in E. inversion E; subst.
    destruct (emit_kept _ _ _ _ _ _ Hg E1) as [K1 [K2 K3]]. repeat (split; [first [assumption|reflexivity]|]). exact K3.
  - unfold write_trailer in E. cbn [emitter_muxer mx_trailer mc_muxer mc_writer mc_private] in E.
    destruct (emit s fuel (em_trailer em m) w) as [[[m' w'] r']| |] eqn:E1; try discriminate. cbn [obind] in E.
    destruct r' as [r'|]; [|discriminate].
    destruct (emit_kept _ _ _ _ _ _ Hg E1) as [K1 [K2 [marks [K3 K4]]]].
    destruct r' as [[]|e].
    + destruct (snd (em_trailer em m)) as [buf|e] eqn:Ed; [|contradiction]. cbn [leaves] in K4. rewrite app_nil_r in K4. subst marks.
      destruct (writer_flush s w') as [w'' fr] eqn:Ef. destruct (flush_kept _ _ _ K2 Ef) as [K5 K6].
      destruct fr as [v|e]; inversion E; subst; cbn [mc_muxer mc_writer mc_private].
      * split; [reflexivity|]. split; [reflexivity|]. split; [assumption|]. exists (map Byte buf ++ [Flushed]). rewrite K6, K3, app_assoc. split; reflexivity.
      * split; [reflexivity|]. split; [reflexivity|]. split; [assumption|]. exists (map Byte buf). rewrite K6. split; [exact K3|].
        cbn [leaves]. exists (List.length buf). rewrite firstn_all. reflexivity.
    + inversion E; subst; cbn [mc_muxer mc_writer mc_private]. split; [reflexivity|]. split; [reflexivity|]. split; [assumption|].
      exists marks. split; [exact K3|]. destruct (snd (em_trailer em m)) as [buf|e']; exact K4.
  - unfold mux_set_info in E. cbn [emitter_muxer mx_info mc_muxer mc_writer mc_private] in E.
    destruct (em_info em m g) as [m' r']. cbn [obind] in E. inversion E; subst. cbn [mc_muxer mc_writer mc_private].
    repeat (split; [first [reflexivity|assumption]|]). exists []. rewrite app_nil_r. split; [reflexivity|apply quiet_leaves; reflexivity].
  - unfold mux_set_option in E. cbn [emitter_muxer mx_option mc_muxer mc_writer mc_private] in E.
    destruct (em_option em m key val) as [m' r']. cbn [obind] in E. inversion E; subst. cbn [mc_muxer mc_writer mc_private].
    repeat (split; [first [reflexivity|assumption]|]). exists []. rewrite app_nil_r. split; [reflexivity|apply quiet_leaves; reflexivity].
Qed.

Lemma run_output : forall fuel ops c c' rs, good (w_inner (mc_writer c)) ->
  mux_run (emitter_muxer em s fuel) s c ops = Ret (c', Some rs) ->
  exists marks, tape (w_inner (mc_writer c')) = tape (w_inner (mc_writer c)) ++ marks /\
    output em (mc_muxer c) ops rs (mc_muxer c') marks.
Proof.
  intros fuel. induction ops as [|op ops IH]; intros c c' rs Hg E; cbn [mux_run] in E.
  - inversion E; subst. exists []. rewrite app_nil_r. cbn. split; [reflexivity|split; reflexivity].
  - destruct (mux_step (emitter_muxer em s fuel) s c op) as [[c1 [r|]]| |] eqn:E1; try discriminate. cbn [obind] in E.
    destruct (mux_run (emitter_muxer em s fuel) s c1 ops) as [[c2 [rs'|]]| |] eqn:E2; try discriminate. cbn [obind] in E.
    inversion E; subst. destruct c as [m w u]. cbn [mc_muxer mc_writer] in *.
    destruct (step_output _ _ _ _ _ _ _ Hg E1) as [K1 [_ [K2 [l1 [K3 K4]]]]].
    destruct (IH _ _ _ K2 E2) as [l2 [K5 K6]]. exists (l1 ++ l2). rewrite K5, K3, app_assoc. split; [reflexivity|].
    cbn [output]. exists l1, l2. split; [reflexivity|]. split; [exact K4|]. rewrite <- K1. exact K6.
Qed.

(** ** Outputs that accept everything *)
Hypothesis Ha : accepts s good.

Lemma all_accepted : forall fuel w buf, good (w_inner w) -> List.length buf <= fuel ->
  exists w', write_all (writer_sink s) fuel w buf = Ret (w', Some (Okay tt)).
Proof.
  induction fuel as [|fuel IH]; intros w buf Hg Hl; (destruct buf as [|x buf]; [exists w; reflexivity|]); cbn [List.length] in Hl; [lia|].
  cbn [write_all sk_write writer_sink].
  destruct (writer_write s w (x :: buf)) as [w1 r] eqn:E1. destruct (write_kept _ _ _ _ Hg E1) as [Hg1 H1].
  assert (exists n, r = Okay (S n)) as [n ->].
  { unfold writer_write in E1. destruct (sk_write s (w_inner w) (x :: buf)) as [w2 r2] eqn:E2.
    destruct (ac_write s good Ha _ _ _ _ Hg E2) as [n ->]; [discriminate|]. exists n. congruence. }
  rewrite slice_tail. destruct H1 as [H1 _]. destruct (Nat.leb_spec (S n) (List.length (x :: buf))); [|lia].
  cbn [obind]. apply IH; [exact Hg1|]. rewrite skipn_length. cbn [List.length]. lia.
Qed.

(** fuel that is enough for a sequence of calls *)
Fixpoint longest (m : M) (ops : list (mux_op P V)) : nat :=
  match ops with
  | [] => 0
  | op :: ops' =>
      let '(m', d) := decides em m op in
      Nat.max (match d with Okay buf => List.length buf | Error _ => 0 end) (longest m' ops')
  end.

Lemma emit_accepted : forall fuel (d : M * result (list N) error) w, good (w_inner w) ->
  match snd d with Okay buf => List.length buf | Error _ => 0 end <= fuel ->
  exists w', emit s fuel d w = Ret (fst d, w', Some (match snd d with Okay _ => Okay tt | Error e => Error e end)).
Proof.
  intros fuel [m [buf|e]] w Hg Hl; cbn [emit fst snd] in *.
  - destruct (all_accepted fuel w buf Hg Hl) as [w' ->]. exists w'. reflexivity.
  - exists w. reflexivity.
Qed.

Lemma step_accepted : forall fuel op m w u, good (w_inner w) ->
  match snd (decides em m op) with Okay buf => List.length buf | Error _ => 0 end <= fuel ->
  exists c1, mux_step (emitter_muxer em s fuel) s (mk_mctx m w u) op = Ret (c1, Some (match snd (decides em m op) with Okay _ => Okay tt | Error e => Error e end)).
Proof.
  intros fuel op m w u Hg Hl. destruct op as [| |p| |g|key val]; cbn [mux_step decides] in *.
  - unfold mux_configure. cbn [emitter_muxer mx_configure mc_muxer mc_writer mc_private].
    destruct (em_configure em m) as [m' [[]|e]]; eexists; reflexivity.
  - unfold write_header. cbn [emitter_muxer mx_header mc_muxer mc_writer mc_private].
    destruct (emit_accepted fuel (em_header em m) w Hg Hl) as [w' ->]. eexists; reflexivity.
  - unfold write_packet. cbn [emitter_muxer mx_packet mc_muxer mc_writer mc_private].
    destruct (emit_accepted fuel (em_packet em m p) w Hg Hl) as [w' ->]. eexists; reflexivity.
  - unfold write_trailer. cbn [emitter_muxer mx_trailer mc_muxer mc_writer mc_private].
    destruct (emit_accepted fuel (em_trailer em m) w Hg Hl) as [w' E1]. rewrite E1. cbn [obind].
    destruct (emit_kept _ _ _ _ _ _ Hg E1) as [_ [Hg' _]].
    destruct (snd (em_trailer em m)) as [buf|e]; [|eexists; reflexivity].
    destruct (writer_flush s w') as [w'' fr] eqn:Ef. assert (fr = Okay tt) as ->.
    { unfold writer_flush in Ef. destruct (sk_flush s (w_inner w')) as [w2 r2] eqn:E2. rewrite (ac_flush s good Ha _ _ _ Hg' E2) in Ef. congruence. }
    eexists; reflexivity.
  - unfold mux_set_info. cbn [emitter_muxer mx_info mc_muxer mc_writer mc_private].
    destruct (em_info em m g) as [m' [[]|e]]; eexists; reflexivity.
  - unfold mux_set_option. cbn [emitter_muxer mx_option mc_muxer mc_writer mc_private].
    destruct (em_option em m key val) as [m' [[]|e]]; eexists; reflexivity.
Qed.

Lemma run_accepted_whole : forall ops fuel m w u m' rs marks, good (w_inner w) -> longest m ops <= fuel ->
  whole_output em m ops = (m', rs, marks) ->
  exists c', mux_run (emitter_muxer em s fuel) s (mk_mctx m w u) ops = Ret (c', Some rs) /\
    mc_muxer c' = m' /\ tape (w_inner (mc_writer c')) = tape (w_inner w) ++ marks.
Proof.
  induction ops as [|op ops IH]; intros fuel m w u m' rs marks Hg Hl E; cbn [whole_output mux_run longest] in *.
  - inversion E; subst. eexists. split; [reflexivity|]. cbn. rewrite app_nil_r. split; reflexivity.
  - destruct (decides em m op) as [m1 d] eqn:Ed. destruct (whole_output em m1 ops) as [[m2 rs2] l2] eqn:Ew.
    destruct (step_accepted fuel op m w u Hg) as [c1 E1]; [rewrite Ed; cbn [snd]; lia|].
    destruct (step_output _ _ _ _ _ _ _ Hg E1) as [K1 [_ [K2 [l1 [K3 K4]]]]].
    rewrite Ed in E1, K1, K4. cbn [fst snd] in *. rewrite E1. cbn [obind].
    destruct c1 as [m1' w1 u1]. cbn [mc_muxer mc_writer] in *. subst m1'.
    assert (longest m1 ops <= fuel) as Hl1 by lia.
    destruct (IH fuel m1 w1 u1 m2 rs2 l2 K2 Hl1 Ew) as [c' [K5 [K6 K7]]]. rewrite K5. cbn [obind].
    exists c'. destruct d as [buf|e]; inversion E; subst; (split; [reflexivity|split; [reflexivity|]]); rewrite K7, K3.
    + cbn [leaves] in K4. subst l1. rewrite <- !app_assoc. reflexivity.
    + cbn [leaves] in K4. destruct K4 as [_ ->]. rewrite app_nil_r. reflexivity.
Qed.

End Output.

(** ** Streams *)

Lemma add_stream_spec : forall (P : Type) (g g' : global_info P) st k, add_stream g st = (g', k) ->
  k = N.of_nat (List.length (g_streams g)) /\
  g_duration g' = g_duration g /\ g_timebase g' = g_timebase g /\
  exists st', g_streams g' = g_streams g ++ [st'] /\ s_index st' = k /\ same_stream st' st /\
    ((0 <= s_id st)%Z -> s_id st' = s_id st) /\ ((s_id st < 0)%Z -> s_id st' = as_isize (s_index st)).
Proof.
  intros P g g' st k E. unfold add_stream in E. inversion E; subst; clear E. cbn [g_duration g_timebase g_streams].
  split; [reflexivity|]. split; [reflexivity|]. split; [reflexivity|]. eexists. split; [reflexivity|].
  cbn [s_index s_id]. split; [reflexivity|]. destruct (Z.ltb_spec (s_id st) 0); cbn [s_id];
    (split; [unfold same_stream; cbn; auto|]); split; intros; try reflexivity; lia.
Qed.

Lemma add_streams_spec : forall (P : Type) (l : list (stream P)) g g' ks, add_streams g l = (g', ks) ->
  ks = map (fun k => N.of_nat (List.length (g_streams g) + k)) (seq 0 (List.length l)) /\
  exists l', g_streams g' = g_streams g ++ l' /\ Forall2 same_stream l' l /\ map s_index l' = ks /\
    Forall2 (fun st' st => s_id st' = if (s_id st <? 0)%Z then as_isize (s_index st) else s_id st) l' l.
Proof.
  intros P. induction l as [|st l IH]; intros g g' ks E; cbn [add_streams] in E.
  - inversion E; subst. split; [reflexivity|]. exists []. rewrite app_nil_r. split; [reflexivity|]. split; [constructor|]. split; [reflexivity|constructor].
  - destruct (add_stream g st) as [g1 k] eqn:E1. destruct (add_streams g1 l) as [g2 ks'] eqn:E2. inversion E; subst. clear E.
    destruct (add_stream_spec _ _ _ _ _ E1) as [Hk [_ [_ [st' [K1 [K2 [K3 [K4 K5]]]]]]]].
    destruct (IH _ _ _ E2) as [H1 [l' [H2 [H3 [H4 H5]]]]]. rewrite K1, app_length in H1. cbn [List.length] in H1.
    split.
    + cbn [List.length seq map]. rewrite Nat.add_0_r, <- Hk. f_equal. rewrite H1, <- seq_shift, map_map. apply map_ext. intros n. f_equal. lia.
    + exists (st' :: l'). rewrite H2, K1, <- app_assoc. split; [reflexivity|]. split; [constructor; assumption|].
      split; [cbn [map]; congruence|]. constructor; [|exact H5]. destruct (Z.ltb_spec (s_id st) 0); [apply K5; assumption|apply K4; assumption].
Qed.

Lemma auto_ids : forall (P : Type) (l : list (stream P)) g ks,
  add_streams (mk_info None None []) l = (g, ks) ->
  (forall st, In st l -> (s_id st < 0)%Z /\ (s_index st < 2 ^ 63)%N) ->
  map s_id (g_streams g) = map (fun st => Z.of_N (s_index st)) l.
Proof.
  intros P l g ks E Hl. destruct (add_streams_spec _ _ _ _ _ E) as [_ [l' [H2 [_ [_ H5]]]]]. cbn [g_streams app] in H2. rewrite H2.
  clear E H2 g ks. revert Hl. induction H5 as [|st' st l' l Hst H5 IH]; intros Hl; [reflexivity|].
  cbn [map]. f_equal; [|apply IH; intros x Hx; apply Hl; right; exact Hx].
  destruct (Hl st (or_introl eq_refl)) as [Hneg Hsmall].
  rewrite Hst. destruct (Z.ltb_spec (s_id st) 0); [|lia]. unfold as_isize, as_signed. change (64 - 1)%N with 63%N.
  destruct (N.ltb_spec (s_index st) (2 ^ 63)); lia.
Qed.

Lemma auto_ids_unique : forall (P : Type) (l : list (stream P)) g ks,
  add_streams (mk_info None None []) l = (g, ks) ->
  (forall st, In st l -> (s_id st < 0)%Z /\ (s_index st < 2 ^ 63)%N) -> NoDup (map s_index l) <-> NoDup (map s_id (g_streams g)).
Proof.
  intros P l g ks E Hl. rewrite (auto_ids P l g ks E Hl), <- (map_map s_index Z.of_N). split.
  - intros H. apply FinFun.Injective_map_NoDup; [|exact H]. intros x y Hxy. apply N2Z.inj. exact Hxy.
  - intros H. exact (NoDup_map_inv _ _ H).
Qed.

(** ** Registries *)

Lemma find_named : forall (T : Type) (name_of : T -> string) l name d,
  mux_by_name name_of l name = Some d <-> first_named name_of l name d.
Proof.
  intros T name_of l name d. unfold mux_by_name, first_named. induction l as [|x l IH]; cbn [find].
  - split; [discriminate|]. intros [[|? ?] [l2 [E _]]]; discriminate.
  - destruct (String.eqb_spec (name_of x) name) as [He|He].
    + split.
      * intros E. inversion E; subst. exists [], l. split; [reflexivity|]. split; [reflexivity|intros ? []].
      * intros [[|y l1] [l2 [E [Hn Hf]]]]; inversion E; subst; [reflexivity|]. exfalso. apply (Hf y); [left; reflexivity|congruence].
    + rewrite IH. split.
      * intros [l1 [l2 [-> [Hn Hf]]]]. exists (x :: l1), l2. split; [reflexivity|]. split; [assumption|].
        intros y [->|Hy]; [assumption|apply Hf; assumption].
      * intros [[|y l1] [l2 [E [Hn Hf]]]]; inversion E; subst; [contradiction|].
        exists l1, l2. split; [reflexivity|]. split; [reflexivity|]. intros z Hz. apply Hf. right. exact Hz.
Qed.

Lemma find_unnamed : forall (T : Type) (name_of : T -> string) l name,
  mux_by_name name_of l name = None <-> forall x, In x l -> name_of x <> name.
Proof.
  intros T name_of l name. unfold mux_by_name. split.
  - intros E x Hx Hn. pose proof (find_none _ _ E x Hx) as H. cbn in H. rewrite Hn, String.eqb_refl in H. discriminate.
  - intros H. destruct (find _ l) as [x|] eqn:E; [|reflexivity]. apply find_some in E. destruct E as [Hx E].
    apply String.eqb_eq in E. exfalso. exact (H x Hx E).
Qed.

Lemma map_get_push : forall (T : Type) (m : name_map T) k v k',
  map_get (map_push m k v) k' =
  if String.eqb k k' then Some (match map_get m k with Some l => l | None => [] end ++ [v]) else map_get m k'.
Proof.
  intros T m k v k'. induction m as [|[a vs] m IH]; cbn [map_push map_get].
  - destruct (String.eqb k k'); reflexivity.
  - destruct (String.eqb_spec a k) as [->|Ha]; cbn [map_get].
    + destruct (String.eqb k k'); reflexivity.
    + rewrite IH. destruct (String.eqb_spec a k') as [->|Ha']; [|reflexivity].
      destruct (String.eqb_spec k k') as [->|]; [contradiction|reflexivity].
Qed.

(** every vector of the map is non-empty *)
Definition filled {T : Type} (m : name_map T) : Prop := forall k, map_get m k <> Some [].

Lemma append_filled : forall (T : Type) (codec_of : T -> string) m d, filled m -> filled (codecs_append codec_of m d).
Proof.
  intros T codec_of m d Hf k. unfold codecs_append. rewrite map_get_push. destruct (String.eqb (codec_of d) k); [|apply Hf].
  intros E. assert (match map_get m (codec_of d) with Some l => l | None => [] end ++ [d] = []) as E' by congruence.
  destruct (match map_get m (codec_of d) with Some l => l | None => [] end); discriminate.
Qed.

Lemma lookup_append : forall (T : Type) (codec_of : T -> string) m d name, filled m ->
  codecs_by_name (codecs_append codec_of m d) name =
  match codecs_by_name m name with
  | Ret None => Ret (if String.eqb (codec_of d) name then Some d else None)
  | other => other
  end.
Proof.
  intros T codec_of m d name Hf. unfold codecs_by_name, codecs_append. rewrite map_get_push.
  destruct (String.eqb_spec (codec_of d) name) as [->|Hn].
  - specialize (Hf name). destruct (map_get m name) as [[|x l]|]; [congruence|reflexivity|reflexivity].
  - destruct (map_get m name) as [[|x l]|]; reflexivity.
Qed.

Lemma fold_filled : forall (T : Type) (codec_of : T -> string) l m, filled m -> filled (fold_left (codecs_append codec_of) l m).
Proof. intros T codec_of. induction l as [|d l IH]; intros m Hf; [exact Hf|]. cbn. apply IH. apply append_filled. exact Hf. Qed.

Lemma new_filled : forall (T : Type), filled (@codecs_new T).
Proof. intros T k. cbn. discriminate. Qed.

Lemma fold_lookup : forall (T : Type) (codec_of : T -> string) name l m, filled m ->
  codecs_by_name (fold_left (codecs_append codec_of) l m) name =
  match codecs_by_name m name with
  | Ret None => Ret (mux_by_name codec_of l name)
  | other => other
  end.
Proof.
  intros T codec_of name. induction l as [|d l IH]; intros m Hf; cbn [fold_left].
  - destruct (codecs_by_name m name) as [[x|]| |]; reflexivity.
  - rewrite IH by (apply append_filled; exact Hf). rewrite lookup_append by exact Hf.
    destruct (codecs_by_name m name) as [[x|]| |]; try reflexivity.
    unfold mux_by_name. cbn [find]. destruct (String.eqb (codec_of d) name); reflexivity.
Qed.

Lemma from_list_lookup : forall (T : Type) (codec_of : T -> string) l name,
  codecs_by_name (codecs_from_list codec_of l) name = Ret (mux_by_name codec_of l name).
Proof. intros T codec_of l name. unfold codecs_from_list. rewrite fold_lookup by apply new_filled. reflexivity. Qed.

Lemma from_list_app : forall (T : Type) (codec_of : T -> string) l1 l2 name d,
  codecs_by_name (codecs_from_list codec_of l1) name = Ret (Some d) ->
  codecs_by_name (codecs_from_list codec_of (l1 ++ l2)) name = Ret (Some d).
Proof.
  intros T codec_of l1 l2 name d E. unfold codecs_from_list in *. rewrite fold_left_app.
  rewrite fold_lookup by (apply fold_filled, new_filled). rewrite E. reflexivity.
Qed.

Lemma append_commute : forall (T : Type) (codec_of : T -> string) l1 l2 a b name, codec_of a <> codec_of b ->
  codecs_by_name (codecs_from_list codec_of (l1 ++ a :: b :: l2)) name =
  codecs_by_name (codecs_from_list codec_of (l1 ++ b :: a :: l2)) name.
Proof.
  intros T codec_of l1 l2 a b name Hne. rewrite !from_list_lookup. f_equal. unfold mux_by_name.
  induction l1 as [|x l1 IH]; cbn [app find].
  - destruct (String.eqb_spec (codec_of a) name); destruct (String.eqb_spec (codec_of b) name); try reflexivity. congruence.
  - rewrite IH. reflexivity.
Qed.

(** ** The concrete outputs *)

Lemma file_ok : sink_ok file_sink (fun _ => True) f_pos.
Proof.
  split.
  - intros w buf w' res _ E. cbn [file_sink sk_write] in E. unfold file_write in E. split; [exact I|].
    destruct (f_script w) as [|[n|e] rest]; inversion E; subst; cbn [f_pos]; [split; [lia|reflexivity]|split; [lia|reflexivity]|reflexivity].
  - intros w w' res _ E. cbn [file_sink sk_flush] in E. unfold file_flush in E. split; [exact I|].
    destruct (f_script w) as [|[n|e] rest]; inversion E; subst; reflexivity.
  - intros w sk w' res _ E. cbn [file_sink sk_seek] in E. unfold file_seek in E. split; [exact I|].
    match type of E with (if ?b then _ else _) = _ => destruct b end; inversion E; subst; reflexivity.
Qed.

Lemma pipe_keeps : keeps pipe_sink (fun _ => True) pp_marks.
Proof.
  split.
  - intros w buf w' res _ E. cbn [pipe_sink sk_write] in E. unfold pipe_write in E. split; [exact I|].
    destruct (pp_script w) as [|[n|e] rest]; inversion E; subst; cbn [pp_marks]; [split; [lia|reflexivity]|split; [lia|reflexivity]|reflexivity].
  - intros w w' res _ E. cbn [pipe_sink sk_flush] in E. unfold pipe_flush in E. split; [exact I|]. inversion E; subst. reflexivity.
Qed.

Definition generous (p : pipe) : Prop := Forall (fun r => exists n, r = Okay (S n)) (pp_script p).

Lemma pipe_keeps_generous : keeps pipe_sink generous pp_marks.
Proof.
  split.
  - intros w buf w' res Hg E. destruct (kp_write _ _ _ pipe_keeps w buf w' res I E) as [_ H]. split; [|exact H].
    cbn [pipe_sink sk_write] in E. unfold pipe_write in E. unfold generous in *. destruct (pp_script w) as [|[n|e] rest]; inversion E; subst; cbn [pp_script]; [constructor| |]; exact (Forall_inv_tail Hg).
  - intros w w' res Hg E. destruct (kp_flush _ _ _ pipe_keeps w w' res I E) as [_ H]. split; [|exact H].
    cbn [pipe_sink sk_flush] in E. unfold pipe_flush in E. inversion E; subst. exact Hg.
Qed.

Lemma pipe_accepts : accepts pipe_sink generous.
Proof.
  split.
  - intros w buf w' res Hg E Hb. cbn [pipe_sink sk_write] in E. unfold pipe_write in E. destruct buf as [|x buf]; [contradiction|].
    unfold generous in Hg. destruct (pp_script w) as [|[n|e] rest]; inversion E; subst; cbn [List.length].
    + eexists; reflexivity.
    + inversion Hg as [|? ? [k Hk] ?]; subst. assert (n = S k) as -> by congruence. eexists; reflexivity.
    + inversion Hg as [|? ? [k Hk] ?]; subst. discriminate.
  - intros w w' res _ E. cbn in E. unfold pipe_flush in E. congruence.
Qed.
