(** The accessors of [AccReader], [Writer] and the muxing context. *)
From Coq Require Import List Arith NArith ZArith Bool Lia.
From Coq Require Import ZifyBool ZifyNat ZifyN.
From Verif Require Import Base AccModel AccSpec AccProofs AccAnySpec AccMain FormatModel MuxModel MuxSpec MuxProofs MuxMain AccessModel AccessorSpec.
Import ListNotations.
Local Open Scope nat_scope.

Lemma reader_views : forall (R : Type) (i : io R) src good tell cap r0 ops a outs,
  source_ok i src good tell -> good r0 -> tell r0 = 0 ->
  acc_legal i (with_capacity cap r0) ops -> acc_run i (with_capacity cap r0) ops = Ret (a, outs) ->
  exists p n, seek i a (Current 0) = Ret (a, Okay p) /\ capacity a = Ret n /\ tell (get_ref a) = p + n /\
    current_slice a = Ret (firstn n (skipn p src)) /\ data a = Ret (firstn n (skipn p src)) /\ length (firstn n (skipn p src)) = n.
Proof.
  intros R i src good tell cap r0 ops a outs Hs Hg Ht Hl E.
  destruct (run_rep i src good tell Hs ops _ 0 (new_rep src good tell cap r0 Hg Ht) Hl) as [a' [outs' [p [E' [Hr Hh]]]]].
  rewrite E in E'. injection E' as <- <-.
  exists p, (buffered a). split.
  - cbn [seek]. rewrite csub_ok by apply Hr. cbn [obind Z.leb Z.compare Z.to_nat Nat.leb].
    pose proof (rp_index _ _ _ _ _ Hr) as Hx. destruct a as [x1 x2 x3 x4 x5]. cbn [inner abuf apos aend aindex] in *.
    rewrite !Nat.add_0_r. subst x5. reflexivity.
  - split; [unfold capacity; apply csub_ok; apply Hr|]. split.
    { exact (rp_tell _ _ _ _ _ Hr). }
    pose proof (data_rep src good tell a p Hr) as Hd. split; [exact Hd|]. split; [exact Hd|]. apply (data_length src good tell a p Hr).
Qed.

Lemma first_fill : forall (R : Type) (i : io R) cap (r : R) r' buf res, 0 < cap -> io_read i r (repeat 0%N cap) = (r', buf, res) -> length buf = cap ->
  match res with
  | Okay n => n <= cap -> exists a', fill_buf i (with_capacity cap r) = Ret (a', Okay (firstn n buf)) /\ get_ref a' = r'
  | Error e => exists a', fill_buf i (with_capacity cap r) = Ret (a', Error e) /\ get_ref a' = r' /\ data a' = Ret []
  end.
Proof.
  intros R i cap r r' buf res Hc E Hl. unfold fill_buf. cbn [with_capacity apos aend abuf inner aindex].
  rewrite repeat_length. replace (negb (0 =? 0) || negb (0 =? cap)) with true by (destruct cap; [lia|reflexivity]).
  change (reset_buffer_position (mk_acc r (repeat 0%N cap) 0 0 0)) with (Ret (mk_acc r (repeat 0%N cap) 0 0 0)).
  change (reset_buffer_position (with_capacity cap r)) with (Ret (mk_acc r (repeat 0%N cap) 0 0 0)).
  cbn [obind apos aend abuf inner aindex]. rewrite slice_ok by (rewrite ?repeat_length; lia). cbn [obind].
  rewrite ?repeat_length, Nat.sub_0_r. cbn [skipn]. rewrite (firstn_all2 (n := cap)) by (rewrite repeat_length; lia). rewrite E.
  unfold with_tail. cbn [firstn app]. destruct res as [n|e].
  - intros Hn. cbn [abuf apos aend Nat.add]. rewrite slice_ok by lia. cbn [obind skipn]. rewrite Nat.sub_0_r. eexists. split; reflexivity.
  - eexists. split; [reflexivity|]. split; [reflexivity|]. unfold data. cbn [abuf apos aend]. rewrite slice_ok by lia. reflexivity.
Qed.

Lemma new_reader : forall (R : Type) (i : io R) (r : R) r' buf res, io_read i r (repeat 0%N 4096) = (r', buf, res) -> length buf = 4096 ->
  let a := acc_new r in
  current_slice a = Ret [] /\ data a = Ret [] /\ capacity a = Ret 0 /\ get_ref a = r /\ into_inner a = r /\
  match res with
  | Okay n => n <= 4096 -> exists a', fill_buf i a = Ret (a', Okay (firstn n buf)) /\ get_ref a' = r'
  | Error e => exists a', fill_buf i a = Ret (a', Error e) /\ get_ref a' = r' /\ data a' = Ret []
  end.
Proof.
  intros R i r r' buf res E Hl a. assert (Hd : data a = Ret []) by (unfold data, a, acc_new; cbn [with_capacity abuf apos aend]; apply slice_ok; lia).
  split; [exact Hd|]. split; [exact Hd|]. split; [reflexivity|]. split; [reflexivity|]. split; [reflexivity|].
  apply (first_fill R i 4096 r r' buf res); [lia|exact E|exact Hl].
Qed.

(** ** The writer of a muxing context *)

Lemma bytes_app : forall l m, bytes_in (l ++ m) = bytes_in l + bytes_in m.
Proof. intros l m. unfold bytes_in. rewrite filter_app, app_length. reflexivity. Qed.
Lemma bytes_all : forall l, bytes_in (map Byte l) = length l.
Proof. induction l as [|x l IH]; [reflexivity|]. unfold bytes_in in *. cbn [map filter is_byte length]. rewrite IH. reflexivity. Qed.

Section Position.
Context {P V M W : Type}.
Variable em : emitter P V M.
Variable s : sink W.
Variable good : W -> Prop.
Variable tape : W -> list mark.
Hypothesis Hk : keeps s good tape.
Variable k : nat.

(** What was written since the writer was made. *)
Definition counted (w : writer W) : Prop := good (w_inner w) /\ w_written w + k = bytes_in (tape (w_inner w)).

Lemma write_counted : forall w buf w' res, counted w -> writer_write s w buf = (w', res) -> counted w'.
Proof.
  intros w buf w' res [Hg Hc] E. destruct (write_kept s good tape Hk _ _ _ _ Hg E) as [Hg' H]. split; [exact Hg'|].
  unfold writer_write in E. destruct (sk_write s (w_inner w) buf) as [w1 [n|e]]; injection E as <- <-; cbn [w_inner w_written] in *.
  - destruct H as [Hn Ht]. rewrite Ht, bytes_app, bytes_all, firstn_length, <- Hc. lia.
  - rewrite H. exact Hc.
Qed.

Lemma flush_counted : forall w w' res, counted w -> writer_flush s w = (w', res) -> counted w'.
Proof.
  intros w w' res [Hg Hc] E. destruct (flush_kept s good tape Hk _ _ _ Hg E) as [Hg' H]. split; [exact Hg'|].
  unfold writer_flush in E. destruct (sk_flush s (w_inner w)) as [w1 [n|e]]; injection E as <- <-; cbn [w_inner w_written] in *; rewrite H; [|exact Hc].
  rewrite bytes_app, <- Hc. cbn. lia.
Qed.

Lemma all_counted : forall fuel w buf w' res, counted w -> write_all (writer_sink s) fuel w buf = Ret (w', res) -> counted w'.
Proof.
  induction fuel as [|fuel IH]; intros w buf w' res Hc E; destruct buf as [|x buf]; cbn [write_all] in E; try (injection E as <- <-; exact Hc).
  cbn [sk_write writer_sink] in E. destruct (writer_write s w (x :: buf)) as [w1 r] eqn:E1.
  pose proof (write_counted _ _ _ _ Hc E1) as Hc1. destruct r as [[|n]|e].
  - injection E as <- <-. exact Hc1.
  - destruct (slice (x :: buf) (Datatypes.S n) _) as [rest| |]; [|discriminate E|discriminate E]. cbn [obind] in E. exact (IH _ _ _ _ Hc1 E).
  - destruct e; first [exact (IH _ _ _ _ Hc1 E)|injection E as <- <-; exact Hc1].
Qed.

Lemma emit_counted : forall fuel (d : M * result (list N) error) w m' w' res, counted w -> emit s fuel d w = Ret (m', w', res) -> counted w'.
Proof.
  intros fuel [m [buf|e]] w m' w' res Hc E; cbn [emit] in E; [|injection E as _ <- _; exact Hc].
  destruct (write_all (writer_sink s) fuel w buf) as [[w1 r]| |] eqn:E1; [|discriminate E|discriminate E]. cbn [obind] in E.
  injection E as _ <- _. exact (all_counted _ _ _ _ _ Hc E1).
Qed.

Lemma step_counted : forall fuel op c c' res, counted (mc_writer c) -> mux_step (emitter_muxer em s fuel) s c op = Ret (c', res) -> counted (mc_writer c').
Proof.
  intros fuel op [m w u] c' res Hc E. cbn [mc_writer] in Hc.
  destruct op; cbn [mux_step] in E; unfold mux_configure, write_header, write_packet, write_trailer, mux_set_info, mux_set_option in E;
    cbn [emitter_muxer mx_configure mx_header mx_packet mx_trailer mx_info mx_option mc_muxer mc_writer mc_private] in E.
  - destruct (em_configure em m). cbn [obind] in E. injection E as <- <-. exact Hc.
  - destruct (emit s fuel _ w) as [[[m' w'] r]| |] eqn:E1; [|discriminate E|discriminate E]. cbn [obind] in E. injection E as <- <-.
    exact (emit_counted _ _ _ _ _ _ Hc E1).
  - destruct (emit s fuel _ w) as [[[m' w'] r]| |] eqn:E1; [|discriminate E|discriminate E]. cbn [obind] in E. injection E as <- <-.
    exact (emit_counted _ _ _ _ _ _ Hc E1).
  - destruct (emit s fuel _ w) as [[[m' w'] r]| |] eqn:E1; [|discriminate E|discriminate E]. cbn [obind] in E.
    pose proof (emit_counted _ _ _ _ _ _ Hc E1) as Hc1.
    destruct r as [[u1|e]|]; try (injection E as <- <-; exact Hc1).
    destruct (writer_flush s w') as [w2 [u2|e]] eqn:E2; injection E as <- <-; exact (flush_counted _ _ _ Hc1 E2).
  - destruct (em_info em m g). cbn [obind] in E. injection E as <- <-. exact Hc.
  - destruct (em_option em m key val). cbn [obind] in E. injection E as <- <-. exact Hc.
Qed.

Lemma run_counted : forall fuel ops c c' res, counted (mc_writer c) -> mux_run (emitter_muxer em s fuel) s c ops = Ret (c', res) -> counted (mc_writer c').
Proof.
  intros fuel. induction ops as [|op ops IH]; intros c c' res Hc E; cbn [mux_run] in E; [injection E as <- _; exact Hc|].
  destruct (mux_step (emitter_muxer em s fuel) s c op) as [[c1 r]| |] eqn:E1; [|discriminate E|discriminate E]. cbn [obind] in E.
  pose proof (step_counted _ _ _ _ _ Hc E1) as Hc1. destruct r as [r|]; [|injection E as <- _; exact Hc1].
  destruct (mux_run (emitter_muxer em s fuel) s c1 ops) as [[c2 rest]| |] eqn:E2; [|discriminate E|discriminate E]. cbn [obind] in E.
  pose proof (IH _ _ _ Hc1 E2) as Hc2. destruct rest; injection E as <- _; exact Hc2.
Qed.
End Position.

Lemma muxed_bytes : forall (P V M W : Type) (em : emitter P V M) (s : sink W) good tape fuel ops m w0 c' res,
  keeps s good tape -> good w0 ->
  mux_run (emitter_muxer em s fuel) s (mctx_new m (writer_new w0)) ops = Ret (c', res) ->
  exists out n, writer_as_ref (mctx_writer c') = (out, n) /\ bytes_in (tape out) = bytes_in (tape w0) + n /\
    writer_position (mctx_writer c') = n /\ mctx_into_writer c' = mctx_writer c'.
Proof.
  intros P V M W em s good tape fuel ops m w0 c' res Hk Hg E.
  pose proof (run_counted em s good tape Hk (bytes_in (tape w0)) fuel ops (mctx_new m (writer_new w0)) c' res (conj Hg eq_refl) E) as [_ H].
  eexists _, _. split; [reflexivity|]. split; [unfold mctx_writer; lia|]. split; reflexivity.
Qed.
