From Coq Require Import List Arith NArith ZArith Bool Lia.
From Coq Require Import ZifyBool ZifyNat ZifyN.
From Verif Require Import Base AccModel AccSpec AccProofs AccProofs2 MuxModel StreamModel StreamSpec WordCountModel WordCountSpec.
Import ListNotations.
Local Open Scope nat_scope.

Section Writer.
Context {W : Type}.
Variable s : sink W.

Lemma write_word : forall w buf, ww_write s (word_writer w) buf =
  let '(w1, res) := writer_write s w buf in
  match res with Okay _ => if (N.of_nat (w_written w1) <? W64)%N then Ret (word_writer w1, res) else Panic | Error _ => Ret (word_writer w1, res) end.
Proof.
  intros w buf. unfold ww_write, writer_write. cbn [word_writer ww_inner ww_written].
  destruct (sk_write s (w_inner w) buf) as [w' [n|e]]; [|reflexivity]. cbn [w_written].
  unfold uadd, word_writer. cbn [w_inner w_written]. rewrite Nat2N.inj_add.
  destruct (N.of_nat (w_written w) + N.of_nat n <? W64)%N; reflexivity.
Qed.

Lemma all_grows : forall fuel w buf w' res, write_all (writer_sink s) fuel w buf = Ret (w', res) -> w_written w <= w_written w'.
Proof.
  induction fuel as [|fuel IH]; intros w [|x buf] w' res H; cbn [write_all] in H.
  - injection H as <- _. lia.
  - injection H as <- _. lia.
  - injection H as <- _. lia.
  - set (b := x :: buf) in *. unfold writer_sink in H at 1. cbn [sk_write] in H.
    destruct (writer_write s w b) as [w1 r1] eqn:E.
    assert (G : w_written w <= w_written w1).
    { unfold writer_write in E. destruct (sk_write s (w_inner w) b) as [u [n|e]]; injection E as <- _; cbn [w_written]; lia. }
    destruct r1 as [[|n]|e].
    + injection H as <- _. exact G.
    + destruct (slice b (S n) (length b)) as [rest| |]; cbn [obind] in H; [|discriminate H..]. apply IH in H. lia.
    + destruct e; try (injection H as <- _; exact G). apply IH in H. lia.
Qed.

Lemma all_word : forall fuel w buf, (N.of_nat (w_written w) < W64)%N ->
  match write_all (writer_sink s) fuel w buf with
  | Ret (w', res) => ww_write_all s fuel (word_writer w) buf = if (N.of_nat (w_written w') <? W64)%N then Ret (word_writer w', res) else Panic
  | _ => ww_write_all s fuel (word_writer w) buf = Panic
  end.
Proof.
  induction fuel as [|fuel IH]; intros w [|x buf] F; cbn [write_all ww_write_all].
  - apply N.ltb_lt in F. rewrite F. reflexivity.
  - apply N.ltb_lt in F. rewrite F. reflexivity.
  - apply N.ltb_lt in F. rewrite F. reflexivity.
  - set (b := x :: buf) in *. unfold writer_sink at 1. cbn [sk_write]. rewrite write_word.
    destruct (writer_write s w b) as [w1 r1] eqn:E.
    assert (G : forall e, r1 = Error e -> w_written w1 = w_written w).
    { intros e ->. unfold writer_write in E. destruct (sk_write s (w_inner w) b) as [u [n|e0]]; [discriminate E|].
      injection E as <- _. reflexivity. }
    destruct r1 as [[|n]|e].
    + destruct (N.of_nat (w_written w1) <? W64)%N; reflexivity.
    + destruct (N.of_nat (w_written w1) <? W64)%N eqn:F1; cbn [obind].
      * apply N.ltb_lt in F1. destruct (slice b (S n) (length b)) as [rest| |] eqn:Es; cbn [obind]; [apply IH; exact F1|reflexivity|].
        unfold slice in Es. destruct (_ && _); discriminate Es.
      * destruct (slice b (S n) (length b)) as [rest| |]; cbn [obind]; [|reflexivity..].
        destruct (write_all (writer_sink s) fuel w1 rest) as [[w' res]| |] eqn:Ew; [|reflexivity..].
        apply all_grows in Ew. destruct (N.of_nat (w_written w') <? W64)%N eqn:F2; [lia|reflexivity].
    + specialize (G e eq_refl). cbn [obind]. assert (F1 : (N.of_nat (w_written w1) < W64)%N) by lia.
      destruct e; try (apply N.ltb_lt in F1; rewrite F1; reflexivity). apply IH. exact F1.
Qed.

Lemma step_word : seeks_words s -> forall w op, (N.of_nat (w_written w) < W64)%N ->
  match writer_step s w op with
  | Ret (w', o) => ww_step s (word_writer w) op = if (N.of_nat (w_written w') <? W64)%N then Ret (word_writer w', o) else Panic
  | _ => ww_step s (word_writer w) op = Panic
  end.
Proof.
  intros Hs w op F. destruct op as [buf|fuel buf| |sk]; cbn [writer_step ww_step].
  - rewrite write_word. destruct (writer_write s w buf) as [w1 r1] eqn:E. destruct r1 as [n|e].
    + destruct (N.of_nat (w_written w1) <? W64)%N; reflexivity.
    + assert (w_written w1 = w_written w) as ->.
      { unfold writer_write in E. destruct (sk_write s (w_inner w) buf) as [u [n|e0]]; [discriminate E|].
        injection E as <- _. reflexivity. }
      apply N.ltb_lt in F. rewrite F. reflexivity.
  - pose proof (all_word fuel w buf F) as A. destruct (write_all (writer_sink s) fuel w buf) as [[w' res]| |]; cbn [obind]; rewrite A.
    + destruct (N.of_nat (w_written w') <? W64)%N; reflexivity.
    + reflexivity.
    + reflexivity.
  - unfold ww_flush, writer_flush. cbn [word_writer ww_inner ww_written]. destruct (sk_flush s (w_inner w)) as [w' res].
    cbn [w_written]. apply N.ltb_lt in F. rewrite F. reflexivity.
  - unfold ww_seek, writer_seek. cbn [word_writer ww_inner ww_written]. destruct (sk_seek s (w_inner w) sk) as [w' [p|e]] eqn:E; cbn [w_written].
    + pose proof (Hs _ _ _ _ E) as Hp. apply N.ltb_lt in Hp. rewrite Hp. reflexivity.
    + apply N.ltb_lt in F. rewrite F. reflexivity.
Qed.

Lemma run_word : seeks_words s -> forall ops w, (N.of_nat (w_written w) < W64)%N ->
  (position_fits s w ops ->
   ww_run s (word_writer w) ops =
   match writer_run s w ops with Ret (w', outs) => Ret (word_writer w', outs) | _ => Panic end) /\
  (~ position_fits s w ops -> ww_run s (word_writer w) ops = Panic).
Proof.
  intros Hs. induction ops as [|op ops IH]; intros w F; cbn [position_fits ww_run writer_run].
  - split; [reflexivity|]. intros H. exfalso. exact (H I).
  - pose proof (step_word Hs w op F) as A. destruct (writer_step s w op) as [[w1 o]| |]; rewrite ?A; cbn [obind].
    + destruct (N.of_nat (w_written w1) <? W64)%N eqn:F1; cbn [obind].
      * apply N.ltb_lt in F1. destruct (IH w1 F1) as [Yes No]. split.
        -- intros H. destruct (H w1 o eq_refl) as [_ H1]. rewrite (Yes H1). destruct (writer_run s w1 ops) as [[w2 os]| |]; reflexivity.
        -- intros H. rewrite No; [reflexivity|]. intros H1. apply H. intros w2 o2 E2. injection E2 as <- <-. split; assumption.
      * split; [|reflexivity]. intros H. destruct (H w1 o eq_refl) as [H1 _]. unfold writer_position in H1. lia.
    + split; [reflexivity|]. intros _. reflexivity.
    + split; [reflexivity|]. intros _. reflexivity.
Qed.
End Writer.

Lemma buffer_word : forall (R : Type) (rd : reader R), honest_reader rd -> forall fuel r buf nread,
  (N.of_nat (length buf) < W64)%N -> nread <= length buf ->
  wget_buffer rd fuel r buf (N.of_nat nread) = get_buffer rd fuel r buf nread.
Proof.
  intros R rd Hh. induction fuel as [|fuel IH]; intros r buf nread L Hn; cbn [wget_buffer get_buffer].
  - replace (N.of_nat nread <? N.of_nat (length buf))%N with (nread <? length buf) by lia. reflexivity.
  - replace (N.of_nat nread <? N.of_nat (length buf))%N with (nread <? length buf) by lia.
    destruct (Nat.ltb_spec nread (length buf)); [|reflexivity]. rewrite Nat2N.id.
    rewrite slice_ok by lia. cbn [obind]. set (tail := firstn _ _).
    assert (Lt : length tail = length buf - nread) by (unfold tail; rewrite firstn_length, skipn_length; lia).
    destruct (rd r tail) as [[[r' t'] [[|n]|e]]| |] eqn:E; try reflexivity. cbn [obind].
    destruct (Hh _ _ _ _ _ E) as [Lt' Ln].
    assert (Lb : length (with_tail buf nread t') = length buf) by (unfold with_tail; rewrite app_length, firstn_length; lia).
    unfold uadd. rewrite <- Nat2N.inj_add. replace (N.of_nat (nread + S n) <? W64)%N with true by lia. cbn [obind].
    apply IH; lia.
Qed.

Lemma end_panics : forall p, (N.of_nat p + 1 = W64)%N ->
  seeks_words (end_sink p) /\ ww_run (end_sink p) (ww_new 0) [WSeek (End 0); WWrite [7%N]] = Panic.
Proof.
  intros p Hp. split.
  - intros w [n|d|d] w' q H; cbn in H; try discriminate H. destruct d; try discriminate H. injection H as _ <-. lia.
  - cbn [ww_run ww_step]. unfold ww_seek, ww_new. cbn [end_sink sk_seek ww_inner obind]. unfold ww_write.
    cbn [end_sink sk_write ww_inner ww_written length]. unfold uadd. change (N.of_nat 1) with 1%N. rewrite Hp. reflexivity.
Qed.

Lemma end_exists : exists p, (N.of_nat p + 1 = W64)%N.
Proof. exists (N.to_nat (W64 - 1)). rewrite N2Nat.id. reflexivity. Qed.

Lemma cursor_honest : honest_reader (io_reader cursor_io).
Proof.
  intros c t c' t' n H. unfold io_reader in H. injection H as H.
  destruct (so_read _ _ _ _ (cursor_ok (cur_src c)) c t c' t' (Okay n) eq_refl H) as [_ [L (K & _)]]. split; assumption.
Qed.
