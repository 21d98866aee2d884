From Coq Require Import List Arith NArith ZArith Bool Lia.
From Coq Require Import ZifyBool ZifyNat ZifyN.
From Verif Require Import Base AccModel AccSpec AccProofs AccProofs2 MuxModel StreamModel StreamSpec WordCountModel WordCountSpec WordCountProofs.
From Verif Require Import ReleaseModel ReleaseMiscModel MachineModel MachineCountModel MachineCountSpec MachineAccProofs MachineAccProofs2.
Import ListNotations.
Local Open Scope N_scope.

Section Machine.
Variable m : machine.
Hypothesis Hbits : 1 <= bits m.
Notation lap p := (N.of_nat p / 2 ^ bits m).

Lemma madd_lap a n : madd m (N.of_nat a mod 2 ^ bits m) (N.of_nat n) =
  if checked m && negb (lap (a + n) =? lap a) then Panic else Ret (N.of_nat (a + n) mod 2 ^ bits m).
Proof.
  pose proof (modulus_nz m Hbits) as Hz. unfold madd, ranged. fold (modulus m). rewrite Nat2N.inj_add. set (M := modulus m) in *. set (x := N.of_nat a). set (y := N.of_nat n).
  pose proof (N.div_mod x M Hz) as D. pose proof (N.mod_lt x M Hz) as L. set (q := x / M) in *. set (t := x mod M) in *.
  assert (E : (x + y) / M = q + (t + y) / M) by (rewrite D; rewrite <- N.add_assoc, (N.mul_comm M q), N.div_add_l by exact Hz; reflexivity).
  assert (F : (x + y) mod M = (t + y) mod M) by (unfold t; rewrite N.add_mod_idemp_l by exact Hz; reflexivity).
  rewrite E, F. destruct (N.ltb_spec (t + y) M) as [H|H].
  - rewrite N.div_small, N.mod_small by exact H. rewrite N.add_0_r, N.eqb_refl, andb_false_r. reflexivity.
  - assert (1 <= (t + y) / M) by (apply N.div_le_lower_bound; lia).
    destruct (N.eqb_spec (q + (t + y) / M) q); [lia|]. cbn [negb]. rewrite andb_true_r. reflexivity.
Qed.

Section Writer.
Context {W : Type}.
Variable s : sink W.

Definition moved (w w1 : writer W) : bool := checked m && negb (lap (w_written w1) =? lap (w_written w)).

Lemma moved_same (w w1 : writer W) : w_written w1 = w_written w -> moved w w1 = false.
Proof. intros E. unfold moved. rewrite E, N.eqb_refl. apply andb_false_r. Qed.

Lemma write_on w buf : mw_write m s (writer_on m w) buf =
  (let '(w1, res) := writer_write s w buf in if moved w w1 then Panic else Ret (writer_on m w1, res)).
Proof.
  unfold mw_write, writer_write, moved. cbn [writer_on ww_inner ww_written].
  destruct (sk_write s (w_inner w) buf) as [w' [n|e]]; cbn [w_written].
  - rewrite madd_lap. destruct (checked m && _); reflexivity.
  - rewrite N.eqb_refl, andb_false_r. reflexivity.
Qed.

Lemma write_mono w buf w1 res : writer_write s w buf = (w1, res) -> (w_written w <= w_written w1)%nat.
Proof. unfold writer_write. destruct (sk_write s (w_inner w) buf) as [u [n|e]]; intros E; injection E as <- _; cbn [w_written]; lia. Qed.

Lemma lap_mono a b : (a <= b)%nat -> lap a <= lap b.
Proof. intros H. apply N.div_le_mono; [apply (modulus_nz m Hbits)|lia]. Qed.

Lemma moved_trans w w1 w2 : (w_written w <= w_written w1 <= w_written w2)%nat -> moved w w2 = moved w w1 || moved w1 w2.
Proof.
  intros [H1 H2]. apply lap_mono in H1, H2. unfold moved. destruct (checked m); [|reflexivity]. cbn [andb].
  destruct (N.eqb_spec (lap (w_written w2)) (lap (w_written w))), (N.eqb_spec (lap (w_written w1)) (lap (w_written w))),
    (N.eqb_spec (lap (w_written w2)) (lap (w_written w1))); cbn [negb orb]; lia.
Qed.

Lemma all_on : forall fuel w buf,
  mw_write_all m s fuel (writer_on m w) buf =
  match write_all (writer_sink s) fuel w buf with
  | Ret (w', res) => if moved w w' then Panic else Ret (writer_on m w', res)
  | _ => Panic
  end.
Proof.
  induction fuel as [|fuel IH]; intros w [|x buf]; cbn [write_all mw_write_all]; [rewrite moved_same by reflexivity; reflexivity..|].
  set (b := x :: buf) in *. unfold writer_sink at 1. cbn [sk_write]. rewrite write_on.
  destruct (writer_write s w b) as [w1 r1] eqn:E. pose proof (write_mono _ _ _ _ E) as G.
  destruct (moved w w1) eqn:Mv; cbn [obind].
  - (* already panicked *)
    destruct r1 as [[|n]|e]; [rewrite Mv; reflexivity|..].
    + destruct (slice b (S n) (length b)) as [rest| |]; cbn [obind]; [|reflexivity..].
      destruct (write_all (writer_sink s) fuel w1 rest) as [[w' res]| |] eqn:Ew; [|reflexivity..].
      pose proof (all_grows s _ _ _ _ _ Ew). rewrite (moved_trans w w1 w') by lia. rewrite Mv. reflexivity.
    + destruct e; try (rewrite Mv; reflexivity).
      destruct (write_all (writer_sink s) fuel w1 b) as [[w' res]| |] eqn:Ew; [|reflexivity..].
      pose proof (all_grows s _ _ _ _ _ Ew). rewrite (moved_trans w w1 w') by lia. rewrite Mv. reflexivity.
  - destruct r1 as [[|n]|e]; [rewrite Mv; reflexivity|..].
    + destruct (slice b (S n) (length b)) as [rest| |] eqn:Es; cbn [obind]; [|reflexivity|].
      * rewrite IH. destruct (write_all (writer_sink s) fuel w1 rest) as [[w' res]| |] eqn:Ew; [|reflexivity..].
        pose proof (all_grows s _ _ _ _ _ Ew). rewrite (moved_trans w w1 w') by lia. rewrite Mv. reflexivity.
      * unfold slice in Es. destruct (_ && _); discriminate Es.
    + destruct e; try (rewrite Mv; reflexivity). rewrite IH.
      destruct (write_all (writer_sink s) fuel w1 b) as [[w' res]| |] eqn:Ew; [|reflexivity..].
      pose proof (all_grows s _ _ _ _ _ Ew). rewrite (moved_trans w w1 w') by lia. rewrite Mv. reflexivity.
Qed.

Definition is_seek (op : writer_op) : bool := match op with WSeek _ => true | _ => false end.

Lemma step_on w op :
  mw_step m s (writer_on m w) op =
  match writer_step s w op with
  | Ret (w', o) => if negb (is_seek op) && moved w w' then Panic else Ret (writer_on m w', o)
  | _ => Panic
  end.
Proof.
  destruct op as [buf|fuel buf| |sk]; cbn [writer_step mw_step is_seek negb andb].
  - rewrite write_on. destruct (writer_write s w buf) as [w1 r1]. destruct (moved w w1); reflexivity.
  - rewrite all_on. destruct (write_all (writer_sink s) fuel w buf) as [[w' res]| |]; cbn [obind]; [|reflexivity..].
    destruct (moved w w'); reflexivity.
  - unfold mw_flush, writer_flush. cbn [writer_on ww_inner ww_written]. destruct (sk_flush s (w_inner w)) as [w' res].
    rewrite moved_same by reflexivity. reflexivity.
  - unfold mw_seek, writer_seek. cbn [writer_on ww_inner ww_written]. destruct (sk_seek s (w_inner w) sk) as [w' [p|e]]; reflexivity.
Qed.

Lemma run_never_ub ops : forall w, writer_run s w ops <> UB.
Proof.
  assert (A : forall fuel w buf, write_all (writer_sink s) fuel w buf <> UB).
  { induction fuel as [|fuel IH]; intros w [|x buf]; cbn [write_all]; try discriminate. unfold writer_sink at 1. cbn [sk_write].
    destruct (writer_write s w (x :: buf)) as [w1 [[|n]|e]]; [discriminate| |].
    - destruct (slice (x :: buf) (S n) _) as [rest| |] eqn:Es; cbn [obind]; [apply IH|discriminate|].
      unfold slice in Es. destruct (_ && _); discriminate Es.
    - destruct e; try discriminate. apply IH. }
  induction ops as [|op ops IH]; intros w; cbn [writer_run]; [discriminate|].
  destruct (writer_step s w op) as [[w1 o]| |] eqn:E; cbn [obind]; [|discriminate|].
  - specialize (IH w1). destruct (writer_run s w1 ops) as [[w2 os]| |]; cbn [obind]; [discriminate..|exact IH].
  - destruct op as [buf|fuel buf| |sk]; cbn [writer_step] in E.
    + destruct (writer_write s w buf); discriminate E.
    + specialize (A fuel w buf). destruct (write_all (writer_sink s) fuel w buf) as [[w1 r1]| |]; cbn [obind] in E; [discriminate E..|]. intros _. exact (A eq_refl).
    + destruct (writer_flush s w); discriminate E.
    + destruct (writer_seek s w sk); discriminate E.
Qed.

Lemma run_on : forall ops w,
  (checked m = false \/ stays m s w ops ->
   mw_run m s (writer_on m w) ops = (let! (w', outs) := writer_run s w ops in Ret (writer_on m w', outs))) /\
  (checked m = true /\ ~ stays m s w ops -> mw_run m s (writer_on m w) ops = Panic).
Proof.
  induction ops as [|op ops IH]; intros w.
  - cbn [mw_run writer_run stays obind]. split; [reflexivity|]. intros [_ H]. exfalso. exact (H I).
  - cbn [mw_run writer_run stays]. rewrite step_on. pose proof (run_never_ub (op :: ops) w) as U. cbn [writer_run] in U.
    destruct (writer_step s w op) as [[w1 o]| |]; cbn [obind] in *; [|split; reflexivity|exfalso; exact (U eq_refl)].
    destruct (IH w1) as [Yes No].
    assert (Iff : negb (is_seek op) && moved w w1 = true <->
      checked m = true /\ ~ match op with WSeek _ => True | _ => lap (writer_position w1) = lap (writer_position w) end).
    { unfold moved, writer_position. rewrite !andb_true_iff, negb_true_iff, negb_true_iff, N.eqb_neq. destruct op; cbn [is_seek]; try tauto.
      split; [intros [H _]; discriminate H|intros [_ H]; exfalso; exact (H I)]. }
    destruct (negb (is_seek op) && moved w w1) eqn:B; cbn [obind].
    + destruct (proj1 Iff eq_refl) as [C N]. split; [|reflexivity]. intros [H|H]; [congruence|]. destruct (H w1 o eq_refl) as [H1 _]. exfalso. exact (N H1).
    + split.
      * intros H. rewrite Yes.
        -- destruct (writer_run s w1 ops) as [[w2 os]| |]; reflexivity.
        -- destruct H as [H|H]; [left; exact H|right; exact (proj2 (H w1 o eq_refl))].
      * intros [C H]. rewrite No; [reflexivity|]. split; [exact C|]. intros St. apply H. intros w2 o2 E2. injection E2 as <- <-. split; [|exact St].
        destruct op; try exact I; (destruct (N.eq_dec (lap (writer_position w1)) (lap (writer_position w))) as [Q|Q]; [exact Q|];
          exfalso; discriminate (proj2 Iff (conj C Q))).
Qed.
End Writer.

Lemma buffer_on : forall (R : Type) (rd : reader R), honest_reader rd -> forall fuel r buf nread,
  N.of_nat (length buf) < 2 ^ bits m -> (nread <= length buf)%nat ->
  mget_buffer m rd fuel r buf (N.of_nat nread) = get_buffer rd fuel r buf nread.
Proof.
  intros R rd Hh. induction fuel as [|fuel IH]; intros r buf nread L Hn; cbn [mget_buffer get_buffer].
  - replace (N.of_nat nread <? N.of_nat (length buf)) with (nread <? length buf)%nat by lia. reflexivity.
  - replace (N.of_nat nread <? N.of_nat (length buf)) with (nread <? length buf)%nat by lia.
    destruct (Nat.ltb_spec nread (length buf)); [|reflexivity]. rewrite Nat2N.id.
    rewrite slice_ok by lia. cbn [obind]. set (tail := firstn _ _).
    assert (Lt : length tail = (length buf - nread)%nat) by (unfold tail; rewrite firstn_length, skipn_length; lia).
    destruct (rd r tail) as [[[r' t'] [[|n]|e]]| |] eqn:E; try reflexivity. cbn [obind].
    destruct (Hh _ _ _ _ _ E) as [Lt' Ln].
    assert (Lb : length (with_tail buf nread t') = length buf) by (unfold with_tail; rewrite app_length, firstn_length; lia).
    rewrite (madd_ok m Hbits) by (unfold modulus; lia). rewrite <- Nat2N.inj_add. cbn [obind]. apply IH; lia.
Qed.
End Machine.

(** ** 64 bits *)
Section Wide.
Context {W : Type}.
Variable s : sink W.
Hypothesis Hs : seeks_words s.

Lemma seek_wide c w sk : mw_seek (mk_machine 64 c) s w sk = ww_seek s w sk.
Proof.
  unfold mw_seek, ww_seek. destruct (sk_seek s (ww_inner w) sk) as [w' [p|e]] eqn:E; [|reflexivity].
  unfold mcast. change (modulus (mk_machine 64 c)) with W64. rewrite N.mod_small by exact (Hs _ _ _ _ E). reflexivity.
Qed.

Lemma write_wide w buf : mw_write x86_64 s w buf = ww_write s w buf.
Proof. unfold mw_write. rewrite madd_64. reflexivity. Qed.
Lemma all_wide fuel : forall w buf, mw_write_all x86_64 s fuel w buf = ww_write_all s fuel w buf.
Proof.
  induction fuel as [|fuel IH]; intros w [|x buf]; cbn [mw_write_all ww_write_all]; [reflexivity..|]. rewrite write_wide.
  destruct (ww_write s w (x :: buf)) as [[w1 [[|n]|e]]| |]; cbn [obind]; [reflexivity| | |reflexivity..].
  - destruct (slice (x :: buf) (S n) _); cbn [obind]; [apply IH|reflexivity..].
  - destruct e; [apply IH|reflexivity..].
Qed.
Lemma run_wide ops : forall w, mw_run x86_64 s w ops = ww_run s w ops.
Proof.
  induction ops as [|op ops IH]; intros w; cbn [mw_run ww_run]; [reflexivity|].
  assert (mw_step x86_64 s w op = ww_step s w op) as ->.
  { destruct op as [buf|fuel buf| |sk]; cbn [mw_step ww_step]; [rewrite write_wide|rewrite all_wide| |rewrite (seek_wide true)]; reflexivity. }
  destruct (ww_step s w op) as [[w1 o]| |]; cbn [obind]; [rewrite IH|..]; reflexivity.
Qed.

Lemma write_wider w buf : mw_write x86_64_release s w buf = Ret (rww_write s w buf).
Proof. unfold mw_write, rww_write. destruct (sk_write s (ww_inner w) buf) as [w' [n|e]]; [rewrite madd_release|]; reflexivity. Qed.
Lemma all_wider fuel : forall w buf, mw_write_all x86_64_release s fuel w buf = rww_write_all s fuel w buf.
Proof.
  induction fuel as [|fuel IH]; intros w [|x buf]; cbn [mw_write_all rww_write_all]; [reflexivity..|]. rewrite write_wider. cbn [obind].
  destruct (rww_write s w (x :: buf)) as [w1 [[|n]|e]]; [reflexivity|..].
  - destruct (slice (x :: buf) (S n) _); cbn [obind]; [apply IH|reflexivity..].
  - destruct e; [apply IH|reflexivity..].
Qed.
Lemma run_wider ops : forall w, mw_run x86_64_release s w ops = rww_run s w ops.
Proof.
  induction ops as [|op ops IH]; intros w; cbn [mw_run rww_run]; [reflexivity|].
  assert (mw_step x86_64_release s w op = rww_step s w op) as ->.
  { destruct op as [buf|fuel buf| |sk]; cbn [mw_step rww_step].
    - rewrite write_wider. cbn [obind]. destruct (rww_write s w buf). reflexivity.
    - rewrite all_wider. reflexivity.
    - reflexivity.
    - rewrite (seek_wide false). reflexivity. }
  destruct (rww_step s w op) as [[w1 o]| |]; cbn [obind]; [rewrite IH|..]; reflexivity.
Qed.
End Wide.

(** ** A position that does not fit *)
Lemma far_writer c p : N.of_nat p = 2 ^ 32 + 5 ->
  mw_run (mk_machine 32 c) (end_sink p) (ww_new 0%nat) [WSeek (End 0); WWrite [7; 7]] =
  Ret (mk_wwriter (p + 2)%nat 7, [WSought (Okay p); WWrote (Okay 2%nat)]).
Proof.
  intros Hp. cbn [mw_run mw_step]. unfold mw_seek, ww_new. cbn [end_sink sk_seek ww_inner obind]. unfold mw_write.
  cbn [end_sink sk_write ww_inner ww_written length]. unfold mcast. change (modulus (mk_machine 32 c)) with (2 ^ 32). rewrite Hp.
  change ((2 ^ 32 + 5) mod 2 ^ 32) with 5. change (madd (mk_machine 32 c) 5 (N.of_nat 2)) with (@Ret N 7). reflexivity.
Qed.
Lemma far_writer_exists c : exists p, N.of_nat p = 2 ^ 32 + 5 /\
  mw_run (mk_machine 32 c) (end_sink p) (ww_new 0%nat) [WSeek (End 0); WWrite [7; 7]] =
  Ret (mk_wwriter (p + 2)%nat 7, [WSought (Okay p); WWrote (Okay 2%nat)]).
Proof. exists (N.to_nat (2 ^ 32 + 5)). split; [apply N2Nat.id|]. apply far_writer. apply N2Nat.id. Qed.
