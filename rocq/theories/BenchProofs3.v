(** The loop of benches/format.rs. *)
From Coq Require Import List Arith NArith ZArith Bool Lia.
From Coq Require Import ZifyBool ZifyNat ZifyN.
From Verif Require Import Base AccModel AccSpec AccProofs AccProofs2.
From Verif Require Import BitModel BenchModel.
Import ListNotations.
Local Open Scope nat_scope.

Section Acc.
Context {R : Type} (i : io R) (src : list N) (good : R -> Prop) (tell : R -> nat).
Hypothesis Hs : source_ok i src good tell.
Hypothesis Hn : never_fails i src good tell.

Lemma read_each_rep : forall k a p, rep src good tell a p -> p + k <= length src ->
  exists a', read_each i k a = Ret (a', firstn k (skipn p src)) /\ rep src good tell a' (p + k).
Proof.
  induction k as [|k IH]; intros a p H Hk; cbn [read_each firstn].
  - exists a. rewrite Nat.add_0_r. split; [reflexivity|exact H].
  - destruct (read_exact_rep i src good tell Hs Hn 1 1 a p H (le_n 1)) as [a1 [p1 [E [H1 Hp]]]].
    replace (1 <=? length src - p) with true in E, Hp by lia. subst p1. rewrite E. cbn [obind].
    destruct (IH a1 (p + 1) H1) as [a2 [E2 H2]]; [lia|]. rewrite E2. cbn [obind]. exists a2. split.
    + do 2 f_equal. rewrite <- (skipn_skipn_plus N src 1 p).
      destruct (skipn p src) as [|x t] eqn:Et; [|reflexivity].
      apply (f_equal (@length N)) in Et. rewrite skipn_length in Et. cbn [length] in Et. lia.
    + replace (p + S k) with (p + 1 + k) by lia. exact H2.
Qed.

Lemma read_each_short : forall k a p, rep src good tell a p -> length src < p + k -> p <= length src ->
  read_each i k a = Panic.
Proof.
  induction k as [|k IH]; intros a p H Hk Hp; cbn [read_each]; [lia|].
  destruct (read_exact_rep i src good tell Hs Hn 1 1 a p H (le_n 1)) as [a1 [p1 [E [H1 Hp1]]]]. rewrite E. cbn [obind].
  destruct (Nat.leb_spec 1 (length src - p)).
  - subst p1. rewrite (IH a1 (p + 1) H1); [reflexivity|lia|lia].
  - reflexivity.
Qed.

Lemma bench_acc : forall cap k r0, good r0 -> tell r0 = 0 ->
  (k <= length src -> exists a, bench_accreader i cap k r0 = Ret (a, firstn k src)) /\
  (length src < k -> bench_accreader i cap k r0 = Panic).
Proof.
  intros cap k r0 Hg Ht. pose proof (new_rep src good tell cap r0 Hg Ht) as H. unfold bench_accreader. split; intros Hk.
  - destruct (read_each_rep k _ 0 H) as [a [E _]]; [lia|]. exists a. exact E.
  - apply (read_each_short k _ 0 H); lia.
Qed.
End Acc.

Lemma bench_acc_exact : forall (R : Type) (i : io R) src good tell cap k r0,
  source_ok i src good tell -> never_fails i src good tell -> good r0 -> tell r0 = 0 ->
  (k <= length src -> exists a, bench_accreader i cap k r0 = Ret (a, firstn k src)) /\
  (length src < k -> bench_accreader i cap k r0 = Panic).
Proof. intros R i src good tell cap k r0 Hs Hn. apply (bench_acc i src good tell Hs Hn). Qed.

Lemma bench_buffer_nth : forall k i, length (bench_buffer k) = 128 * k /\ (i < 128 * k -> nth_error (bench_buffer k) i = Some (N.of_nat (i mod 128))).
Proof.
  induction k as [|k IH]; intros i; [split; [reflexivity|lia]|].
  unfold bench_buffer in *. cbn [repeat concat]. split.
  - rewrite app_length, map_length, seq_length, (proj1 (IH 0)). lia.
  - intros Hi. destruct (Nat.lt_ge_cases i 128) as [Hl|Hg].
    + rewrite nth_error_app1 by (rewrite map_length, seq_length; exact Hl). rewrite Nat.mod_small by exact Hl.
      apply map_nth_error. rewrite (nth_error_nth' _ 0) by (rewrite seq_length; exact Hl). rewrite seq_nth by exact Hl. reflexivity.
    + rewrite nth_error_app2 by (rewrite map_length, seq_length; exact Hg). rewrite map_length, seq_length.
      rewrite (proj2 (IH (i - 128))) by lia. replace i with (i - 128 + 1 * 128) at 2 by lia. rewrite Nat.mod_add by discriminate. reflexivity.
Qed.

Lemma bench_programs : forall k i l, l < 31 ->
  (length (bench_buffer k) = 128 * k /\ (i < 128 * k -> nth_error (bench_buffer k) i = Some (N.of_nat (i mod 128)))) /\
  (length pass32 = 63 /\ nth_error pass32 l = Some (OpGet32 l) /\ nth_error pass32 31 = Some OpGetBit /\ nth_error pass32 (32 + l) = Some (OpGet32 l)) /\
  (length pass64 = 63 /\ nth_error pass64 l = Some (OpGet64 l) /\ nth_error pass64 31 = Some OpGetBit /\ nth_error pass64 (32 + l) = Some (OpGet64 (32 + l))) /\
  (length pass_mixed = 93 /\ nth_error pass_mixed (3 * l) = Some (OpGet64 l) /\ nth_error pass_mixed (3 * l + 1) = Some OpGetBit /\
   nth_error pass_mixed (3 * l + 2) = Some (OpGet32 l)).
Proof.
  intros k i l Hl. split; [apply bench_buffer_nth|].
  do 31 (destruct l as [|l]; [repeat split|]). lia.
Qed.
