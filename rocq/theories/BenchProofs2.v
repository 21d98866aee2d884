(** The timing loops of bitstream/benches/bitread.rs. *)
From Coq Require Import List Arith NArith ZArith Bool Lia.
From Coq Require Import ZifyBool ZifyNat ZifyN.
From Verif Require Import Base BitModel BitSpec BitProofs BitProofs2 BitMain.
From Verif Require Import BenchModel BenchSpec.
Import ListNotations.
Local Open Scope nat_scope.

Lemma passes_read : forall k pass, Forall is_read pass -> Forall is_read (passes k pass).
Proof.
  intros k pass H. unfold passes. induction k as [|k IH]; cbn [repeat concat]; [constructor|].
  apply Forall_app. split; assumption.
Qed.

Lemma sum_app : forall a b, sum (a ++ b) = sum a + sum b.
Proof. induction a as [|x a IH]; intros b; cbn [app sum]; [reflexivity|]. rewrite IH. lia. Qed.

Lemma passes_bits : forall k pass, sum (map read_bits (passes k pass)) = k * sum (map read_bits pass).
Proof.
  intros k pass. unfold passes. induction k as [|k IH]; cbn [repeat concat]; [reflexivity|].
  rewrite map_app, sum_app, IH. lia.
Qed.

Lemma reads_within : forall e l limit ops p, Forall is_read ops -> p + sum (map read_bits ops) <= limit ->
  ops_within e l limit p ops /\ fst (spec_ops e l p ops) = p + sum (map read_bits ops).
Proof.
  intros e l limit ops. induction ops as [|op ops IH]; intros p H Hp; cbn [ops_within spec_ops map sum fst] in *; [split; [exact I|lia]|].
  inversion H as [|? ? H1 H2]; subst.
  assert (F : fst (spec_op e l p op) = p + read_bits op /\ op_bits p op = read_bits op /\ op_ok op)
    by (destruct op; cbn [is_read] in H1; try contradiction; cbn [spec_op fst read_bits op_bits op_ok]; auto).
  destruct F as [F1 [F2 F3]]. destruct (IH (p + read_bits op) H2) as [G1 G2]; [lia|].
  split.
  - split; [exact F3|]. split; [lia|]. rewrite F1. exact G1.
  - destruct (spec_op e l p op) as [p1 o]. cbn [fst] in F1. subst p1.
    destruct (spec_ops e l (p + read_bits op) ops) as [p2 os]. cbn [fst] in *. lia.
Qed.

Lemma pass32_read : Forall is_read pass32.
Proof. unfold pass32. cbn [seq map app]. repeat constructor; cbn [is_read]; lia. Qed.
Lemma pass64_read : Forall is_read pass64.
Proof. unfold pass64. cbn [seq map app]. repeat constructor; cbn [is_read]; lia. Qed.
Lemma pass_mixed_read : Forall is_read pass_mixed.
Proof. unfold pass_mixed. cbn [seq flat_map app]. repeat constructor; cbn [is_read]; lia. Qed.

Lemma bench_pass : forall pass bits, In (pass, bits) bench_passes -> Forall is_read pass /\ sum (map read_bits pass) = bits.
Proof.
  intros pass bits [E|[E|[E|[]]]]; injection E as <- <-; split;
    first [exact pass32_read|exact pass64_read|exact pass_mixed_read|vm_compute; reflexivity].
Qed.

Lemma bench_never_panics : forall e buf k pass bits, bytes buf -> In (pass, bits) bench_passes ->
  exists r outs, run_from_new e buf (passes k pass) = Ret (r, outs).
Proof.
  intros e buf k pass bits Hb Hp. destruct (bench_pass pass bits Hp) as [H _].
  destruct (overread_zero_fill e buf (passes k pass) Hb (passes_read k pass H)) as [r [outs [E _]]]. exists r, outs. exact E.
Qed.

Lemma bench_reads : forall e buf k pass bits, bytes buf -> In (pass, bits) bench_passes ->
  k * bits + 64 <= 8 * length buf ->
  exists r, run_from_new e buf (passes k pass) = Ret (r, snd (spec_ops e (bits_of e buf) 0 (passes k pass))) /\
    consumed r = Ret (k * bits).
Proof.
  intros e buf k pass bits Hb Hp Hl. destruct (bench_pass pass bits Hp) as [H <-].
  destruct (reads_within e (bits_of e buf) (8 * length buf - 64) (passes k pass) 0 (passes_read k pass H)) as [G1 G2];
    [rewrite passes_bits; lia|].
  destruct (bit_ops_exact e buf (passes k pass) Hb ltac:(lia) G1) as [r [E C]]. exists r. split; [exact E|].
  rewrite C, G2, passes_bits. reflexivity.
Qed.

Lemma bench_buffer_length : forall k, length (bench_buffer k) = k * 128.
Proof.
  intros k. unfold bench_buffer. induction k as [|k IH]; cbn [repeat concat]; [reflexivity|].
  rewrite app_length, IH, map_length, seq_length. lia.
Qed.

Lemma bench_buffer_bytes : forall k, bytes (bench_buffer k).
Proof.
  intros k. unfold bench_buffer, bytes. induction k as [|k IH]; cbn [repeat concat]; [constructor|].
  apply Forall_app. split; [|exact IH]. apply Forall_forall. intros x Hx. apply in_map_iff in Hx. destruct Hx as [y [<- Hy]].
  apply in_seq in Hy. unfold is_byte. lia.
Qed.

(** The sizes chosen in the benchmark keep every read inside the buffer. *)
Lemma bench_sizes : forall pass bits, In (pass, bits) bench_passes -> 1024 * bits + 64 <= 8 * length (bench_buffer 2048).
Proof. intros pass bits [E|[E|[E|[]]]]; injection E as <- <-; rewrite bench_buffer_length; lia. Qed.

Lemma bench_sizes_ok : forall pass bits, In (pass, bits) bench_passes ->
  bytes (bench_buffer 2048) /\ 1024 * bits + 64 <= 8 * length (bench_buffer 2048).
Proof. intros pass bits H. split; [apply bench_buffer_bytes|apply (bench_sizes pass bits H)]. Qed.
