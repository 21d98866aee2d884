(** Proofs for C196. *)
From Coq Require Import List Arith NArith ZArith Bool Lia.
From Coq Require Import ZifyBool ZifyNat ZifyN.
From Verif Require Import Base BitModel BitSpec BitProofs BitProofs2 ByteProofs CodebookModel CodebookSpec CodebookProofs CodebookProofs5 CompleteProofs FieldProofs ShiftSpec.
Import ListNotations.
Local Open Scope nat_scope.

Lemma window_shift : forall l k p n, window l (k + p) n = window (skipn k l) p n.
Proof. intros l k p n. unfold window. rewrite skipn2. reflexivity. Qed.

Lemma align_shift : forall o p, align8 (8 * o + p) = 8 * o + align8 p.
Proof. intros o p. unfold align8. replace (8 * o + p + 7) with (p + 7 + o * 8) by lia. rewrite Nat.div_add by lia. lia. Qed.

Lemma nth_skip : forall (A : Type) (l : list A) k p d, nth (k + p) l d = nth p (skipn k l) d.
Proof.
  intros A l k. revert l. induction k as [|k IH]; intros l p d; [reflexivity|]. destruct l as [|x l]; [destruct p; reflexivity|]. exact (IH l p d).
Qed.

Lemma op_shift : forall e l o p op, fst (spec_op e l (8 * o + p) op) = 8 * o + fst (spec_op e (skipn (8 * o) l) p op) /\
  op_bits (8 * o + p) op = op_bits p op /\
  (forall S, Out (snd (spec_op e l (8 * o + p) op)) = @shift_out S (8 * o) (Call op) (Out (snd (spec_op e (skipn (8 * o) l) p op)))).
Proof.
  intros e l o p op. destruct op; cbn [spec_op fst snd op_bits shift_out]; rewrite ?align_shift, ?window_shift, ?nth_skip, ?skipn_length;
    split; try lia; split; try lia; intros S; try reflexivity. do 2 f_equal. lia.
Qed.

Lemma steps_shift : forall (S : Type) m (ds : list (desc S)) l o limit steps p,
  steps_within m ds (skipn (8 * o) l) limit p steps ->
  steps_within m ds l (8 * o + limit) (8 * o + p) steps /\
  fst (spec_steps m l (8 * o + p) steps) = 8 * o + fst (spec_steps m (skipn (8 * o) l) p steps) /\
  snd (spec_steps m l (8 * o + p) steps) = shift_outs (8 * o) steps (snd (spec_steps m (skipn (8 * o) l) p steps)).
Proof.
  intros S m ds l o limit. induction steps as [|[op|d] steps IH]; intros p H; cbn [steps_within spec_steps] in *.
  - cbn [fst snd shift_outs]. auto.
  - destruct H as [A [B C]]. destruct (op_shift (reader_for m) l o p op) as [K1 [K2 K3]]. specialize (K3 S).
    destruct (IH _ C) as [I1 [I2 I3]]. rewrite <- K1 in I1, I2, I3.
    destruct (spec_op (reader_for m) l (8 * o + p) op) as [p1 o1]. destruct (spec_op (reader_for m) (skipn (8 * o) l) p op) as [p2 o2]. cbn [fst snd] in *.
    destruct (spec_steps m l p1 steps) as [p3 o3]. destruct (spec_steps m (skipn (8 * o) l) p2 steps) as [p4 o4]. cbn [fst snd] in *. rewrite K2.
    split; [split; [exact A|]; split; [lia|exact I1]|]. split; [exact I2|]. cbn [shift_outs]. rewrite K3, I3. reflexivity.
  - destruct H as [A [B [C [D E]]]]. destruct (IH _ E) as [I1 [I2 I3]]. replace (8 * o + (p + d_bits d)) with (8 * o + p + d_bits d) in I1, I2, I3 by lia.
    destruct (spec_steps m l (8 * o + p + d_bits d) steps) as [p3 o3]. destruct (spec_steps m (skipn (8 * o) l) (p + d_bits d) steps) as [p4 o4]. cbn [fst snd] in *.
    rewrite window_shift. split; [split; [exact A|]; split; [exact B|]; split; [lia|]; split; [exact D|exact I1]|]. split; [exact I2|].
    cbn [shift_outs shift_out]. rewrite I3. reflexivity.
Qed.

Lemma start_later : forall (S : Type) ord m (ds : list (desc S)) cb buf o before steps,
  permuting ord -> valid_description m ds -> new_codebook ord ds m = Ret (Okay cb) ->
  bytes buf -> o + 8 <= length buf -> (N.of_nat (8 * length buf) < 2 ^ 32)%N ->
  steps_within m ds (bits_of (reader_for m) buf) (8 * length buf - 64) 0 before -> fst (spec_steps m (bits_of (reader_for m) buf) 0 before) = 8 * o ->
  steps_within m ds (bits_of (reader_for m) (skipn o buf)) (8 * length (skipn o buf) - 64) 0 steps ->
  exists r0 r1 r2 q0 q1 earlier outs,
    new (reader_for m) (skipn o buf) = Ret q0 /\ run_mixed (reader_for m) cb q0 steps = Ret (q1, outs) /\
    new (reader_for m) buf = Ret r0 /\ run_mixed (reader_for m) cb r0 before = Ret (r1, earlier) /\
    run_mixed (reader_for m) cb r1 steps = Ret (r2, shift_outs (8 * o) steps outs) /\
    exists c, consumed q1 = Ret c /\ consumed r2 = Ret (8 * o + c).
Proof.
  intros S ord m ds cb buf o before steps Hord Hv Hcb Hb Hl H32 Hw1 Ho Hw2. set (e := reader_for m) in *. rewrite bits_skipn in Hw2.
  assert (Lq : length (skipn o buf) = length buf - o) by apply skipn_length.
  assert (L8 : 8 <= length (skipn o buf)) by lia.
  assert (L32 : (N.of_nat (8 * length (skipn o buf)) < 2 ^ 32)%N) by lia.
  assert (Hw2' : steps_within m ds (bits_of e (skipn o buf)) (8 * length (skipn o buf) - 64) 0 steps) by (rewrite bits_skipn; exact Hw2).
  destruct (codebook_histories S ord m ds cb (skipn o buf) steps Hord Hv Hcb (bytes_skipn o buf Hb) L8 L32 Hw2') as [q0 [q1 [Q0 [Q1 Q2]]]].
  destruct (steps_shift S m ds (bits_of e buf) o (8 * length (skipn o buf) - 64) steps 0 Hw2) as [W [F G]]. rewrite Nat.add_0_r in W, F, G.
  replace (8 * o + (8 * length (skipn o buf) - 64)) with (8 * length buf - 64) in W by lia.
  assert (L8' : 8 <= length buf) by lia.
  destruct (new_inv e buf Hb) as [r0 [E0 [I0 B0]]].
  pose proof Hw1 as Hw1'. pose proof L8' as Hlen'. pose proof H32 as H32'. rewrite <- B0 in Hlen', H32', Hw1'.
  destruct (run_mixed_exact S ord m ds cb Hord Hv Hcb before r0 0 I0 ltac:(lia) H32' Hw1') as [r1 [E1 [I1 Br1]]]. rewrite B0 in E1, I1, Br1. fold e in E1, I1, Br1.
  rewrite Ho in I1. pose proof W as W'. pose proof H32 as H32''. rewrite <- Br1 in W', H32''. 
  destruct (run_mixed_exact S ord m ds cb Hord Hv Hcb steps r1 (8 * o) I1 ltac:(rewrite Br1; lia) H32'' W') as [r2 [E2 [I2 Br2]]]. rewrite Br1 in E2, I2. fold e in E2, I2.
  exists r0, r1, r2, q0, q1, (snd (spec_steps m (bits_of e buf) 0 before)), (snd (spec_steps m (bits_of e (skipn o buf)) 0 steps)).
  split; [exact Q0|]. split; [exact Q1|]. split; [exact E0|]. split; [exact E1|]. rewrite bits_skipn, <- G. split; [exact E2|].
  exists (fst (spec_steps m (bits_of e (skipn o buf)) 0 steps)). split; [exact Q2|]. rewrite bits_skipn, <- F. apply (consumed_inv _ _ _ I2).
Qed.

Lemma start_later_end : exists e buf o before after r r1 q before_outs outs outs', bytes buf /\ o < length buf /\
  run_from_new e buf before = Ret (r, before_outs) /\ consumed r = Ret (8 * o) /\
  run_from_new e buf (before ++ after) = Ret (r1, before_outs ++ outs) /\
  run_from_new e (skipn o buf) after = Ret (q, outs') /\
  fst (spec_ops e (bits_of e buf) 0 (before ++ after)) <= 8 * length buf /\ ~ In OpConsumed after /\ outs <> outs'.
Proof.
  exists BE, (map N.of_nat (seq 1 13)), 1, [OpGet32 8], (repeat (OpGet32 8) 8).
  eexists. eexists. eexists. exists [OutWord 1], (map OutWord [2; 3; 4; 5; 6; 7; 8; 0]%N), (map OutWord [2; 3; 4; 5; 6; 7; 8; 9]%N).
  split; [repeat constructor|]. split; [cbn; lia|]. split; [vm_compute; reflexivity|]. split; [vm_compute; reflexivity|]. split; [vm_compute; reflexivity|].
  split; [vm_compute; reflexivity|]. split; [apply Nat.leb_le; vm_compute; reflexivity|]. split; [|discriminate].
  intros H. apply repeat_spec in H. discriminate H.
Qed.
