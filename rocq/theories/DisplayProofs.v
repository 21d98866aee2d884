(** Proofs about the texts of the data crate. *)
From Coq Require Import List NArith ZArith Bool String Lia.
From Verif Require Import Base AudioModel PixelModel FrameModel DisplayModel.
Import ListNotations.

Lemma as_unsigned_small z : (0 <= z < 2 ^ 32)%Z -> as_unsigned 32 z = Z.to_N z.
Proof. intros H. unfold as_unsigned. rewrite Z.mod_small; [reflexivity|exact H]. Qed.

Lemma ishl32_one d : (d < 31)%N -> ishl32 1 d = Ret (2 ^ Z.of_N d)%Z.
Proof.
  intros H. unfold ishl32. destruct (N.ltb_spec d 32); [|lia]. rewrite Z.mul_1_l.
  assert (L : (2 ^ Z.of_N d < 2 ^ 31)%Z) by (apply Z.pow_lt_mono_r; lia).
  assert (P : (0 < 2 ^ Z.of_N d)%Z) by (apply Z.pow_pos_nonneg; lia).
  rewrite as_unsigned_small by lia. unfold as_signed. change (2 ^ (32 - 1))%N with 2147483648%N.
  destruct (N.ltb_spec (Z.to_N (2 ^ Z.of_N d)) 2147483648) as [|G]; [|exfalso; lia]. rewrite Z2N.id by lia. reflexivity.
Qed.

Lemma show_chromaton_ret c : ch_packed c = false \/ (depth c < 31 /\ shift c < 32)%N -> exists s, show_chromaton c = Ret s.
Proof.
  intros H. unfold show_chromaton. destruct (ch_packed c); [|cbn [obind]; eauto].
  destruct H as [H|[H1 H2]]; [discriminate H|]. rewrite ishl32_one by assumption. cbn [obind].
  assert (L : (2 ^ Z.of_N (depth c) < 2 ^ 31)%Z) by (apply Z.pow_lt_mono_r; lia).
  assert (P : (0 < 2 ^ Z.of_N (depth c))%Z) by (apply Z.pow_pos_nonneg; lia).
  unfold isub32. destruct (Z.leb_spec (- 2 ^ 31) (2 ^ Z.of_N (depth c) - 1)); [|lia].
  destruct (Z.ltb_spec (2 ^ Z.of_N (depth c) - 1) (2 ^ 31)); [|lia]. cbn [andb obind].
  unfold ishl32. destruct (N.ltb_spec (shift c) 32); [|lia]. cbn [obind]. eauto.
Qed.

Lemma show_chromaton_panic c : ch_packed c = true -> (31 <= depth c \/ 32 <= shift c)%N -> show_chromaton c = Panic.
Proof.
  intros E H. unfold show_chromaton. rewrite E. destruct (N.lt_ge_cases (depth c) 31) as [L|G].
  - destruct H as [H|H]; [lia|]. rewrite ishl32_one by assumption. cbn [obind].
    destruct (isub32 (2 ^ Z.of_N (depth c)) 1) as [m| |] eqn:Em; try reflexivity.
    + cbn [obind]. unfold ishl32. destruct (N.ltb_spec (shift c) 32); [lia|]. reflexivity.
    + unfold isub32 in Em. destruct (_ && _)%bool in Em; discriminate Em.
  - unfold ishl32 at 1. destruct (N.ltb_spec (depth c) 32) as [L|]; [|reflexivity].
    assert (depth c = 31%N) as -> by lia. reflexivity.
Qed.
