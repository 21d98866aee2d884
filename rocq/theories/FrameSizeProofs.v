(** Default frames are created exactly when their sizes fit. *)
From Coq Require Import List Arith NArith Bool Lia.
From Coq Require Import ZifyBool ZifyNat ZifyN.
From Verif Require Import Base AudioModel PixelModel FormatModel FrameModel DataSpec DataProofs PixelMain FrameProofs FrameSizeSpec.
Import ListNotations.
Local Open Scope N_scope.

Lemma least_unique a need s s' : least_multiple a need s -> least_multiple a need s' -> s = s'.
Proof. intros [[k ->] [A B]] [[k' ->] [A' B']]. apply N.le_antisymm; [apply B|apply B']; assumption. Qed.

Lemma sub_size_exact x k r : sub_size x k = Ret r <-> k < 64 /\ x + 2 ^ k <= W64 /\ ceil_div x (2 ^ k) r.
Proof.
  pose proof (pow2_pos k). split.
  - intros E. apply sub_size_inv in E. destruct E as (A & B & ->). split; [exact A|]. split; [lia|]. apply ceil_pow_spec.
  - intros (A & B & C). rewrite sub_size_ret by (try assumption; lia). f_equal.
    apply (ceil_div_unique x (2 ^ k)); [assumption|apply ceil_pow_spec|assumption].
Qed.

Lemma component_size_exact c x r :
  (get_width c x = Ret r <-> h_ss c < 64 /\ x + 2 ^ h_ss c <= W64 /\ ceil_div x (2 ^ h_ss c) r) /\
  (get_height c x = Ret r <-> v_ss c < 64 /\ x + 2 ^ v_ss c <= W64 /\ ceil_div x (2 ^ v_ss c) r).
Proof. split; apply sub_size_exact. Qed.

Lemma audio_size_exact f len a s : power_of_two a -> so_bits f < 256 ->
  get_audio_size f len a = Ret s <-> samples_bytes f len a s.
Proof.
  intros Ha Hb. assert (P : 0 < a) by (destruct Ha as [k ->]; apply pow2_pos). unfold samples_bytes, bytes_needed. split.
  - intros H. unfold get_audio_size in H. step_ret H. apply align_inv in H; [|assumption]. destruct H as [Hs ->].
    exists a0. destruct (so_packed f).
    + step_ret E. apply umul_inv in E0. destruct E0 as [-> _]. apply round_to_byte_inv in E. destruct E as [E1 E2].
      split; [exact E1|]. split; [intros _; exact E2|]. split; [exact Hs|apply aligned_least; exact P].
    + step_ret E. apply round_to_byte_inv in E0. apply umul_inv in E. split; [exists a1; split; tauto|]. split; [discriminate|].
      split; [exact Hs|apply aligned_least; exact P].
  - intros (need & Hn & Hw & Hs & Hl). unfold get_audio_size. destruct (so_packed f).
    + specialize (Hw eq_refl). rewrite umul_ret by lia. cbn [obind]. rewrite (round_to_byte_ret _ need) by assumption. cbn [obind].
      rewrite align_ret by assumption. f_equal. apply (least_unique a need); [apply aligned_least; exact P|exact Hl].
    + destruct Hn as [b [Hc ->]]. rewrite (round_to_byte_ret _ b); [|assumption|unfold W64; lia]. cbn [obind].
      rewrite umul_ret by lia. cbn [obind]. rewrite align_ret by assumption. f_equal.
      apply (least_unique a (len * b)); [apply aligned_least; exact P|exact Hl].
Qed.

Lemma plane_exact c w h n : get_data_size c w h ALIGNMENT = Ret n <-> plane_bytes w h c n /\ n < W64.
Proof.
  unfold plane_bytes. split.
  - intros H. assert (Hn : n < W64). { unfold get_data_size in H. step_ret H. step_ret H. apply umul_inv in H. lia. }
    split; [|exact Hn]. apply data_size_inv in H. destruct H as (s & ch & E1 & E2 & ->).
    apply (c74_stride_exact c w ALIGNMENT s power_32) in E1. destruct E1 as (cw & need & A1 & A2 & A3 & A4 & A5 & A6 & A7 & A8 & A9).
    apply sub_size_exact in E2. destruct E2 as (B1 & B2 & B3). exists cw, need, s, ch.
    repeat (split; [assumption|]). reflexivity.
  - intros [(cw & need & s & rows & A1 & A2 & A3 & A4 & A5 & A6 & A7 & A8 & A9 & B1 & B2 & B3 & ->) Hn].
    apply data_size_ret; [|apply sub_size_exact; repeat (split; [assumption|]); assumption|exact Hn].
    apply (c74_stride_exact c w ALIGNMENT s power_32). exists cw, need. repeat (split; [assumption|]). assumption.
Qed.

Lemma plane_unique w h c n n' : plane_bytes w h c n -> plane_bytes w h c n' -> n = n'.
Proof.
  intros (cw & need & s & rows & A1 & A2 & A3 & A4 & A5 & A6 & A7 & A8 & A9 & B1 & B2 & B3 & ->)
         (cw' & need' & s' & rows' & A1' & A2' & A3' & A4' & A5' & A6' & A7' & A8' & A9' & B1' & B2' & B3' & ->).
  pose proof (ceil_div_unique w (2 ^ h_ss c) cw cw' (pow2_pos _) A3 A3'). subst cw'.
  assert (need = need') by lia. subst need'.
  pose proof (least_unique _ _ _ _ A9 A9'). subst s'.
  pose proof (ceil_div_unique h (2 ^ v_ss c) rows rows' (pow2_pos _) B3 B3'). subst rows'. reflexivity.
Qed.

Lemma sum_exact w h l : forall acc n, n < W64 ->
  sum_sizes acc w h ALIGNMENT l = Ret n <-> exists sizes, Forall2 (plane_bytes w h) (present l) sizes /\ n = acc + total sizes.
Proof.
  induction l as [|[c|] l IH]; intros acc n Hn; cbn [sum_sizes present].
  - split.
    + intros E. injection E as <-. exists []. split; [constructor|]. cbn [total fold_right]. lia.
    + intros (sizes & F & ->). inversion F. cbn [total fold_right]. rewrite N.add_0_r. reflexivity.
  - split.
    + intros E. step_ret E. apply plane_exact in E0. step_ret E. apply uadd_inv in E1. destruct E1 as [-> _].
      apply (IH _ _ Hn) in E. destruct E as (sizes & F & ->). exists (a :: sizes). split; [constructor; [apply E0|exact F]|].
      cbn [total fold_right]. fold (total sizes). lia.
    + intros (sizes & F & ->). inversion F as [|c' m cs ms Hm F' E1 E2]; subst. cbn [total fold_right] in *. fold (total ms) in *.
      assert (Em : get_data_size c w h ALIGNMENT = Ret m) by (apply plane_exact; split; [exact Hm|lia]). rewrite Em. cbn [obind].
      rewrite uadd_ret by lia. cbn [obind]. apply (IH _ _ Hn). exists ms. split; [exact F'|lia].
  - apply (IH _ _ Hn).
Qed.

Lemma video_created_exact v t : (exists f, new_default_frame (Video v) t = Ret f) <->
  exists sizes, Forall2 (plane_bytes (vi_width v) (vi_height v)) (present (fo_comps (vi_format v))) sizes /\ total sizes < 2 ^ 63.
Proof.
  assert (W : W64 = 2 * 2 ^ 63) by reflexivity. split.
  - intros [f H]. unfold new_default_frame in H. step_ret H. destruct (fb_new_video_inv v a E) as (n & N1 & N2).
    apply sum_exact in N1; [|lia]. destruct N1 as (sizes & F & ->). exists sizes. split; [exact F|]. lia.
  - intros (sizes & F & Ht). assert (E : video_size v ALIGNMENT = Ret (total sizes)).
    { apply sum_exact; [lia|]. exists sizes. split; [exact F|]. lia. }
    destruct (fb_new_video v _ E Ht) as (b & B & _). unfold new_default_frame. rewrite B. cbn [obind]. eauto.
Qed.

Lemma audio_created_exact v t : so_bits (ai_format v) < 256 ->
  (exists f, new_default_frame (Audio v) t = Ret f) <->
  exists s, samples_bytes (ai_format v) (ai_samples v) 32 s /\ s * N.of_nat (length (ai_map v)) < 2 ^ 63.
Proof.
  intros Hb. split.
  - intros [f H]. unfold new_default_frame in H. step_ret H. destruct (fb_new_audio_inv v a E) as (s & S1 & S2).
    exists s. split; [|exact S2]. apply (audio_size_exact _ _ _ _ power_32 Hb). exact S1.
  - intros (s & S1 & S2). apply (audio_size_exact _ _ _ _ power_32 Hb) in S1.
    unfold new_default_frame. rewrite (fb_new_audio v s S1 S2). cbn [obind]. eauto.
Qed.
