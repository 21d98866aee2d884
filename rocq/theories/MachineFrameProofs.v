(** Frames for any width of [usize]. *)
From Coq Require Import List Arith NArith Bool Lia.
From Coq Require Import ZifyBool ZifyNat ZifyN.
From Verif Require Import Base AudioModel PixelModel FormatModel FrameModel DataSpec DataProofs FrameProofs FrameSizeSpec FrameSizeProofs.
From Verif Require Import MachineModel MachineFrameModel MachineFrameSpec.
Import ListNotations.
Local Open Scope N_scope.

Lemma land_lnot t k b : 1 <= b -> t < 2 ^ b -> N.land t (N.lnot k b) = N.ldiff t k.
Proof.
  intros Hb H. symmetry. apply N.ldiff_land_low. destruct (N.eq_dec t 0) as [->|Hz]; [cbn; lia|].
  apply N.log2_lt_pow2; [lia|exact H].
Qed.

(** ** A wider machine does what a narrower one with overflow checks does *)
Section Wider.
Variables m n : machine.
Hypothesis Hc : checked m = true.
Hypothesis Hbits : 1 <= bits m.
Hypothesis Hle : bits m <= bits n.

Lemma pow_wider : 2 ^ bits m <= 2 ^ bits n.
Proof. apply N.pow_le_mono_r; [discriminate|exact Hle]. Qed.

Lemma ranged_wider x s : ranged m x = Ret s -> ranged n x = Ret s /\ s < 2 ^ bits m.
Proof.
  unfold ranged. rewrite Hc. pose proof pow_wider as P. fold (modulus m) in *. fold (modulus n) in *.
  destruct (N.ltb_spec x (modulus m)) as [H|H]; intros E; [|discriminate E]. injection E as <-.
  destruct (N.ltb_spec x (modulus n)); [|lia]. split; [reflexivity|exact H].
Qed.
Lemma add_wider a b s : madd m a b = Ret s -> madd n a b = Ret s /\ s < 2 ^ bits m.
Proof. apply ranged_wider. Qed.
Lemma mul_wider a b s : mmul m a b = Ret s -> mmul n a b = Ret s /\ s < 2 ^ bits m.
Proof. apply ranged_wider. Qed.
Lemma sub_wider a b s : msub m a b = Ret s -> msub n a b = Ret s /\ s = a - b.
Proof. unfold msub. rewrite Hc. destruct (N.leb_spec b a); intros E; [|discriminate E]. split; congruence. Qed.
Lemma one_wider k s : mshl m 1 k = Ret s -> mshl n 1 k = Ret s.
Proof.
  unfold mshl. rewrite Hc. destruct (N.ltb_spec k (bits m)) as [H|H]; intros E; [|discriminate E].
  destruct (N.ltb_spec k (bits n)); [|lia]. rewrite <- E, N.shiftl_1_l. f_equal.
  assert (2 ^ k < modulus m) by (apply N.pow_lt_mono_r; [reflexivity|exact H]). pose proof pow_wider as P. fold (modulus m) in P. fold (modulus n) in P.
  rewrite !N.mod_small by lia. reflexivity.
Qed.
Lemma shr_wider a k s : mshr m a k = Ret s -> mshr n a k = Ret s.
Proof.
  unfold mshr. rewrite Hc. destruct (N.ltb_spec k (bits m)) as [H|H]; intros E; [|discriminate E].
  destruct (N.ltb_spec k (bits n)); [exact E|lia].
Qed.

Lemma align_wider v a s : m_align m v a = Ret s -> m_align n v a = Ret s.
Proof.
  intros E. unfold m_align in E. step_ret E. step_ret E. step_ret E.
  destruct (add_wider _ _ _ E0) as [X0 L]. destruct (sub_wider _ _ _ E1) as [X1 L1]. destruct (sub_wider _ _ _ E2) as [X2 _].
  unfold m_align. rewrite X0. cbn [obind]. rewrite X1. cbn [obind]. rewrite X2. cbn [obind]. rewrite <- E. f_equal. unfold mnot.
  pose proof pow_wider. rewrite !land_lnot; [reflexivity|lia..].
Qed.
Lemma round_wider v s : m_round_to_byte m v = Ret s -> m_round_to_byte n v = Ret s.
Proof. intros E. unfold m_round_to_byte in E. step_ret E. destruct (add_wider _ _ _ E0) as [X0 _]. unfold m_round_to_byte. rewrite X0. exact E. Qed.
Lemma audio_wider f l a s : m_get_audio_size m f l a = Ret s -> m_get_audio_size n f l a = Ret s.
Proof.
  intros E. unfold m_get_audio_size in E. step_ret E. unfold m_get_audio_size.
  assert (X : (if so_packed f then let! b := mmul n l (so_bits f) in m_round_to_byte n b else let! b := m_round_to_byte n (so_bits f) in mmul n l b) = Ret a0).
  { destruct (so_packed f); step_ret E0.
    - destruct (mul_wider _ _ _ E1) as [X _]. rewrite X. apply round_wider. exact E0.
    - rewrite (round_wider _ _ E1). apply mul_wider. exact E0. }
  rewrite X. apply align_wider. exact E.
Qed.
Lemma sub_size_wider x k s : m_sub_size m x k = Ret s -> m_sub_size n x k = Ret s.
Proof.
  intros E. unfold m_sub_size in E. step_ret E. step_ret E. step_ret E. unfold m_sub_size. rewrite (one_wider _ _ E0). cbn [obind].
  destruct (sub_wider _ _ _ E1) as [X1 _]. rewrite X1. cbn [obind]. destruct (add_wider _ _ _ E2) as [X2 _]. rewrite X2. apply shr_wider. exact E.
Qed.
Lemma width_wider c w s : m_get_width m c w = Ret s -> m_get_width n c w = Ret s.
Proof. apply sub_size_wider. Qed.
Lemma height_wider c h s : m_get_height m c h = Ret s -> m_get_height n c h = Ret s.
Proof. apply sub_size_wider. Qed.
Lemma linesize_wider c w a s : m_get_linesize m c w a = Ret s -> m_get_linesize n c w a = Ret s.
Proof.
  intros E. unfold m_get_linesize, m_get_width in E. cbv zeta in E. step_ret E. step_ret E. step_ret E. step_ret E.
  unfold m_get_linesize, m_get_width. cbv zeta. rewrite (sub_size_wider _ _ _ E0). cbn [obind].
  destruct (mul_wider _ _ _ E1) as [X1 _]. rewrite X1. cbn [obind]. destruct (add_wider _ _ _ E2) as [X2 _]. rewrite X2. cbn [obind].
  destruct (sub_wider _ _ _ E3) as [X3 _]. rewrite X3. apply align_wider. exact E.
Qed.
Lemma data_size_wider c w h a s : m_get_data_size m c w h a = Ret s -> m_get_data_size n c w h a = Ret s.
Proof.
  intros E. unfold m_get_data_size in E. step_ret E. step_ret E. unfold m_get_data_size. rewrite (sub_size_wider _ _ _ E0). cbn [obind].
  rewrite (linesize_wider _ _ _ _ E1). apply mul_wider. exact E.
Qed.
Lemma sum_wider w h a l : forall acc s, m_sum_sizes m acc w h a l = Ret s -> m_sum_sizes n acc w h a l = Ret s.
Proof.
  induction l as [|[c|] l IH]; intros acc s E; cbn [m_sum_sizes] in *; [exact E| |apply IH; exact E].
  step_ret E. step_ret E. rewrite (data_size_wider _ _ _ _ _ E0). cbn [obind]. destruct (add_wider _ _ _ E1) as [X _]. rewrite X. apply IH. exact E.
Qed.
Lemma zeroed_wider k l : m_zeroed m k = Ret l -> m_zeroed n k = Ret l.
Proof.
  unfold m_zeroed. assert (P : room m <= room n) by (apply N.pow_le_mono_r; lia).
  destruct (N.ltb_spec k (room m)); intros E; [|discriminate E]. destruct (N.ltb_spec k (room n)); [exact E|lia].
Qed.
Lemma video_planes_wider w h l : forall b b', m_video_planes m w h b l = Ret b' -> m_video_planes n w h b l = Ret b'.
Proof.
  induction l as [|[c|] l IH]; intros b b' E; cbn [m_video_planes] in *; [exact E| |apply IH; exact E].
  step_ret E. step_ret E. step_ret E. rewrite (data_size_wider _ _ _ _ _ E0). cbn [obind]. rewrite (linesize_wider _ _ _ _ E1). cbn [obind].
  rewrite E2. cbn [obind]. destruct a1. apply IH. exact E.
Qed.
Lemma audio_planes_wider v k : forall b b', m_audio_planes m v k b = Ret b' -> m_audio_planes n v k b = Ret b'.
Proof.
  induction k as [|k IH]; intros b b' E; cbn [m_audio_planes] in *; [exact E|].
  step_ret E. step_ret E. rewrite (audio_wider _ _ _ _ E0). cbn [obind]. rewrite E1. cbn [obind]. destruct a0. apply IH. exact E.
Qed.
Lemma frame_wider kind t f : m_new_default_frame m kind t = Ret f -> m_new_default_frame n kind t = Ret f.
Proof.
  intros E. unfold m_new_default_frame in E. step_ret E. unfold m_new_default_frame.
  assert (X : m_fb_new n kind = Ret a); [|rewrite X; exact E].
  unfold m_fb_new in *. destruct kind as [v|v]; step_ret E0; step_ret E0.
  - unfold m_video_size in *. rewrite (sum_wider _ _ _ _ _ _ E1). cbn [obind]. rewrite (zeroed_wider _ _ E2). apply video_planes_wider. exact E0.
  - unfold m_audio_size in *. step_ret E1. rewrite (audio_wider _ _ _ _ E3). cbn [obind]. destruct (mul_wider _ _ _ E1) as [X _]. rewrite X. cbn [obind].
    rewrite (zeroed_wider _ _ E2). cbn [obind]. destruct (so_planar (ai_format v)); [apply audio_planes_wider; exact E0|exact E0].
Qed.

Lemma sub_size_no_ub x k : m_sub_size m x k <> UB.
Proof.
  unfold m_sub_size, mshl, msub, madd, mshr, ranged. rewrite Hc. repeat (match goal with |- context [if ?x then _ else _] => destruct x end; cbn [obind]); discriminate.
Qed.

Lemma bind_same {A B : Type} (x : outcome A) (k l : A -> outcome B) o : (forall a, k a = o -> l a = o) -> obind x k = o -> obind x l = o.
Proof. destruct x; cbn [obind]; intros H; [apply H|exact (fun E => E)..]. Qed.
Lemma bind_wider {A B : Type} (x y : outcome A) (k l : A -> outcome B) o : o <> Panic -> x <> UB -> (forall a, x = Ret a -> y = Ret a) ->
  (forall a, k a = o -> l a = o) -> obind x k = o -> obind y l = o.
Proof. intros Ho Hx Hy H E. destruct x as [a| |]; cbn [obind] in E; [|congruence|congruence]. rewrite (Hy a eq_refl). apply H. exact E. Qed.
Lemma copy_in_S q b w h k i src sls comps : m_copy_in q b w h (S k) i src sls comps =
    let! dl := unwrap_ok (fb_linesize b i) in
    let! sl := unwrap (hd_error sls) in
    let! data := unwrap_ok (fb_slice b i) in
    let! ss := unwrap (hd_error src) in
    let! cc := unwrap (hd_error comps) in
    let! c := unwrap cc in
    let! w' := m_get_width q c w in
    let! h' := m_get_height q c h in
    let! data' := copy_plane data dl ss sl w' h' in
    m_copy_in q (fb_set b i data') w h k (S i) (tl src) (tl sls) (tl comps).
Proof. reflexivity. Qed.
Arguments bind_wider {A B x y k l o}.

Lemma copy_out_wider b w h : forall dst dls comps i o, m_copy_out m b w h i dst dls comps = o -> o <> Panic -> m_copy_out n b w h i dst dls comps = o.
Proof.
  induction dst as [|d dst IH]; intros dls comps i o E Ho; cbn [m_copy_out] in *; [exact E|].
  destruct dls as [|dl dls]; [exact E|]. destruct comps as [|c comps]; [exact E|].
  destruct (i <? fb_count b)%nat; [|exact E].
  destruct (unwrap_ok (fb_slice b i)) as [s| |]; cbn [obind] in *; [|exact E..].
  destruct (unwrap_ok (fb_linesize b i)) as [sl| |]; cbn [obind] in *; [|exact E..].
  destruct (unwrap c) as [c'| |]; cbn [obind] in *; [|exact E..].
  destruct (m_get_width m c' w) as [cw| |] eqn:Ew; cbn [obind] in E; [|congruence|destruct (sub_size_no_ub _ _ Ew)].
  destruct (m_get_height m c' h) as [ch| |] eqn:Eh; cbn [obind] in E; [|congruence|destruct (sub_size_no_ub _ _ Eh)].
  rewrite (width_wider _ _ _ Ew). cbn [obind]. rewrite (height_wider _ _ _ Eh). cbn [obind].
  destruct (copy_plane d dl s sl cw ch) as [d'| |]; cbn [obind] in *; [|exact E..].
  destruct (m_copy_out m b w h (S i) dst dls comps) as [r| |] eqn:Er; cbn [obind] in E; [|congruence|].
  - rewrite (IH _ _ _ _ Er) by discriminate. exact E.
  - rewrite (IH _ _ _ _ Er) by discriminate. exact E.
Qed.
Lemma copy_in_wider w h : forall k b i src sls comps o, m_copy_in m b w h k i src sls comps = o -> o <> Panic -> m_copy_in n b w h k i src sls comps = o.
Proof.
  induction k as [|k IH]; intros b i src sls comps o E Ho; [exact E|]. rewrite copy_in_S in *.
  revert E. apply bind_same. intros dl. apply bind_same. intros sl. apply bind_same. intros s. apply bind_same. intros ss.
  apply bind_same. intros cc. apply bind_same. intros c'.
  apply (bind_wider Ho (sub_size_no_ub _ _) (width_wider c' w)). intros cw.
  apply (bind_wider Ho (sub_size_no_ub _ _) (height_wider c' h)). intros ch.
  apply bind_same. intros d'. intros E. apply IH; assumption.
Qed.

Lemma wider_agrees :
  (forall kind t f, m_new_default_frame m kind t = Ret f -> m_new_default_frame n kind t = Ret f) /\
  (forall f dst dls o, m_copy_frame_to_buffer m f dst dls = o -> o <> Panic -> m_copy_frame_to_buffer n f dst dls = o) /\
  (forall f src sls o, m_copy_from_slice m f src sls = o -> o <> Panic -> m_copy_from_slice n f src sls = o).
Proof.
  split; [exact frame_wider|]. split.
  - intros f dst dls o E Ho. unfold m_copy_frame_to_buffer in *. destruct (fr_kind f); [|exact E].
    apply copy_out_wider; assumption.
  - intros f src sls o E Ho. unfold m_copy_from_slice in *. destruct (fr_kind f) as [v|]; [|exact E].
    destruct (m_copy_in m _ _ _ _ _ _ _ _) as [b| |] eqn:Eb; cbn [obind] in E; [|congruence|].
    + rewrite (copy_in_wider _ _ _ _ _ _ _ _ _ Eb) by discriminate. exact E.
    + rewrite (copy_in_wider _ _ _ _ _ _ _ _ _ Eb) by discriminate. exact E.
Qed.
End Wider.

(** ** Exactly when a frame is created *)
Section Exact.
Variable m : machine.
Hypothesis Hc : checked m = true.
Hypothesis Hbits : 9 <= bits m.

Lemma madd_exact a b s : madd m a b = Ret s <-> s = a + b /\ a + b < 2 ^ bits m.
Proof.
  unfold madd, ranged, modulus. rewrite Hc. destruct (N.ltb_spec (a + b) (2 ^ bits m)); split; intros E; try discriminate E; try lia.
  - split; [congruence|assumption].
  - destruct E as [-> _]. reflexivity.
Qed.
Lemma mmul_exact a b s : mmul m a b = Ret s <-> s = a * b /\ a * b < 2 ^ bits m.
Proof.
  unfold mmul, ranged, modulus. rewrite Hc. destruct (N.ltb_spec (a * b) (2 ^ bits m)); split; intros E; try discriminate E; try lia.
  - split; [congruence|assumption].
  - destruct E as [-> _]. reflexivity.
Qed.
Lemma msub_exact a b s : msub m a b = Ret s <-> s = a - b /\ b <= a.
Proof.
  unfold msub. rewrite Hc. destruct (N.leb_spec b a); split; intros E; try discriminate E; try lia.
  - split; [congruence|assumption].
  - destruct E as [-> _]. reflexivity.
Qed.

Lemma m_sub_size_exact x k r : m_sub_size m x k = Ret r <-> k < bits m /\ x + 2 ^ k <= 2 ^ bits m /\ ceil_div x (2 ^ k) r.
Proof.
  pose proof (pow2_pos k) as P.
  assert (S : k < bits m -> mshl m 1 k = Ret (2 ^ k)).
  { intros H. unfold mshl. destruct (N.ltb_spec k (bits m)); [|lia]. rewrite N.shiftl_1_l, N.mod_small; [reflexivity|].
    apply N.pow_lt_mono_r; [reflexivity|exact H]. }
  assert (R : forall y, k < bits m -> mshr m y k = Ret (N.shiftr y k)).
  { intros y H. unfold mshr. destruct (N.ltb_spec k (bits m)); [reflexivity|lia]. }
  unfold m_sub_size. destruct (N.ltb_spec k (bits m)) as [H|H].
  - rewrite (S H). cbn [obind]. rewrite (proj2 (msub_exact (2 ^ k) 1 (2 ^ k - 1))) by lia. cbn [obind]. split.
    + intros E. step_ret E. apply madd_exact in E0. destruct E0 as [-> E0]. rewrite (R _ H) in E. injection E as <-.
      split; [exact H|]. split; [lia|]. apply ceil_div_shiftr.
    + intros (_ & B & C). rewrite (proj2 (madd_exact x (2 ^ k - 1) (x + (2 ^ k - 1)))) by lia. cbn [obind]. rewrite (R _ H). f_equal.
      apply (ceil_div_unique x (2 ^ k)); [exact P|apply ceil_div_shiftr|exact C].
  - split; [|lia]. intros E. step_ret E. unfold mshl in E0. rewrite Hc in E0. destruct (N.ltb_spec k (bits m)); [lia|discriminate E0].
Qed.

Lemma m_align_exact v a s : power_of_two a -> m_align m v a = Ret s <-> v + a < 2 ^ bits m /\ least_multiple a v s.
Proof.
  intros [k ->]. pose proof (pow2_pos k) as P. unfold m_align.
  assert (L : v + 2 ^ k < 2 ^ bits m -> N.land (v + 2 ^ k - 1) (mnot m (2 ^ k - 1)) = aligned v (2 ^ k)).
  { intros H. unfold mnot. rewrite land_lnot by lia. replace (2 ^ k - 1) with (N.ones k) by (rewrite N.ones_equiv; lia).
    rewrite N.ldiff_ones_r, N.shiftr_div_pow2, N.shiftl_mul_pow2. reflexivity. }
  split.
  - intros E. step_ret E. apply madd_exact in E0. destruct E0 as [-> E0]. step_ret E. apply msub_exact in E1. destruct E1 as [-> _].
    step_ret E. apply msub_exact in E1. destruct E1 as [-> _]. rewrite (L E0) in E. injection E as <-. split; [exact E0|apply aligned_least; exact P].
  - intros [H M]. rewrite (proj2 (madd_exact v (2 ^ k) _) (conj eq_refl H)). cbn [obind].
    rewrite (proj2 (msub_exact (v + 2 ^ k) 1 _)) by (split; [reflexivity|lia]). cbn [obind].
    rewrite (proj2 (msub_exact (2 ^ k) 1 _)) by (split; [reflexivity|lia]). cbn [obind].
    rewrite (L H). f_equal. apply (least_unique (2 ^ k) v); [apply aligned_least; exact P|exact M].
Qed.

Lemma m_round_exact v b : m_round_to_byte m v = Ret b <-> v + 7 < 2 ^ bits m /\ ceil_div v 8 b.
Proof.
  unfold m_round_to_byte. split.
  - intros E. step_ret E. apply madd_exact in E0. destruct E0 as [-> E0]. injection E as <-. split; [exact E0|exact (ceil_div_shiftr v 3)].
  - intros [H C]. rewrite (proj2 (madd_exact v 7 _) (conj eq_refl H)). cbn [obind]. f_equal.
    apply (ceil_div_unique v 8); [lia|exact (ceil_div_shiftr v 3)|exact C].
Qed.

Lemma bits_512 : 512 <= 2 ^ bits m.
Proof. change 512 with (2 ^ 9). apply N.pow_le_mono_r; [discriminate|exact Hbits]. Qed.

Lemma m_audio_exact f len a s : power_of_two a -> so_bits f < 256 ->
  m_get_audio_size m f len a = Ret s <-> samples_bytes_on (bits m) f len a s.
Proof.
  intros Ha Hb. pose proof bits_512 as B. unfold samples_bytes_on, bytes_needed, m_get_audio_size. split.
  - intros E. step_ret E. apply (m_align_exact _ _ _ Ha) in E. destruct E as [Hs Hl]. exists a0. destruct (so_packed f).
    + step_ret E0. apply mmul_exact in E. destruct E as [-> _]. apply m_round_exact in E0. destruct E0 as [E1 E2].
      split; [exact E2|]. split; [intros _; exact E1|]. split; [exact Hs|exact Hl].
    + step_ret E0. apply m_round_exact in E. apply mmul_exact in E0. split; [exists a1; split; tauto|]. split; [discriminate|]. split; [exact Hs|exact Hl].
  - intros (need & Hn & Hw & Hs & Hl). destruct (so_packed f).
    + specialize (Hw eq_refl). rewrite (proj2 (mmul_exact len (so_bits f) _)) by (split; [reflexivity|lia]). cbn [obind].
      rewrite (proj2 (m_round_exact _ need)) by (split; assumption). cbn [obind]. apply m_align_exact; [exact Ha|]. split; assumption.
    + destruct Hn as [b [Hd ->]]. rewrite (proj2 (m_round_exact _ b)) by (split; [lia|assumption]). cbn [obind].
      rewrite (proj2 (mmul_exact len b _)) by (split; [reflexivity|lia]). cbn [obind]. apply m_align_exact; [exact Ha|]. split; assumption.
Qed.

Lemma m_linesize_exact c w a s : power_of_two a -> m_get_linesize m c w a = Ret s <->
  exists cw need, h_ss c < bits m /\ w + 2 ^ h_ss c <= 2 ^ bits m /\ ceil_div w (2 ^ h_ss c) cw /\
    1 <= depth c /\ cw * depth c + depth c < 2 ^ bits m /\
    8 * need <= cw * depth c + depth c - 1 /\ cw * depth c + depth c - 1 < 8 * (need + 1) /\
    need + a < 2 ^ bits m /\ least_multiple a need s.
Proof.
  intros Ha. unfold m_get_linesize, m_get_width. cbv zeta. split.
  - intros E. step_ret E. apply m_sub_size_exact in E0. destruct E0 as (A1 & A2 & A3).
    step_ret E. apply mmul_exact in E0. destruct E0 as [-> _]. step_ret E. apply madd_exact in E0. destruct E0 as [-> A4].
    step_ret E. apply msub_exact in E0. destruct E0 as [-> A5]. apply (m_align_exact _ _ _ Ha) in E. destruct E as [A6 A7].
    assert (1 <= depth c) by (destruct (N.eq_dec (depth c) 0) as [Z|]; [rewrite Z in A5; lia|lia]).
    set (x := a0 * depth c + depth c - 1) in *. rewrite N.shiftr_div_pow2 in *. change (2 ^ 3) with 8 in *.
    pose proof (N.div_mod x 8 ltac:(discriminate)). pose proof (N.mod_lt x 8 ltac:(discriminate)).
    exists a0, (x / 8). repeat (split; [first [assumption|lia]|]). exact A7.
  - intros (cw & need & A1 & A2 & A3 & A4 & A5 & A6 & A7 & A8 & A9).
    rewrite (proj2 (m_sub_size_exact _ _ cw)) by (repeat (split; [assumption|]); assumption). cbn [obind].
    rewrite (proj2 (mmul_exact cw (depth c) _)) by (split; [reflexivity|lia]). cbn [obind].
    rewrite (proj2 (madd_exact (cw * depth c) (depth c) _) (conj eq_refl A5)). cbn [obind].
    rewrite (proj2 (msub_exact (cw * depth c + depth c) 1 _)) by (split; [reflexivity|lia]). cbn [obind].
    set (x := cw * depth c + depth c - 1) in *. rewrite N.shiftr_div_pow2. change (2 ^ 3) with 8.
    pose proof (N.div_mod x 8 ltac:(discriminate)). pose proof (N.mod_lt x 8 ltac:(discriminate)).
    assert (x / 8 = need) as -> by lia. apply m_align_exact; [exact Ha|]. split; assumption.
Qed.

Lemma m_plane_exact c w h k : m_get_data_size m c w h ALIGNMENT = Ret k <-> plane_bytes_on (bits m) w h c k /\ k < 2 ^ bits m.
Proof.
  unfold plane_bytes_on, m_get_data_size. split.
  - intros E. step_ret E. step_ret E. apply mmul_exact in E. destruct E as [-> Hk]. split; [|exact Hk].
    apply m_sub_size_exact in E0. destruct E0 as (B1 & B2 & B3).
    apply (m_linesize_exact _ _ _ _ power_32) in E1. destruct E1 as (cw & need & A1 & A2 & A3 & A4 & A5 & A6 & A7 & A8 & A9).
    exists cw, need, a0, a. repeat (split; [assumption|]). reflexivity.
  - intros [(cw & need & s & rows & A1 & A2 & A3 & A4 & A5 & A6 & A7 & A8 & A9 & B1 & B2 & B3 & ->) Hk].
    rewrite (proj2 (m_sub_size_exact _ _ rows)) by (repeat (split; [assumption|]); assumption). cbn [obind].
    rewrite (proj2 (m_linesize_exact c w ALIGNMENT s power_32)); [cbn [obind]; apply mmul_exact; split; [reflexivity|exact Hk]|].
    exists cw, need. repeat (split; [assumption|]). assumption.
Qed.

Lemma m_sum_exact w h l : forall acc k, k < 2 ^ bits m ->
  m_sum_sizes m acc w h ALIGNMENT l = Ret k <-> exists sizes, Forall2 (plane_bytes_on (bits m) w h) (present l) sizes /\ k = acc + total sizes.
Proof.
  induction l as [|[c|] l IH]; intros acc k Hk; cbn [m_sum_sizes present].
  - split.
    + intros E. injection E as <-. exists []. split; [constructor|]. cbn [total fold_right]. lia.
    + intros (sizes & F & ->). inversion F. cbn [total fold_right]. rewrite N.add_0_r. reflexivity.
  - split.
    + intros E. step_ret E. apply m_plane_exact in E0. step_ret E. apply madd_exact in E1. destruct E1 as [-> _].
      apply (IH _ _ Hk) in E. destruct E as (sizes & F & ->). exists (a :: sizes). split; [constructor; [apply E0|exact F]|].
      cbn [total fold_right]. fold (total sizes). lia.
    + intros (sizes & F & ->). inversion F as [|c' x cs xs Hx F' E1 E2]; subst. cbn [total fold_right] in *. fold (total xs) in *.
      rewrite (proj2 (m_plane_exact c w h x)) by (split; [exact Hx|lia]). cbn [obind].
      rewrite (proj2 (madd_exact acc x _)) by (split; [reflexivity|lia]). cbn [obind]. apply (IH _ _ Hk). exists xs. split; [exact F'|lia].
  - apply (IH _ _ Hk).
Qed.

(** Planes of zeros of the sizes computed. *)
Lemma m_sum_ge w h a l : forall acc k, m_sum_sizes m acc w h a l = Ret k -> acc <= k.
Proof.
  induction l as [|[c|] l IH]; intros acc k E; cbn [m_sum_sizes] in E.
  - injection E as <-. lia.
  - step_ret E. step_ret E. apply madd_exact in E1. apply IH in E. lia.
  - exact (IH _ _ E).
Qed.

Lemma m_planes_made w h l : forall acc k ps, m_sum_sizes m acc w h ALIGNMENT l = Ret k ->
  exists qs, m_video_planes m w h (mk_fb (repeat 0 (N.to_nat (k - acc))) ps) l = Ret (mk_fb [] (ps ++ qs)) /\
    Forall2 (fun c p => exists s, m_get_linesize m c w ALIGNMENT = Ret (pl_linesize p) /\ plane_bytes_on (bits m) w h c s /\ pl_buf p = repeat 0 (N.to_nat s)) (present l) qs.
Proof.
  induction l as [|[c|] l IH]; intros acc k ps E; cbn [m_sum_sizes m_video_planes present] in *.
  - exists []. injection E as <-. rewrite N.sub_diag, app_nil_r. split; [reflexivity|constructor].
  - step_ret E. step_ret E. apply madd_exact in E1. destruct E1 as [-> _]. pose proof (m_sum_ge _ _ _ _ _ _ E) as G.
    rewrite E0. cbn [obind]. assert (X := E0). unfold m_get_data_size in X. step_ret X. step_ret X. rewrite E2. cbn [obind fb_buf].
    rewrite split_zero by lia. cbn [obind fb_planes]. replace (k - acc - a) with (k - (acc + a)) by lia.
    destruct (IH _ _ (ps ++ [mk_plane (repeat 0 (N.to_nat a)) a1]) E) as (qs & Q1 & Q2).
    exists (mk_plane (repeat 0 (N.to_nat a)) a1 :: qs). rewrite Q1, <- app_assoc. split; [reflexivity|]. constructor; [|exact Q2].
    exists a. split; [exact E2|]. split; [apply m_plane_exact; exact E0|reflexivity].
  - exact (IH acc k ps E).
Qed.

Lemma plane_on_unique b w h c k k' : plane_bytes_on b w h c k -> plane_bytes_on b w h c k' -> k = k'.
Proof.
  intros (cw & need & s & rows & A1 & A2 & A3 & A4 & A5 & A6 & A7 & A8 & A9 & B1 & B2 & B3 & ->)
         (cw' & need' & s' & rows' & A1' & A2' & A3' & A4' & A5' & A6' & A7' & A8' & A9' & B1' & B2' & B3' & ->).
  pose proof (ceil_div_unique w (2 ^ h_ss c) cw cw' (pow2_pos _) A3 A3'). subst cw'.
  assert (need = need') by lia. subst need'.
  pose proof (least_unique _ _ _ _ A9 A9'). subst s'.
  pose proof (ceil_div_unique h (2 ^ v_ss c) rows rows' (pow2_pos _) B3 B3'). subst rows'. reflexivity.
Qed.

Lemma half_lt : 2 ^ (bits m - 1) < 2 ^ bits m.
Proof. apply N.pow_lt_mono_r; lia. Qed.

Lemma m_video_created v t : (exists f, m_new_default_frame m (Video v) t = Ret f) <->
  exists sizes, Forall2 (plane_bytes_on (bits m) (vi_width v) (vi_height v)) (present (fo_comps (vi_format v))) sizes /\ total sizes < 2 ^ (bits m - 1).
Proof.
  pose proof half_lt as HL. unfold m_new_default_frame, m_fb_new, m_video_size, m_zeroed. fold (MachineModel.room m) in *. split.
  - intros [f E]. step_ret E. step_ret E0. step_ret E0. destruct (N.ltb_spec a0 (MachineModel.room m)) as [L|]; [|discriminate E2].
    apply m_sum_exact in E1; [|lia]. destruct E1 as (sizes & F & ->). exists sizes. split; [exact F|exact L].
  - intros (sizes & F & T). assert (E : m_sum_sizes m 0 (vi_width v) (vi_height v) ALIGNMENT (fo_comps (vi_format v)) = Ret (total sizes)).
    { apply m_sum_exact; [lia|]. exists sizes. split; [exact F|reflexivity]. }
    rewrite E. cbn [obind]. destruct (N.ltb_spec (total sizes) (MachineModel.room m)); [|lia]. cbn [obind].
    destruct (m_planes_made _ _ _ _ _ [] E) as (qs & Q1 & _). rewrite N.sub_0_r in Q1. rewrite Q1. cbn [obind]. eauto.
Qed.

Lemma m_video_sizes v t f sizes : m_new_default_frame m (Video v) t = Ret f ->
  Forall2 (plane_bytes_on (bits m) (vi_width v) (vi_height v)) (present (fo_comps (vi_format v))) sizes ->
  map pl_buf (fb_planes (fr_buf f)) = map (fun k => repeat 0 (N.to_nat k)) sizes.
Proof.
  intros E F. unfold m_new_default_frame in E. step_ret E. injection E as <-. cbn [fr_buf]. unfold m_fb_new in E0. step_ret E0. step_ret E0.
  unfold m_zeroed in E1. destruct (a0 <? MachineModel.room m); [|discriminate E1]. injection E1 as <-.
  destruct (m_planes_made _ _ _ _ _ [] E) as (qs & Q1 & Q2). rewrite N.sub_0_r in Q1. rewrite Q1 in E0. injection E0 as <-. cbn [fb_planes app].
  clear Q1. revert sizes F. induction Q2 as [|c p cs ps (s & _ & P & B) Q2 IH]; intros sizes F; inversion F as [|c' k cs' ks Hk F']; subst; [reflexivity|].
  cbn [map]. rewrite B, (plane_on_unique _ _ _ _ _ _ P Hk), (IH _ F'). reflexivity.
Qed.

Lemma m_audio_planes_made v s k : m_get_audio_size m (ai_format v) (ai_samples v) ALIGNMENT = Ret s -> forall tot ps,
  s * N.of_nat k = tot -> m_audio_planes m v k (mk_fb (repeat 0 (N.to_nat tot)) ps) =
  Ret (mk_fb [] (ps ++ repeat (mk_plane (repeat 0 (N.to_nat s)) s) k)).
Proof.
  intros Hs. induction k as [|k IH]; intros tot ps Ht; cbn [m_audio_planes].
  - rewrite N.mul_0_r in Ht. subst tot. cbn [repeat N.to_nat]. rewrite app_nil_r. reflexivity.
  - rewrite Hs. cbn [obind fb_buf]. rewrite split_zero by lia. cbn [obind fb_planes].
    rewrite IH by lia. cbn [repeat]. rewrite <- app_assoc. reflexivity.
Qed.

Lemma m_audio_created v t : so_bits (ai_format v) < 256 ->
  (exists f, m_new_default_frame m (Audio v) t = Ret f) <->
  exists s, samples_bytes_on (bits m) (ai_format v) (ai_samples v) 32 s /\ s * N.of_nat (length (ai_map v)) < 2 ^ (bits m - 1).
Proof.
  intros Hb. pose proof half_lt as HL. unfold m_new_default_frame, m_fb_new, m_audio_size, m_zeroed, map_len. fold (MachineModel.room m) in *. split.
  - intros [f E]. step_ret E. step_ret E0. step_ret E1. apply mmul_exact in E1. destruct E1 as [-> _]. step_ret E0.
    destruct (N.ltb_spec (a1 * N.of_nat (length (ai_map v))) (MachineModel.room m)) as [L|]; [|discriminate E1].
    exists a1. split; [apply (m_audio_exact _ _ _ _ power_32 Hb); exact E2|exact L].
  - intros (s & S1 & S2). apply (m_audio_exact _ _ _ _ power_32 Hb) in S1. rewrite S1. cbn [obind].
    rewrite (proj2 (mmul_exact s (N.of_nat (length (ai_map v))) _)) by (split; [reflexivity|lia]). cbn [obind].
    destruct (N.ltb_spec (s * N.of_nat (length (ai_map v))) (MachineModel.room m)); [|lia]. cbn [obind].
    destruct (so_planar (ai_format v)).
    + rewrite (m_audio_planes_made v s _ S1 _ []) by reflexivity. cbn [obind]. eauto.
    + rewrite split_zero by lia. cbn [obind]. eauto.
Qed.
End Exact.
