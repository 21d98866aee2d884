(** The proofs of the theorems of [PixelProps]. *)
From Coq Require Import String List Arith NArith Bool Lia.
From Verif Require Import Base AudioModel PixelModel FrameModel DisplayModel DataSpec DataProofs DisplayProofs.
Import ListNotations.
Local Open Scope N_scope.

Lemma sub_size_exact : forall x k r, sub_size x k = Ret r <-> k < 64 /\ x + 2 ^ k <= W64 /\ ceil_div x (2 ^ k) r.
Proof.
  intros x k r. pose proof (pow2_pos k) as Hp. split.
  - intros H. apply sub_size_inv in H. destruct H as (A & B & ->). split; [exact A|]. split; [Lia.lia|apply ceil_pow_spec].
  - intros (A & B & C). rewrite sub_size_ret; [|exact A|Lia.lia]. f_equal.
    apply (ceil_div_unique x (2 ^ k)); [exact Hp|apply ceil_pow_spec|exact C].
Qed.

Lemma c49_component_exact : forall c x r,
  (get_width c x = Ret r <-> h_ss c < 64 /\ x + 2 ^ h_ss c <= W64 /\ ceil_div x (2 ^ h_ss c) r) /\
  (get_height c x = Ret r <-> v_ss c < 64 /\ x + 2 ^ v_ss c <= W64 /\ ceil_div x (2 ^ v_ss c) r).
Proof. intros c x r. split; apply sub_size_exact. Qed.

Lemma c49_component_size : forall c x,
  (forall r, get_width c x = Ret r -> ceil_div x (2 ^ h_ss c) r) /\
  (forall r, get_height c x = Ret r -> ceil_div x (2 ^ v_ss c) r) /\
  (h_ss c < 64 -> x + (2 ^ h_ss c - 1) < W64 -> exists r, get_width c x = Ret r) /\
  (v_ss c < 64 -> x + (2 ^ v_ss c - 1) < W64 -> exists r, get_height c x = Ret r).
Proof.
  intros c x. split; [|split; [|split]].
  - intros r H. apply sub_size_inv in H. destruct H as (_ & _ & ->). apply ceil_pow_spec.
  - intros r H. apply sub_size_inv in H. destruct H as (_ & _ & ->). apply ceil_pow_spec.
  - intros A B. eexists. apply sub_size_ret; assumption.
  - intros A B. eexists. apply sub_size_ret; assumption.
Qed.

Lemma c50_stride_refuted :
  exists c w cw s, In (Some c) (fo_comps fmt_RGB565) /\ get_width c w = Ret cw /\ get_linesize c w 32 = Ret s /\ 8 * s < cw * depth c.
Proof.
  exists (packrgb 5 11 0 2), 103, 103, 64. split; [left; reflexivity|]. split; [reflexivity|]. split; [vm_compute; reflexivity|reflexivity].
Qed.

Lemma c50_stride_partial : forall c w a s, power_of_two a -> get_linesize c w a = Ret s ->
  exists cw, get_width c w = Ret cw /\ (exists k, s = k * a) /\
    (8 <= depth c -> cw * depth c <= 8 * s) /\ cw * depth c <= 8 * s + (8 - depth c).
Proof.
  intros c w a s Ha H. pose proof (stride_sound c w a s Ha H) as (cw & C & M & D & L & _). exists cw. split.
  - apply linesize_inv in H; [|assumption]. destruct H as (A & B & _). unfold get_width. rewrite sub_size_ret by assumption. f_equal.
    apply (ceil_div_unique w (2 ^ h_ss c)); [apply pow2_pos|apply ceil_pow_spec|exact C].
  - split; [exact M|]. split; [intros; lia|exact L].
Qed.

Lemma c51_ten_bit_refuted : forall f, In f [fmt_YUV444_10; fmt_YUV422_10; fmt_YUV420_10; fmt_YUV411_10; fmt_YUV410_10] ->
  exists i c, nth_error (fo_comps f) i = Some (Some c) /\ depth c <> 10 /\ comp_offs c <> N.of_nat i.
Proof.
  intros f H. cbn [In] in H. exists 1%nat.
  repeat (destruct H as [<-|H]; [eexists; split; [reflexivity|split; discriminate]|]). destruct H.
Qed.

Lemma c51_ten_bit_partial :
  (forall f, In f [fmt_YUV444_10; fmt_YUV422_10; fmt_YUV420_10; fmt_YUV411_10; fmt_YUV410_10] ->
    exists c, nth_error (fo_comps f) 0 = Some (Some c) /\ depth c = 10 /\ comp_offs c = 0) /\
  (forall f, In f [fmt_YUV444; fmt_YUV422; fmt_YUV420; fmt_YUV411; fmt_YUV410] -> forall i c, nth_error (fo_comps f) i = Some (Some c) ->
    depth c = 8 /\ comp_offs c = N.of_nat i).
Proof.
  split.
  - intros f H. cbn [In] in H. repeat (destruct H as [<-|H]; [eexists; split; [reflexivity|split; reflexivity]|]). destruct H.
  - intros f H i c E. cbn [In] in H.
    repeat (destruct H as [<-|H]; [destruct i as [|[|[|[|[|i]]]]]; try discriminate E; try (injection E as <-; split; reflexivity); destruct i; discriminate E|]).
    destruct H.
Qed.

Lemma c59_published : forall v,
  matrix_from_u32 v = lookup published_matrix v /\
  primaries_from_u32 v = lookup published_primaries v /\
  xfer_from_u32 v = lookup published_xfer v.
Proof. intros v. split; [apply matrix_table|]. split; [apply primaries_table|apply xfer_table]. Qed.

Lemma c59_round_trip : forall v,
  (forall m, matrix_from_u32 v = Some m <-> matrix_to_u32 m = Some v) /\
  (forall m, primaries_from_u32 v = Some m <-> primaries_to_u32 m = Some v) /\
  (forall m, xfer_from_u32 v = Some m <-> xfer_to_u32 m = Some v).
Proof.
  intros v. split; [|split]; intros m; [rewrite matrix_parse; unfold matrix_to_u32|rewrite primaries_parse; unfold primaries_to_u32|rewrite xfer_parse; unfold xfer_to_u32];
    split; intros H; congruence.
Qed.

Lemma c60_setters_refuted :
  exists f, (exists p, fo_primaries (fst (set_primaries f p)) <> p) /\ (exists x, fo_xfer (fst (set_xfer f x)) <> x) /\
    (exists m, fo_matrix (fst (set_matrix f m)) <> m) /\
    (exists v p, snd (set_primaries_from_u32 f v) = Some p /\ fo_primaries (fst (set_primaries_from_u32 f v)) <> p).
Proof.
  exists fmt_YUV420. split; [exists CpBT709; discriminate|]. split; [exists TcSRGB; discriminate|]. split; [exists McBT709; discriminate|].
  exists 1, CpBT709. split; [reflexivity|discriminate].
Qed.

Lemma c60_setters_partial : forall f,
  (forall p, set_primaries f p = (f, tt)) /\ (forall x, set_xfer f x = (f, tt)) /\ (forall m, set_matrix f m = (f, tt)) /\
  (forall v, set_primaries_from_u32 f v = (f, lookup published_primaries v)) /\
  (forall v, set_xfer_from_u32 f v = (f, lookup published_xfer v)) /\
  (forall v, set_matrix_from_u32 f v = (f, lookup published_matrix v)).
Proof.
  intros f. repeat (apply conj; [reflexivity|]). split; [|split]; intros v.
  - rewrite <- primaries_table. unfold set_primaries_from_u32, call_by_value. destruct (primaries_from_u32 v); reflexivity.
  - rewrite <- xfer_table. unfold set_xfer_from_u32, call_by_value. destruct (xfer_from_u32 v); reflexivity.
  - rewrite <- matrix_table. unfold set_matrix_from_u32, call_by_value. destruct (matrix_from_u32 v); reflexivity.
Qed.

Lemma c72_subsampling_refuted :
  exists c, In (Some c) (fo_comps fmt_YUV422) /\ In (Some (yuvhb 0 1 1 10)) (fo_comps fmt_YUV422_10) /\
    comp_offs c = 1 /\ get_width c 16 = Ret 16 /\ get_height c 16 = Ret 8.
Proof. exists (yuv8 0 1 1). split; [right; left; reflexivity|]. split; [right; left; reflexivity|]. repeat apply conj; reflexivity. Qed.

Lemma c72_subsampling_partial : forall f hs vs,
  In (f, (hs, vs)) [(fmt_YUV444, (0, 0)); (fmt_YUV420, (1, 1)); (fmt_YUV411, (2, 0)); (fmt_YUV410, (2, 1));
                    (fmt_YUV444_10, (0, 0)); (fmt_YUV420_10, (1, 1)); (fmt_YUV411_10, (2, 0)); (fmt_YUV410_10, (2, 1))] ->
  exists y cb cr, present (fo_comps f) = [y; cb; cr] /\ (h_ss y, v_ss y) = (0, 0) /\ (h_ss cb, v_ss cb) = (hs, vs) /\ (h_ss cr, v_ss cr) = (hs, vs).
Proof.
  intros f hs vs H. cbn [In] in H.
  repeat (destruct H as [H|H]; [injection H as <- <- <-; eexists _, _, _; repeat apply conj; reflexivity|]). destruct H.
Qed.

Lemma c73_packing_refuted : ~ well_packed fmt_RGB48 /\ ~ well_packed fmt_RGBA64.
Proof.
  split; intros [_ H].
  - destruct (H 0%nat 1%nat _ _ ltac:(discriminate) eq_refl eq_refl) as [A|A]; vm_compute in A; apply A; reflexivity.
  - destruct (H 0%nat 1%nat _ _ ltac:(discriminate) eq_refl eq_refl) as [A|A]; vm_compute in A; apply A; reflexivity.
Qed.

Lemma c73_packing_partial : forall f, In f [fmt_PAL8; fmt_RGB565; fmt_RGB24; fmt_RGBA] -> well_packed f.
Proof.
  assert (G : forall (l : list chromaton) e, forallb (fun c => snd (bit_range c) <=? 8 * e) l = true ->
     forallb (fun i => forallb (fun j => (i =? j)%nat || match nth_error l i, nth_error l j with
        | Some c, Some c' => (snd (bit_range c) <=? fst (bit_range c')) || (snd (bit_range c') <=? fst (bit_range c))
        | _, _ => true end) (seq 0 (length l))) (seq 0 (length l)) = true ->
     (forall c, In c l -> snd (bit_range c) <= 8 * e) /\
     forall i j c c', i <> j -> nth_error l i = Some c -> nth_error l j = Some c' -> disjoint_ranges (bit_range c) (bit_range c')).
  { intros l e H1 H2. split.
    - intros c Hc. rewrite forallb_forall in H1. apply N.leb_le. apply H1. exact Hc.
    - intros i j c c' Hij Hi Hj. rewrite forallb_forall in H2.
      assert (Li : (i < length l)%nat) by (apply nth_error_Some; congruence). assert (Lj : (j < length l)%nat) by (apply nth_error_Some; congruence).
      specialize (H2 i ltac:(apply in_seq; lia)). rewrite forallb_forall in H2. specialize (H2 j ltac:(apply in_seq; lia)).
      destruct (Nat.eqb_spec i j); [contradiction|]. cbn [orb] in H2. rewrite Hi, Hj in H2. apply orb_true_iff in H2.
      unfold disjoint_ranges. rewrite !N.leb_le in H2. exact H2. }
  intros f H. cbn [In] in H. repeat (destruct H as [<-|H]; [apply G; vm_compute; reflexivity|]). destruct H.
Qed.

Lemma c74_minimal_stride_refuted :
  exists c w cw s, In (Some c) (fo_comps fmt_RGB48) /\ get_width c w = Ret cw /\ cw * depth c <= 8 * 32 /\ get_linesize c w 32 = Ret s /\ 32 < s.
Proof.
  exists (packrgb 16 0 2 6), 16, 16, 64. split; [left; reflexivity|]. split; [reflexivity|]. split; [discriminate|]. split; [vm_compute; reflexivity|reflexivity].
Qed.

Lemma c74_minimal_stride_partial : forall c w a s, power_of_two a -> depth c = 8 -> get_linesize c w a = Ret s ->
  exists cw, ceil_div w (2 ^ h_ss c) cw /\ least_multiple a cw s.
Proof.
  intros c w a s Ha Hd H. pose proof (stride_sound c w a s Ha H) as (cw & C & _ & _ & _ & L). exists cw. split; [exact C|exact (L Hd)].
Qed.

Lemma c74_stride_exact : forall c w a s, power_of_two a ->
  get_linesize c w a = Ret s <->
  exists cw need, h_ss c < 64 /\ w + 2 ^ h_ss c <= W64 /\ 1 <= depth c /\
    ceil_div w (2 ^ h_ss c) cw /\ cw * depth c + depth c < W64 /\
    8 * need <= cw * depth c + depth c - 1 /\ cw * depth c + depth c - 1 < 8 * (need + 1) /\
    need + a < W64 /\ least_multiple a need s.
Proof.
  intros c w a s Ha. assert (Hpos : 0 < a) by (destruct Ha as [k ->]; apply pow2_pos). pose proof (pow2_pos (h_ss c)) as Hp.
  assert (LB : forall n, line_bytes (ceil_pow w (h_ss c)) (depth c) = n <->
     8 * n <= ceil_pow w (h_ss c) * depth c + depth c - 1 /\ ceil_pow w (h_ss c) * depth c + depth c - 1 < 8 * (n + 1)).
  { intros n. unfold line_bytes. set (x := ceil_pow w (h_ss c) * depth c + depth c - 1).
    pose proof (N.div_mod x 8 ltac:(Lia.lia)). pose proof (N.mod_lt x 8 ltac:(Lia.lia)). Lia.lia. }
  assert (LM : forall n s1 s2, least_multiple a n s1 -> least_multiple a n s2 -> s1 = s2).
  { intros n s1 s2 [[k1 ->] [A1 B1]] [[k2 ->] [A2 B2]]. apply N.le_antisymm; [apply B1|apply B2]; assumption. }
  split.
  - intros H. assert (Hd : 1 <= depth c) by (destruct (stride_sound c w a s Ha H) as (? & _ & _ & D & _); exact D).
    assert (Hn : line_bytes (ceil_pow w (h_ss c)) (depth c) + a < W64).
    { pose proof (linesize_inv c w a s Ha H) as (A & B & C & D & _).
      unfold get_linesize, get_width in H. rewrite sub_size_ret in H by assumption. cbn [obind] in H.
      rewrite umul_ret in H by Lia.lia. cbn [obind] in H. rewrite uadd_ret in H by assumption. cbn [obind] in H.
      rewrite usub_ret in H by Lia.lia. cbn [obind] in H. rewrite N.shiftr_div_pow2 in H. change (2 ^ 3) with 8 in H.
      apply align_inv in H; [|assumption]. exact (proj1 H). }
    apply linesize_inv in H; [|assumption]. destruct H as (A & B & C & D & ->).
    exists (ceil_pow w (h_ss c)), (line_bytes (ceil_pow w (h_ss c)) (depth c)).
    split; [exact A|]. split; [Lia.lia|]. split; [exact Hd|]. split; [apply ceil_pow_spec|]. split; [exact D|].
    destruct (proj1 (LB _) eq_refl) as [L1 L2]. split; [exact L1|]. split; [exact L2|]. split; [exact Hn|]. apply aligned_least. exact Hpos.
  - intros (cw & need & A & B & C & D & E & F & G & H & I).
    assert (cw = ceil_pow w (h_ss c)) as -> by (apply (ceil_div_unique w (2 ^ h_ss c)); [exact Hp|exact D|apply ceil_pow_spec]).
    assert (L : line_bytes (ceil_pow w (h_ss c)) (depth c) = need) by (apply LB; split; assumption).
    rewrite linesize_ret; try assumption; [|Lia.lia|rewrite L; exact H]. rewrite L. f_equal.
    apply (LM need); [apply aligned_least; exact Hpos|exact I].
Qed.

Lemma c75_display_refuted : exists c, ch_packed c = true /\ depth c = 32 /\ show_chromaton c = Panic.
Proof. exists (packrgb 32 0 0 4). repeat apply conj; vm_compute; reflexivity. Qed.

Lemma c75_display_partial : forall c,
  (exists s, show_chromaton c = Ret s) <-> ch_packed c = false \/ (depth c < 31 /\ shift c < 32).
Proof.
  intros c. split; [|apply show_chromaton_ret]. intros [s E]. destruct (ch_packed c) eqn:P; [right|left; reflexivity].
  destruct (N.lt_ge_cases (depth c) 31) as [A|A]; [|rewrite (show_chromaton_panic c P (or_introl A)) in E; discriminate E].
  destruct (N.lt_ge_cases (shift c) 32) as [B|B]; [|rewrite (show_chromaton_panic c P (or_intror B)) in E; discriminate E].
  split; assumption.
Qed.

Lemma c76_names :
  (forall a b, show_channel a = show_channel b -> a = b) /\ (forall a b, show_matrix a = show_matrix b -> a = b) /\
  (forall a b, show_primaries a = show_primaries b -> a = b) /\ (forall a b, show_xfer a = show_xfer b -> a = b) /\
  (forall a b, show_chroma_location a = show_chroma_location b -> a = b) /\ (forall a b, show_model a = show_model b -> a = b) /\
  (forall a b, show_frame_type a = show_frame_type b -> a = b).
Proof.
  repeat (apply conj; [first [intros [] [] H; first [reflexivity|discriminate H]|idtac]|]); [|intros [] [] H; first [reflexivity|discriminate H]].
  intros [[|[[]| |]|]| | |] [[|[[]| |]|]| | |] H; first [reflexivity|discriminate H].
Qed.
