(** The proofs of the theorems of [FrameCopyProps]. *)
From Coq Require Import List Arith NArith ZArith Bool Lia.
From Coq Require Import ZifyBool ZifyNat ZifyN.
From Verif Require Import Base AudioModel PixelModel FrameModel FormatModel DataSpec DataProofs FrameProofs FrameProofs2 FrameMain FrameCopyProofs.
Import ListNotations.
Local Open Scope N_scope.

Lemma c70_predefined : forall fm ok v t f srcs sls dsts dls, In (fm, ok) copyable -> vi_format v = fm -> 0 < vi_height v ->
  new_default_frame (Video v) t = Ret f ->
  rooms (vi_width v) (vi_height v) (present (fo_comps fm)) srcs sls -> rooms (vi_width v) (vi_height v) (present (fo_comps fm)) dsts dls ->
  ((exists f', copy_from_slice f srcs sls = Ret f') <-> ok (vi_width v)) /\
  ((exists dsts', copy_frame_to_buffer f dsts dls = Ret dsts') <-> ok (vi_width v)).
Proof.
  intros fm ok v t f srcs sls dsts dls Hin Hv Hh Hf Hs Hd.
  destruct (copyable_sound fm ok Hin) as (cs & n & Hc & Hok). rewrite Hc, present_some in Hs, Hd. rewrite <- Hv in Hc.
  destruct (default_frame_planes v t f cs n Hf Hc) as (B & ps & Ef & Z).
  destruct (copy_verdict v t f cs n Hf Hc) as (_ & V1 & V2).
  rewrite <- (Hok (vi_width v)), <- (fits_components _ _ cs ps Hh Z).
  split; split.
  - intros (f' & E). destruct (fits_or_not _ _ _ _ frame Z) as [F|(o & M)]; [exact F|exfalso].
    rewrite (V1 srcs sls o Hs M) in E. destruct M as (? & ? & ? & _ & _ & ? & ? & ? & _ & _ & _ & [[_ ->]|(_ & _ & _ & ->)]); discriminate E.
  - intros F. destruct (frame_round_trip v t f cs n srcs sls dsts dls Hf Hc F Hs Hd) as (f' & _ & E & _). eauto.
  - intros (f' & E). destruct (fits_or_not _ _ _ _ (list (list N)) Z) as [F|(o & M)]; [exact F|exfalso].
    rewrite (V2 dsts dls o Hd M) in E. destruct M as (? & ? & ? & _ & _ & ? & ? & ? & _ & _ & _ & [[_ ->]|(_ & _ & _ & ->)]); discriminate E.
  - intros F. rewrite Ef. unfold copy_frame_to_buffer. cbn [fr_kind fr_buf]. rewrite Hc.
    destruct (copy_out_spec B _ _ cs ps [] dsts dls (repeat None n) (default_rooms _ _ cs ps F Z) Hd) as (dsts' & O1 & _).
    cbn [app length] in O1. eauto.
Qed.

Lemma c56_exact : forall v t f k c dst dl s rows,
  new_default_frame (Video v) t = Ret f -> nth_error (present (fo_comps (vi_format v))) k = Some c ->
  get_linesize c (vi_width v) ALIGNMENT = Ret s -> get_height c (vi_height v) = Ret rows ->
  holds dst (N.to_nat dl) (N.to_nat (vi_width v)) (N.to_nat rows) ->
  (s = 0 -> copy_plane_to_buffer f k dst dl = Panic) /\
  (0 < s -> s < vi_width v -> 0 < rows -> copy_plane_to_buffer f k dst dl = UB) /\
  (0 < s -> vi_width v <= s \/ rows = 0 -> exists p dst', nth_error (fb_planes (fr_buf f)) k = Some p /\ copy_plane_to_buffer f k dst dl = Ret dst' /\
    picture_copied dst (N.to_nat dl) (pl_buf p) (N.to_nat s) (N.to_nat (vi_width v)) (N.to_nat rows) dst').
Proof.
  intros v t f k c dst dl s rows Hf Hk Hs Hr Hd.
  assert (Q : exists p, fb_slice (fr_buf f) k = Okay (pl_buf p) /\ fb_linesize (fr_buf f) k = Okay s /\ fr_kind f = Video v /\ length (pl_buf p) = N.to_nat (s * rows)).
  { destruct (c52_video_planes v t f Hf) as (K & _ & Z & _). destruct (nth_error (fb_planes (fr_buf f)) k) as [p|] eqn:Kp.
    2: { apply nth_error_None in Kp. pose proof (Forall2_length _ _ _ Z). assert (k < length (present (fo_comps (vi_format v))))%nat by (apply nth_error_Some; congruence). lia. }
    destruct (forall2_nth _ _ _ Z k c p Hk Kp) as (s' & rows' & S1 & S2 & S3 & S4). exists p. unfold fb_slice, fb_linesize. rewrite Kp.
    assert (s' = s) by congruence. assert (rows' = rows) by congruence. split; [reflexivity|]. split; [congruence|]. split; [exact K|].
    rewrite S4, repeat_length. congruence. }
  destruct Q as (p & Q1 & Q2 & Q3 & Q4). split; [|split].
  - intros ->. unfold copy_plane_to_buffer. rewrite Q3, Q1. cbn [unwrap_ok obind]. rewrite Q2. cbn [unwrap_ok obind].
    apply copy_plane_panic. tauto.
  - intros S1 S2 R1. unfold copy_plane_to_buffer. rewrite Q3, Q1. cbn [unwrap_ok obind]. rewrite Q2. cbn [unwrap_ok obind].
    destruct Hd as (D1 & [D2|[D2 D3]]); [lia|].
    assert (H1 : 0 < vi_height v).
    { unfold get_height in Hr. apply sub_size_inv in Hr. destruct Hr as (_ & _ & E). pose proof (ceil_pow_le (vi_height v) (v_ss c)). lia. }
    rewrite <- (N2Nat.id dl), <- (N2Nat.id s), <- (N2Nat.id (vi_width v)), <- (N2Nat.id (vi_height v)).
    apply (proj1 (c55_copy_plane_unsafe _ _ _ _ _ _)). split; [lia|]. split; [lia|]. exists 0%nat. rewrite Q4. unfold row_complete. cbn [Nat.mul].
    split; [lia|]. split; [lia|]. split; [nia|lia].
  - intros S1 S2. exact (plane_to_buffer v t f k c dst dl s rows Hf Hk Hs Hr S1 S2 Hd).
Qed.

Lemma nth_error_same {A} (l m : list A) : length l = length m -> (forall i, (i < length l)%nat -> nth_error l i = nth_error m i) -> l = m.
Proof.
  revert m. induction l as [|a l IH]; intros [|b m] L H; try discriminate L; [reflexivity|].
  f_equal; [specialize (H 0%nat ltac:(cbn; lia)); cbn in H; congruence|]. apply IH; [cbn in L; lia|].
  intros i Hi. exact (H (S i) ltac:(cbn; lia)).
Qed.

Lemma ceil_pow_0 k : ceil_pow 0 k = 0.
Proof. pose proof (ceil_pow_le 0 k). lia. Qed.

Lemma empty_copied w h c dst dl src sl dst' : w = 0 \/ h = 0 -> component_copied w h c dst dl src sl dst' -> dst' = dst.
Proof.
  intros E (cw & ch & H1 & H2 & L & P). apply nth_error_same; [exact L|]. intros i Hi. rewrite (P i ltac:(lia)).
  assert (Z : cw = 0 \/ ch = 0).
  { unfold get_width, get_height in *. apply sub_size_inv in H1. apply sub_size_inv in H2. destruct H1 as (_ & _ & ->). destruct H2 as (_ & _ & ->).
    destruct E as [-> | ->]; rewrite ceil_pow_0; tauto. }
  assert (LT : forall n, (n <? 0)%nat = false) by (intros n; apply Nat.ltb_ge; lia).
  destruct Z as [-> | ->]; change (N.to_nat 0) with 0%nat; rewrite LT, ?Bool.andb_false_r; reflexivity.
Qed.

Lemma c90_empty : forall v t f cs n srcs sls dsts dls, new_default_frame (Video v) t = Ret f -> fo_comps (vi_format v) = map Some cs ++ repeat None n ->
  vi_width v = 0 \/ vi_height v = 0 -> Forall (fits (vi_width v) (vi_height v)) cs ->
  rooms (vi_width v) (vi_height v) cs srcs sls -> rooms (vi_width v) (vi_height v) cs dsts dls ->
  copy_from_slice f srcs sls = Ret f /\ copy_frame_to_buffer f dsts dls = Ret dsts.
Proof.
  intros v t f cs n srcs sls dsts dls Hf Hc He HF Hs Hd. destruct (default_frame_planes v t f cs n Hf Hc) as (B & ps & -> & Z).
  pose proof (default_rooms _ _ cs ps HF Z) as R. assert (LP : length ps = length cs) by (destruct R as [L _]; rewrite map_length in L; exact L).
  split.
  - unfold copy_from_slice. cbn [fr_kind fr_buf fr_t]. unfold fb_count. cbn [fb_planes]. rewrite Hc.
    destruct (copy_in_spec B _ _ cs ps [] srcs sls (repeat None n) R Hs) as (ps' & I1 & I2 & I3). cbn [app length] in I1. rewrite I1. cbn [obind].
    replace ps' with ps; [reflexivity|]. symmetry. apply nth_error_same; [exact I2|]. intros k Hk. destruct Hs as (S1 & S2 & _).
    destruct (nth_error cs k) as [c|] eqn:K1; [|apply nth_error_None in K1; lia].
    destruct (nth_error ps k) as [p|] eqn:K2; [|apply nth_error_None in K2; lia].
    destruct (nth_error srcs k) as [src|] eqn:K3; [|apply nth_error_None in K3; lia].
    destruct (nth_error sls k) as [sl|] eqn:K4; [|apply nth_error_None in K4; lia].
    destruct (I3 k c p src sl K1 K2 K3 K4) as (q & Q1 & Q2 & Q3). rewrite Q1. f_equal. apply empty_copied in Q3; [|exact He].
    destruct q, p; cbn in *; congruence.
  - unfold copy_frame_to_buffer. cbn [fr_kind fr_buf]. rewrite Hc.
    destruct (copy_out_spec B _ _ cs ps [] dsts dls (repeat None n) R Hd) as (dsts' & O1 & O2 & O3). cbn [app length] in O1. rewrite O1. f_equal.
    apply nth_error_same; [exact O2|]. intros k Hk. destruct Hd as (S1 & S2 & _).
    destruct (nth_error cs k) as [c|] eqn:K1; [|apply nth_error_None in K1; lia].
    destruct (nth_error ps k) as [p|] eqn:K2; [|apply nth_error_None in K2; lia].
    destruct (nth_error dsts k) as [src|] eqn:K3; [|apply nth_error_None in K3; lia].
    destruct (nth_error dls k) as [sl|] eqn:K4; [|apply nth_error_None in K4; lia].
    destruct (O3 k c p src sl K1 K2 K3 K4) as (q & Q1 & Q3). rewrite Q1. f_equal. apply empty_copied in Q3; [|exact He]. exact Q3.
Qed.

Lemma c90_empty_refuted :
  exists v f, vi_width v = 0 /\ vi_height v = 1 /\ vi_format v = fmt_YUV420 /\ new_default_frame (Video v) None = Ret f /\
    copy_from_slice f [[1]; [1]; [1]] [1; 1; 1] = Panic /\ copy_frame_to_buffer f [[1]; [1]; [1]] [1; 1; 1] = Panic.
Proof.
  exists (mk_video 0 1 false FrameI fmt_YUV420 24). eexists. split; [reflexivity|]. split; [reflexivity|]. split; [reflexivity|].
  split; [vm_compute; reflexivity|]. split; [vm_compute; reflexivity|]. vm_compute; reflexivity.
Qed.

Lemma copied_columns : forall dst dl src sl w h dst' m, picture_copied dst dl src sl w h dst' -> holds dst dl m h -> (w <= m)%nat ->
  (same_columns dst' dl src sl 0 m h <-> same_columns dst dl src sl w m h).
Proof.
  intros dst dl src sl w h dst' m [Hl H] [Hd Hr] Hw.
  assert (forall y x, (y < h)%nat -> (x < m)%nat -> (y * dl + x < length dst)%nat /\ ((y * dl + x) mod dl = x)%nat /\ ((y * dl + x) / dl = y)%nat) as A.
  { intros y x Hy Hx. destruct Hr as [->|[Hm Hr]]; [lia|]. split; [nia|].
    rewrite Nat.add_comm. split; [rewrite Nat.mod_add, Nat.mod_small by lia; reflexivity|].
    rewrite Nat.div_add, Nat.div_small by lia. reflexivity. }
  split; intros S y x Hy Hx.
  - destruct (A y x Hy) as [A1 [A2 A3]]; [lia|]. rewrite <- (S y x Hy) by lia. rewrite (H _ A1), A2, A3.
    destruct (Nat.ltb_spec x w); [lia|]. reflexivity.
  - destruct (A y x Hy) as [A1 [A2 A3]]; [lia|]. rewrite (H _ A1), A2, A3.
    destruct (Nat.ltb_spec y h); [|lia]. destruct (Nat.ltb_spec x w); cbn [andb]; [reflexivity|]. apply S; lia.
Qed.

Lemma c71_exact : forall v t f cs n srcs sls dsts dls f' dsts' k c src sl dst dl dst' cw ch b,
  new_default_frame (Video v) t = Ret f -> fo_comps (vi_format v) = map Some cs ++ repeat None n ->
  Forall (fits (vi_width v) (vi_height v)) cs ->
  rooms (vi_width v) (vi_height v) cs srcs sls -> rooms (vi_width v) (vi_height v) cs dsts dls ->
  copy_from_slice f srcs sls = Ret f' -> copy_frame_to_buffer f' dsts dls = Ret dsts' ->
  nth_error cs k = Some c -> nth_error srcs k = Some src -> nth_error sls k = Some sl ->
  nth_error dsts k = Some dst -> nth_error dls k = Some dl -> nth_error dsts' k = Some dst' ->
  get_width c (vi_width v) = Ret cw -> get_height c (vi_height v) = Ret ch -> ceil_div (depth c) 8 b -> 0 < depth c ->
  holds dst (N.to_nat dl) (N.to_nat (cw * b)) (N.to_nat ch) ->
  (same_columns dst' (N.to_nat dl) src (N.to_nat sl) 0 (N.to_nat (cw * b)) (N.to_nat ch) <->
   same_columns dst (N.to_nat dl) src (N.to_nat sl) (N.to_nat cw) (N.to_nat (cw * b)) (N.to_nat ch)).
Proof.
  intros v t f cs n srcs sls dsts dls f' dsts' k c src sl dst dl dst' cw ch b Hf Hc F Hs Hd E1 E2 K1 K2 K3 K4 K5 K6 W H B D Hh.
  destruct (frame_round_trip v t f cs n srcs sls dsts dls Hf Hc F Hs Hd) as (f2 & d2 & I1 & _ & _ & I2 & _ & I3).
  assert (f2 = f') as -> by congruence. assert (d2 = dsts') as -> by congruence.
  destruct (I3 k c src sl dst dl K1 K2 K3 K4 K5) as (x & X1 & w2 & h2 & W2 & H2 & P).
  assert (x = dst') as -> by congruence. assert (w2 = cw) as -> by congruence. assert (h2 = ch) as -> by congruence.
  apply copied_columns; [exact P|exact Hh|]. unfold ceil_div in B. assert (1 <= b) by lia. nia.
Qed.
