(** The proofs of the theorems of [FrameProps]. *)
From Coq Require Import List Arith NArith ZArith Bool Lia.
From Coq Require Import ZifyBool ZifyNat ZifyN.
From Verif Require Import Base AudioModel PixelModel FrameModel FormatModel DataSpec DataProofs FrameProofs FrameProofs2.
Import ListNotations.
Local Open Scope N_scope.

Lemma c52_video_planes : forall v t f, new_default_frame (Video v) t = Ret f ->
  fr_kind f = Video v /\ fr_t f = match t with Some t => t | None => default_time end /\
  Forall2 (zero_plane (vi_width v) (vi_height v)) (present (fo_comps (vi_format v))) (fb_planes (fr_buf f)) /\
  fb_buf (fr_buf f) = [].
Proof.
  intros v t f H. unfold new_default_frame in H. step_ret H. injection H as <-. cbn [fr_kind fr_t fr_buf].
  destruct (fb_new_video_inv v a E) as (n & N1 & N2). destruct (fb_new_video v n N1 N2) as (b & B1 & B2 & B3).
  assert (b = a) by congruence. subst b. repeat apply conj; try reflexivity; assumption.
Qed.

Lemma c52_video_created : forall v t n, video_size v ALIGNMENT = Ret n -> n < 2 ^ 63 -> exists f, new_default_frame (Video v) t = Ret f.
Proof.
  intros v t n H L. destruct (fb_new_video v n H L) as (b & B & _). unfold new_default_frame. rewrite B. cbn [obind]. eauto.
Qed.

Lemma c52_usual_sizes : forall v t, vi_width v <= 2 ^ 24 -> vi_height v <= 2 ^ 24 -> length (fo_comps (vi_format v)) = 5%nat ->
  Forall sane_component (present (fo_comps (vi_format v))) -> exists f, new_default_frame (Video v) t = Ret f.
Proof.
  intros v t Hw Hh Hl Hs. destruct (fb_new_video_usual v Hw Hh Hl Hs) as (b & B). unfold new_default_frame. rewrite B. cbn [obind]. eauto.
Qed.

Lemma c53_audio_planes : forall v t f, new_default_frame (Audio v) t = Ret f ->
  exists s need, bytes_needed (ai_format v) (ai_samples v) need /\ least_multiple 32 need s /\
    fr_kind f = Audio v /\ fb_buf (fr_buf f) = [] /\
    fb_planes (fr_buf f) =
      (if so_planar (ai_format v) then repeat (mk_plane (repeat 0 (N.to_nat s)) s) (length (ai_map v))
       else [mk_plane (repeat 0 (N.to_nat (s * N.of_nat (length (ai_map v))))) (s * N.of_nat (length (ai_map v)))]).
Proof.
  intros v t f H. unfold new_default_frame in H. step_ret H. injection H as <-. cbn [fr_kind fr_buf].
  destruct (fb_new_audio_inv v a E) as (s & S1 & S2). rewrite (fb_new_audio v s S1 S2) in E. injection E as <-. cbn [fb_buf fb_planes].
  destruct (audio_size_sound _ _ _ _ power_32 S1) as (need & A & B). exists s, need. repeat (split; [first [assumption|reflexivity]|]). reflexivity.
Qed.

Lemma c53_audio_created : forall v t need s, so_bits (ai_format v) < 256 -> bytes_needed (ai_format v) (ai_samples v) need ->
  ai_samples v * so_bits (ai_format v) + 7 < W64 -> least_multiple 32 need s -> s * N.of_nat (length (ai_map v)) < 2 ^ 63 -> need + 32 < W64 ->
  exists f, new_default_frame (Audio v) t = Ret f.
Proof.
  intros v t need s Hb Hn Hw Hs Ht Hm. destruct (audio_size_total (ai_format v) (ai_samples v) ALIGNMENT need power_32 Hb Hn Hw Hm) as (s' & E).
  destruct (audio_size_sound _ _ _ _ power_32 E) as (need' & A & [K [B C]]).
  assert (need' = need).
  { unfold bytes_needed in A, Hn. destruct (so_packed (ai_format v)).
    - apply (ceil_div_unique (ai_samples v * so_bits (ai_format v)) 8); [reflexivity|exact A|exact Hn].
    - destruct A as (b & A1 & ->). destruct Hn as (b' & A2 & ->). f_equal. apply (ceil_div_unique (so_bits (ai_format v)) 8); [reflexivity|exact A1|exact A2]. }
  subst need'. assert (s' = s).
  { destruct Hs as [[k ->] [Hk1 Hk2]]. destruct K as [k' ->]. apply N.le_antisymm; [apply C; exact Hk1|apply Hk2; exact B]. }
  subst s'. unfold new_default_frame. rewrite (fb_new_audio v s E Ht). cbn [obind]. eauto.
Qed.

Lemma c54_round_trip : forall v t f cs n srcs sls dsts dls,
  new_default_frame (Video v) t = Ret f -> fo_comps (vi_format v) = map Some cs ++ repeat None n ->
  0 < vi_width v -> Forall (fun c => depth c = 8) cs ->
  rooms (vi_width v) (vi_height v) cs srcs sls -> rooms (vi_width v) (vi_height v) cs dsts dls ->
  exists f' dsts', copy_from_slice f srcs sls = Ret f' /\ fr_kind f' = Video v /\ fr_t f' = fr_t f /\
    copy_frame_to_buffer f' dsts dls = Ret dsts' /\ length dsts' = length dsts /\
    forall k c src sl dst dl, nth_error cs k = Some c -> nth_error srcs k = Some src -> nth_error sls k = Some sl ->
      nth_error dsts k = Some dst -> nth_error dls k = Some dl ->
      exists dst', nth_error dsts' k = Some dst' /\ component_copied (vi_width v) (vi_height v) c dst dl src sl dst'.
Proof.
  intros v t f cs n srcs sls dsts dls H1 H2 H3 H4 H5 H6. apply (frame_round_trip v t f cs n); try assumption.
  apply (default_fits v t f cs n); try assumption.
  rewrite Forall_forall in *. intros c Hc. rewrite (H4 c Hc). discriminate.
Qed.

Definition demo_video : video_info := mk_video 3 3 false FrameI fmt_YUV420 24.

Definition demo_srcs : list (list N) := [[1; 2; 3; 0; 4; 5; 6; 0; 7; 8; 9]; [10; 11; 12; 13]; [20; 21; 0; 22; 23; 0]].

Lemma c55_copy_plane : forall dst dl src sl w h, (0 < dl)%nat -> (0 < sl)%nat ->
  (forall y, (y < h)%nat -> (y * dl < length dst)%nat -> (y * sl < length src)%nat -> row_complete (length dst) dl w y /\ row_complete (length src) sl w y) ->
  exists dst', copy_plane dst (N.of_nat dl) src (N.of_nat sl) (N.of_nat w) (N.of_nat h) = Ret dst' /\ length dst' = length dst /\
    forall i, (i < length dst)%nat -> nth_error dst' i =
      (if (i mod dl <? w)%nat && (i / dl <? h)%nat && (i / dl * sl <? length src)%nat then nth_error src (i / dl * sl + i mod dl) else nth_error dst i).
Proof.
  intros dst dl src sl w h Hd Hs Hr. rewrite copy_plane_rec by assumption.
  pose proof (copy_rec_result dl sl w Hd Hs (length dst) dst src h (le_n _)) as R. destruct (copy_rec (length dst) dst dl src sl w h) as [dst'| |].
  - destruct R as (_ & R2 & R3). eauto.
  - destruct R.
  - destruct R as [y (A & B & C & D)]. exfalso. apply D. apply Hr; assumption.
Qed.

Lemma c55_copy_plane_unsafe : forall dst dl src sl w h,
  (copy_plane dst (N.of_nat dl) src (N.of_nat sl) (N.of_nat w) (N.of_nat h) = UB <-> (0 < dl)%nat /\ (0 < sl)%nat /\
     exists y, (y < h)%nat /\ (y * dl < length dst)%nat /\ (y * sl < length src)%nat /\ ~ (row_complete (length dst) dl w y /\ row_complete (length src) sl w y)) /\
  (copy_plane dst (N.of_nat dl) src (N.of_nat sl) (N.of_nat w) (N.of_nat h) = Panic <-> dl = 0%nat \/ sl = 0%nat).
Proof.
  intros dst dl src sl w h. pose proof (copy_plane_panic dst (N.of_nat dl) src (N.of_nat sl) (N.of_nat w) (N.of_nat h)) as P. split.
  - split.
    + intros H. assert (Z : (0 < dl)%nat /\ (0 < sl)%nat).
      { destruct (Nat.eq_dec dl 0) as [E|E]; [assert (X : copy_plane dst (N.of_nat dl) src (N.of_nat sl) (N.of_nat w) (N.of_nat h) = Panic) by (apply P; lia); congruence|].
        destruct (Nat.eq_dec sl 0) as [E'|E']; [assert (X : copy_plane dst (N.of_nat dl) src (N.of_nat sl) (N.of_nat w) (N.of_nat h) = Panic) by (apply P; lia); congruence|]. lia. }
      destruct Z as [Z1 Z2]. split; [exact Z1|]. split; [exact Z2|]. rewrite copy_plane_rec in H by assumption.
      pose proof (copy_rec_result dl sl w Z1 Z2 (length dst) dst src h (le_n _)) as R. rewrite H in R. exact R.
    + intros (Z1 & Z2 & y & R1 & R2 & R3 & R4). rewrite copy_plane_rec by assumption.
      pose proof (copy_rec_result dl sl w Z1 Z2 (length dst) dst src h (le_n _)) as R. destruct (copy_rec (length dst) dst dl src sl w h) as [dst'| |].
      * destruct R as (R & _). exfalso. apply (R y). repeat apply conj; assumption.
      * destruct R.
      * reflexivity.
  - rewrite P. lia.
Qed.

Lemma c56_plane_to_buffer_refuted :
  exists v f p, new_default_frame (Video v) None = Ret f /\ nth_error (fb_planes (fr_buf f)) 2 = Some p /\
    length (pl_buf p) = 64%nat /\ vi_format v = fmt_YUV420 /\ vi_width v = 100 /\
    copy_plane_to_buffer f 2 (repeat 0 400) 200 = UB.
Proof.
  exists (mk_video 100 2 false FrameI fmt_YUV420 24). do 2 eexists. split; [vm_compute; reflexivity|].
  repeat (apply conj; [vm_compute; reflexivity|]). vm_compute; reflexivity.
Qed.

Lemma c61_info_equality :
  (forall a b, video_eqb a b = true <-> vi_width a = vi_width b /\ vi_height a = vi_height b /\ vi_format a = vi_format b) /\
  (forall a b, audio_eqb a b = true <-> ai_rate a = ai_rate b /\ ai_map a = ai_map b /\ ai_format a = ai_format b) /\
  (forall a b, media_eqb (Video a) (Audio b) = false /\ media_eqb (Audio b) (Video a) = false) /\
  (forall a b, media_eqb (Video a) (Video b) = video_eqb a b) /\ (forall a b, media_eqb (Audio a) (Audio b) = audio_eqb a b).
Proof. split; [exact video_eqb_true|]. split; [exact audio_eqb_true|]. split; [intros a b; split; reflexivity|]. split; intros a b; reflexivity. Qed.

Lemma c70_copy_safe_refuted :
  (exists v f p, vi_format v = fmt_YUV420_10 /\ new_default_frame (Video v) None = Ret f /\
    nth_error (fb_planes (fr_buf f)) 1 = Some p /\ length (pl_buf p) = 32%nat /\
    copy_from_slice f (repeat (repeat 1 640) 3) [320; 320; 320] = UB /\
    copy_frame_to_buffer f (repeat (repeat 1 640) 3) [320; 320; 320] = UB) /\
  (exists v f p, vi_format v = fmt_RGB565 /\ new_default_frame (Video v) None = Ret f /\
    nth_error (fb_planes (fr_buf f)) 0 = Some p /\ length (pl_buf p) = 64%nat /\
    copy_from_slice f (repeat (repeat 1 640) 3) [320; 320; 320] = UB).
Proof.
  split.
  - exists (mk_video 160 2 false FrameI fmt_YUV420_10 13). do 2 eexists. split; [reflexivity|]. split; [vm_compute; reflexivity|].
    repeat (apply conj; [vm_compute; reflexivity|]). vm_compute; reflexivity.
  - exists (mk_video 103 1 false FrameI fmt_RGB565 16). do 2 eexists. split; [reflexivity|]. split; [vm_compute; reflexivity|].
    repeat (apply conj; [vm_compute; reflexivity|]). vm_compute; reflexivity.
Qed.

Lemma c71_deep_samples_refuted :
  exists v f f', vi_format v = fmt_RGB48 /\ vi_width v = 2 /\ vi_height v = 1 /\ new_default_frame (Video v) None = Ret f /\
    copy_from_slice f (repeat [1; 2; 3; 4] 3) [4; 4; 4] = Ret f' /\
    copy_frame_to_buffer f' (repeat [0; 0; 0; 0] 3) [4; 4; 4] = Ret (repeat [1; 2; 0; 0] 3).
Proof.
  exists (mk_video 2 1 false FrameI fmt_RGB48 48). do 2 eexists. split; [reflexivity|]. split; [reflexivity|]. split; [reflexivity|].
  split; [vm_compute; reflexivity|]. split; [vm_compute; reflexivity|]. vm_compute; reflexivity.
Qed.
