(** C52-C56, C61, C70, C71, C77: stream information and frames. *)
From Coq Require Import List Arith NArith ZArith Bool Lia.
From Coq Require Import ZifyBool ZifyNat ZifyN.
From Verif Require Import Base AudioModel PixelModel FrameModel FormatModel DataSpec DataProofs FrameProofs FrameProofs2 FrameMain.
Import ListNotations.
Local Open Scope N_scope.

(** C52: the planes of a default video frame; the allocation is used up. *)
Theorem C52_video_planes : forall v t f, new_default_frame (Video v) t = Ret f ->
  fr_kind f = Video v /\ fr_t f = match t with Some t => t | None => default_time end /\
  Forall2 (zero_plane (vi_width v) (vi_height v)) (present (fo_comps (vi_format v))) (fb_planes (fr_buf f)) /\
  fb_buf (fr_buf f) = [].
Proof. exact c52_video_planes. Qed.
Print Assumptions C52_video_planes.

(** It is created when the size is at most what the machine allows, ... *)
Theorem C52_video_created : forall v t n, video_size v ALIGNMENT = Ret n -> n < 2 ^ 63 -> exists f, new_default_frame (Video v) t = Ret f.
Proof. exact c52_video_created. Qed.
Print Assumptions C52_video_created.

(** ... in particular for every picture up to 2^24 x 2^24 and every format with sane
    components. *)
Theorem C52_usual_sizes : forall v t, vi_width v <= 2 ^ 24 -> vi_height v <= 2 ^ 24 -> length (fo_comps (vi_format v)) = 5%nat ->
  Forall sane_component (present (fo_comps (vi_format v))) -> exists f, new_default_frame (Video v) t = Ret f.
Proof. exact c52_usual_sizes. Qed.
Print Assumptions C52_usual_sizes.

Example C52_example :
  let v := mk_video 42 5 false FrameI fmt_YUV420 24 in
  video_new 42 5 false FrameI fmt_YUV420 = Ret v /\
  new_default_frame (Video v) None =
    Ret (mk_frame (Video v) (mk_fb [] [mk_plane (repeat 0 320) 64; mk_plane (repeat 0 96) 32; mk_plane (repeat 0 96) 32]) default_time).
Proof. split; vm_compute; reflexivity. Qed.

(** C53: the planes of a default audio frame. *)
Theorem C53_audio_planes : forall v t f, new_default_frame (Audio v) t = Ret f ->
  exists s need, bytes_needed (ai_format v) (ai_samples v) need /\ least_multiple 32 need s /\
    fr_kind f = Audio v /\ fb_buf (fr_buf f) = [] /\
    fb_planes (fr_buf f) =
      (if so_planar (ai_format v) then repeat (mk_plane (repeat 0 (N.to_nat s)) s) (length (ai_map v))
       else [mk_plane (repeat 0 (N.to_nat (s * N.of_nat (length (ai_map v))))) (s * N.of_nat (length (ai_map v)))]).
Proof. exact c53_audio_planes. Qed.
Print Assumptions C53_audio_planes.

(** It is created unless the size is too large for the machine. *)
Theorem C53_audio_created : forall v t need s, so_bits (ai_format v) < 256 -> bytes_needed (ai_format v) (ai_samples v) need ->
  ai_samples v * so_bits (ai_format v) + 7 < W64 -> least_multiple 32 need s -> s * N.of_nat (length (ai_map v)) < 2 ^ 63 -> need + 32 < W64 ->
  exists f, new_default_frame (Audio v) t = Ret f.
Proof. exact c53_audio_created. Qed.
Print Assumptions C53_audio_created.

Example C53_example :
  let v := mk_audio 10 48000 [ChL; ChR] (soniton_new 16 false false true false true) None in
  let w := mk_audio 10 48000 [ChL; ChR] fmt_S16 None in
  new_default_frame (Audio v) None = Ret (mk_frame (Audio v) (mk_fb [] (repeat (mk_plane (repeat 0 32) 32) 2)) default_time) /\
  new_default_frame (Audio w) None = Ret (mk_frame (Audio w) (mk_fb [] [mk_plane (repeat 0 64) 64]) default_time).
Proof. split; vm_compute; reflexivity. Qed.

(** C54: an 8-bit picture copied into a default frame and out again. *)
Theorem C54_round_trip : forall v t f cs n srcs sls dsts dls,
  new_default_frame (Video v) t = Ret f -> fo_comps (vi_format v) = map Some cs ++ repeat None n ->
  0 < vi_width v -> Forall (fun c => depth c = 8) cs ->
  rooms (vi_width v) (vi_height v) cs srcs sls -> rooms (vi_width v) (vi_height v) cs dsts dls ->
  exists f' dsts', copy_from_slice f srcs sls = Ret f' /\ fr_kind f' = Video v /\ fr_t f' = fr_t f /\
    copy_frame_to_buffer f' dsts dls = Ret dsts' /\ length dsts' = length dsts /\
    forall k c src sl dst dl, nth_error cs k = Some c -> nth_error srcs k = Some src -> nth_error sls k = Some sl ->
      nth_error dsts k = Some dst -> nth_error dls k = Some dl ->
      exists dst', nth_error dsts' k = Some dst' /\ component_copied (vi_width v) (vi_height v) c dst dl src sl dst'.
Proof. exact c54_round_trip. Qed.
Print Assumptions C54_round_trip.

Example C54_example :
  exists f f', new_default_frame (Video demo_video) None = Ret f /\
    rooms 3 3 (present (fo_comps fmt_YUV420)) demo_srcs [4; 2; 3] /\
    copy_from_slice f demo_srcs [4; 2; 3] = Ret f' /\
    copy_frame_to_buffer f' [repeat 99 11; repeat 99 5; repeat 99 4] [3; 3; 2] =
      Ret [[1; 2; 3; 4; 5; 6; 7; 8; 9; 99; 99]; [10; 11; 99; 12; 13]; [20; 21; 22; 23]].
Proof.
  do 2 eexists. split; [vm_compute; reflexivity|]. split; [|split; [vm_compute; reflexivity|vm_compute; reflexivity]].
  let l := eval vm_compute in (present (fo_comps fmt_YUV420)) in replace (present (fo_comps fmt_YUV420)) with l by (vm_compute; reflexivity).
  split; [vm_compute; reflexivity|]. split; [vm_compute; reflexivity|]. unfold demo_srcs.
  intros k c b l Hc Hb Hl. destruct k as [|[|[|k]]]; cbn [nth_error] in Hc, Hb, Hl; try (destruct k; discriminate Hc);
    injection Hc as <-; injection Hb as <-; injection Hl as <-; unfold room; do 2 eexists;
    (split; [vm_compute; reflexivity|]); (split; [vm_compute; reflexivity|]); vm_compute;
    (split; [lia|]); right; (split; lia).
Qed.

(** C55: [copy_plane] on any arguments.  It copies the rectangle and changes nothing
    else, unless a row that it uses is shorter than the width, or a stride is zero. *)
Theorem C55_copy_plane : forall dst dl src sl w h, (0 < dl)%nat -> (0 < sl)%nat ->
  (forall y, (y < h)%nat -> (y * dl < length dst)%nat -> (y * sl < length src)%nat -> row_complete (length dst) dl w y /\ row_complete (length src) sl w y) ->
  exists dst', copy_plane dst (N.of_nat dl) src (N.of_nat sl) (N.of_nat w) (N.of_nat h) = Ret dst' /\ length dst' = length dst /\
    forall i, (i < length dst)%nat -> nth_error dst' i =
      (if (i mod dl <? w)%nat && (i / dl <? h)%nat && (i / dl * sl <? length src)%nat then nth_error src (i / dl * sl + i mod dl) else nth_error dst i).
Proof. exact c55_copy_plane. Qed.
Print Assumptions C55_copy_plane.

(** Outside these conditions it is undefined behaviour or a panic. *)
Theorem C55_copy_plane_unsafe : forall dst dl src sl w h,
  (copy_plane dst (N.of_nat dl) src (N.of_nat sl) (N.of_nat w) (N.of_nat h) = UB <-> (0 < dl)%nat /\ (0 < sl)%nat /\
     exists y, (y < h)%nat /\ (y * dl < length dst)%nat /\ (y * sl < length src)%nat /\ ~ (row_complete (length dst) dl w y /\ row_complete (length src) sl w y)) /\
  (copy_plane dst (N.of_nat dl) src (N.of_nat sl) (N.of_nat w) (N.of_nat h) = Panic <-> dl = 0%nat \/ sl = 0%nat).
Proof. exact c55_copy_plane_unsafe. Qed.
Print Assumptions C55_copy_plane_unsafe.

Example C55_example :
  copy_plane [1; 2; 3; 4; 5; 6; 7; 8] 3 [11; 12; 13; 14; 15; 16] 2 2 9 = Ret [11; 12; 3; 13; 14; 6; 15; 16] /\
  copy_plane [1; 2; 3; 4; 5; 6; 7] 3 [11; 12; 13; 14; 15; 16] 2 2 9 = UB /\
  copy_plane [1; 2; 3; 4; 5; 6; 7] 3 [11; 12; 13; 14; 15; 16] 2 2 2 = Ret [11; 12; 3; 13; 14; 6; 7] /\
  copy_plane [1; 2] 0 [11; 12] 2 2 2 = Panic.
Proof. repeat apply conj; vm_compute; reflexivity. Qed.

(** C56 is false: the last plane of a 100 x 2 4:2:0 picture has 64 bytes, and 100 are
    read from it. *)
Theorem C56_plane_to_buffer_refuted :
  exists v f p, new_default_frame (Video v) None = Ret f /\ nth_error (fb_planes (fr_buf f)) 2 = Some p /\
    length (pl_buf p) = 64%nat /\ vi_format v = fmt_YUV420 /\ vi_width v = 100 /\
    copy_plane_to_buffer f 2 (repeat 0 400) 200 = UB.
Proof. exact c56_plane_to_buffer_refuted. Qed.
Print Assumptions C56_plane_to_buffer_refuted.

(** It is safe, and copies all rows of the plane, when the plane is as wide as the
    picture. *)
Theorem C56_plane_to_buffer_partial : forall v t f k c dst dl s rows,
  new_default_frame (Video v) t = Ret f -> nth_error (present (fo_comps (vi_format v))) k = Some c ->
  get_linesize c (vi_width v) ALIGNMENT = Ret s -> get_height c (vi_height v) = Ret rows ->
  0 < s -> vi_width v <= s \/ rows = 0 -> holds dst (N.to_nat dl) (N.to_nat (vi_width v)) (N.to_nat rows) ->
  exists p dst', nth_error (fb_planes (fr_buf f)) k = Some p /\ copy_plane_to_buffer f k dst dl = Ret dst' /\
    picture_copied dst (N.to_nat dl) (pl_buf p) (N.to_nat s) (N.to_nat (vi_width v)) (N.to_nat rows) dst'.
Proof. exact plane_to_buffer. Qed.
Print Assumptions C56_plane_to_buffer_partial.

Example C56_example :
  exists f, new_default_frame (Video demo_video) None = Ret f /\ copy_plane_to_buffer f 0 (repeat 9 12) 4 = Ret [0; 0; 0; 9; 0; 0; 0; 9; 0; 0; 0; 9].
Proof. eexists. split; [vm_compute; reflexivity|vm_compute; reflexivity]. Qed.

(** C61 *)
Theorem C61_info_equality :
  (forall a b, video_eqb a b = true <-> vi_width a = vi_width b /\ vi_height a = vi_height b /\ vi_format a = vi_format b) /\
  (forall a b, audio_eqb a b = true <-> ai_rate a = ai_rate b /\ ai_map a = ai_map b /\ ai_format a = ai_format b) /\
  (forall a b, media_eqb (Video a) (Audio b) = false /\ media_eqb (Audio b) (Video a) = false) /\
  (forall a b, media_eqb (Video a) (Video b) = video_eqb a b) /\ (forall a b, media_eqb (Audio a) (Audio b) = audio_eqb a b).
Proof. exact c61_info_equality. Qed.
Print Assumptions C61_info_equality.

Theorem C61_equivalence :
  (forall a, media_eqb a a = true) /\ (forall a b, media_eqb a b = media_eqb b a) /\
  (forall a b c, media_eqb a b = true -> media_eqb b c = true -> media_eqb a c = true).
Proof. exact media_equivalence. Qed.
Print Assumptions C61_equivalence.

Example C61_example :
  media_eqb (Video (mk_video 4 4 false FrameI fmt_YUV420 24)) (Video (mk_video 4 4 true FrameP fmt_YUV420 1)) = true /\
  media_eqb (Video (mk_video 4 4 false FrameI fmt_YUV420 24)) (Video (mk_video 4 4 false FrameI fmt_YUV422 24)) = false /\
  media_eqb (Audio (mk_audio 1 8000 [ChC] fmt_S16 None)) (Audio (mk_audio 2 8000 [ChC] fmt_S16 (Some 3))) = true.
Proof. repeat apply conj; vm_compute; reflexivity. Qed.

(** C70 is false: copying a picture into or out of a default frame in a predefined 10-bit
    format, or in RGB565, leaves the planes. Here every plane but the first has a single
    row of 32 bytes and 80 are copied. *)
Theorem C70_copy_safe_refuted :
  (exists v f p, vi_format v = fmt_YUV420_10 /\ new_default_frame (Video v) None = Ret f /\
    nth_error (fb_planes (fr_buf f)) 1 = Some p /\ length (pl_buf p) = 32%nat /\
    copy_from_slice f (repeat (repeat 1 640) 3) [320; 320; 320] = UB /\
    copy_frame_to_buffer f (repeat (repeat 1 640) 3) [320; 320; 320] = UB) /\
  (exists v f p, vi_format v = fmt_RGB565 /\ new_default_frame (Video v) None = Ret f /\
    nth_error (fb_planes (fr_buf f)) 0 = Some p /\ length (pl_buf p) = 64%nat /\
    copy_from_slice f (repeat (repeat 1 640) 3) [320; 320; 320] = UB).
Proof. exact c70_copy_safe_refuted. Qed.
Print Assumptions C70_copy_safe_refuted.

(** It is safe when every component fits its plane; the first [width] bytes of every row
    are copied.  [FrameCopyProps] has what happens otherwise. *)
Theorem C70_copy_safe_partial : forall v t f cs n srcs sls dsts dls,
  new_default_frame (Video v) t = Ret f -> fo_comps (vi_format v) = map Some cs ++ repeat None n ->
  Forall (fits (vi_width v) (vi_height v)) cs ->
  rooms (vi_width v) (vi_height v) cs srcs sls -> rooms (vi_width v) (vi_height v) cs dsts dls ->
  exists f' dsts', copy_from_slice f srcs sls = Ret f' /\ fr_kind f' = Video v /\ fr_t f' = fr_t f /\
    copy_frame_to_buffer f' dsts dls = Ret dsts' /\ length dsts' = length dsts /\
    forall k c src sl dst dl, nth_error cs k = Some c -> nth_error srcs k = Some src -> nth_error sls k = Some sl ->
      nth_error dsts k = Some dst -> nth_error dls k = Some dl ->
      exists dst', nth_error dsts' k = Some dst' /\ component_copied (vi_width v) (vi_height v) c dst dl src sl dst'.
Proof. exact frame_round_trip. Qed.
Print Assumptions C70_copy_safe_partial.

(** C71 is false: of the samples with more than 8 bits only the first half of every row
    is copied. *)
Theorem C71_deep_samples_refuted :
  exists v f f', vi_format v = fmt_RGB48 /\ vi_width v = 2 /\ vi_height v = 1 /\ new_default_frame (Video v) None = Ret f /\
    copy_from_slice f (repeat [1; 2; 3; 4] 3) [4; 4; 4] = Ret f' /\
    copy_frame_to_buffer f' (repeat [0; 0; 0; 0] 3) [4; 4; 4] = Ret (repeat [1; 2; 0; 0] 3).
Proof. exact c71_deep_samples_refuted. Qed.
Print Assumptions C71_deep_samples_refuted.

(** C77: typed views.  Every plane of a default frame can be viewed as elements of 1, 2 or
    4 bytes, if the allocation starts at a multiple of that; plane [k] starts where the
    planes before it end. *)
Theorem C77_typed_views : forall kind t f base size k p, new_default_frame kind t = Ret f ->
  In size [1; 2; 4] -> base mod size = 0 -> nth_error (fb_planes (fr_buf f)) k = Some p ->
  let addr := base + fold_right (fun q n => N.of_nat (length (pl_buf q)) + n) 0 (firstn k (fb_planes (fr_buf f))) in
  exists l, as_slice (fr_buf f) k addr size = Okay l /\ concat l = pl_buf p /\ forall e, In e l -> N.of_nat (length e) = size.
Proof. exact typed_views. Qed.
Print Assumptions C77_typed_views.

(** In any default frame buffer, whatever has been done to it: a plane that is not there is an invalid
    index, one that is there is cut into elements if its address and length are multiples of their size,
    and cannot be converted otherwise. *)
Theorem C77_view_exact : forall b k addr size, In size [1; 2; 4] ->
  (nth_error (fb_planes b) k = None -> as_slice b k addr size = Error InvalidIndex) /\
  forall p, nth_error (fb_planes b) k = Some p ->
    (addr mod size = 0 -> N.of_nat (length (pl_buf p)) mod size = 0 ->
      exists l, as_slice b k addr size = Okay l /\ concat l = pl_buf p /\ forall e, In e l -> N.of_nat (length e) = size) /\
    (addr mod size <> 0 \/ N.of_nat (length (pl_buf p)) mod size <> 0 -> as_slice b k addr size = Error InvalidConversion).
Proof. exact view_exact. Qed.
Print Assumptions C77_view_exact.

Example C77_example :
  exists f, new_default_frame (Audio (mk_audio 3 8000 [ChC; ChL] (soniton_new 16 false false true false true) None)) None = Ret f /\
    as_slice (fr_buf f) 1 (4096 + 32) 2 = Okay (repeat [0; 0] 16) /\ as_slice (fr_buf f) 1 (4097 + 32) 2 = Error InvalidConversion /\
    as_slice (fr_buf f) 2 4096 2 = Error InvalidIndex.
Proof. eexists. split; [vm_compute; reflexivity|]. repeat apply conj; vm_compute; reflexivity. Qed.
