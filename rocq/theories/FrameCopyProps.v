(** When copying into and out of default frames is defined. *)
From Coq Require Import List Arith NArith Bool.
From Verif Require Import Base PixelModel FrameModel FormatModel DataSpec FrameProofs2 FrameCopyProofs FrameCopyMain.
Import ListNotations.
Local Open Scope N_scope.

(** C54 for any frame, however its planes are laid out: if they have room for the picture,
    what is copied in comes out again. *)
Theorem C54_any_planes : forall v B ps t cs tail srcs sls dsts dls,
  fo_comps (vi_format v) = map Some cs ++ tail -> rooms (vi_width v) (vi_height v) cs (map pl_buf ps) (map pl_linesize ps) ->
  rooms (vi_width v) (vi_height v) cs srcs sls -> rooms (vi_width v) (vi_height v) cs dsts dls ->
  let f := mk_frame (Video v) (mk_fb B ps) t in
  exists f' dsts', copy_from_slice f srcs sls = Ret f' /\ fr_kind f' = Video v /\ fr_t f' = fr_t f /\
    copy_frame_to_buffer f' dsts dls = Ret dsts' /\ length dsts' = length dsts /\
    forall k c src sl dst dl, nth_error cs k = Some c -> nth_error srcs k = Some src -> nth_error sls k = Some sl ->
      nth_error dsts k = Some dst -> nth_error dls k = Some dl ->
      exists dst', nth_error dsts' k = Some dst' /\ component_copied (vi_width v) (vi_height v) c dst dl src sl dst'.
Proof. exact planes_round_trip. Qed.
Print Assumptions C54_any_planes.

Example C54_any_planes_example :
  let f := mk_frame (Video (mk_video 2 2 false FrameI (plain_format RGB 1 [Some (pal8 0)] 1 false true) 8)) (mk_fb [] [mk_plane [1; 2; 3; 4; 5] 3]) default_time in
  exists f', copy_from_slice f [[11; 12; 13; 14]] [2] = Ret f' /\ fb_planes (fr_buf f') = [mk_plane [11; 12; 3; 13; 14] 3] /\
    copy_frame_to_buffer f' [[0; 0; 0; 0; 0; 0]] [4] = Ret [[11; 12; 0; 0; 13; 14]].
Proof. eexists. split; [vm_compute; reflexivity|]. split; [vm_compute; reflexivity|]. vm_compute; reflexivity. Qed.

(** C56, the exact outcome for a destination with room for the plane: [copy_plane_to_buffer]
    panics when the stride of the plane is zero, and reads beyond the plane when the stride is
    smaller than the width of the picture. *)
Theorem C56_plane_to_buffer_exact : forall v t f k c dst dl s rows,
  new_default_frame (Video v) t = Ret f -> nth_error (present (fo_comps (vi_format v))) k = Some c ->
  get_linesize c (vi_width v) ALIGNMENT = Ret s -> get_height c (vi_height v) = Ret rows ->
  holds dst (N.to_nat dl) (N.to_nat (vi_width v)) (N.to_nat rows) ->
  (s = 0 -> copy_plane_to_buffer f k dst dl = Panic) /\
  (0 < s -> s < vi_width v -> 0 < rows -> copy_plane_to_buffer f k dst dl = UB) /\
  (0 < s -> vi_width v <= s \/ rows = 0 -> exists p dst', nth_error (fb_planes (fr_buf f)) k = Some p /\ copy_plane_to_buffer f k dst dl = Ret dst' /\
    picture_copied dst (N.to_nat dl) (pl_buf p) (N.to_nat s) (N.to_nat (vi_width v)) (N.to_nat rows) dst').
Proof. exact c56_exact. Qed.
Print Assumptions C56_plane_to_buffer_exact.

Example C56_exact_example :
  exists f, new_default_frame (Video (mk_video 33 2 false FrameI fmt_YUV420 24)) None = Ret f /\
    copy_plane_to_buffer f 0 (repeat 9 66) 33 = Ret (repeat 0 66) /\ copy_plane_to_buffer f 1 (repeat 9 66) 33 = UB.
Proof. eexists. split; [vm_compute; reflexivity|]. split; [vm_compute; reflexivity|]. vm_compute; reflexivity. Qed.

(** C70, the exact outcome: either all components fit their planes, and
    [C70_copy_safe_partial] applies, or the first one that does not fit decides; with sources
    (destinations) that have room for the picture, copying panics if the stride of its plane
    is zero, and is undefined behaviour otherwise. *)
Theorem C70_copy_exact : forall v t f cs n,
  new_default_frame (Video v) t = Ret f -> fo_comps (vi_format v) = map Some cs ++ repeat None n ->
  (Forall (fits (vi_width v) (vi_height v)) cs \/ exists o, first_misfit (vi_width v) (vi_height v) cs unit o) /\
  (forall srcs sls o, rooms (vi_width v) (vi_height v) cs srcs sls -> first_misfit (vi_width v) (vi_height v) cs frame o ->
     copy_from_slice f srcs sls = o) /\
  (forall dsts dls o, rooms (vi_width v) (vi_height v) cs dsts dls -> first_misfit (vi_width v) (vi_height v) cs (list (list N)) o ->
     copy_frame_to_buffer f dsts dls = o).
Proof. exact copy_verdict. Qed.
Print Assumptions C70_copy_exact.

(** The predefined formats: a picture with at least one row can be copied exactly if its
    width is one of those listed with the format. *)
Theorem C70_predefined_exact : forall fm ok v t f srcs sls dsts dls,
  In (fm, ok) copyable -> vi_format v = fm -> 0 < vi_height v -> new_default_frame (Video v) t = Ret f ->
  rooms (vi_width v) (vi_height v) (present (fo_comps fm)) srcs sls -> rooms (vi_width v) (vi_height v) (present (fo_comps fm)) dsts dls ->
  ((exists f', copy_from_slice f srcs sls = Ret f') <-> ok (vi_width v)) /\
  ((exists dsts', copy_frame_to_buffer f dsts dls = Ret dsts') <-> ok (vi_width v)).
Proof. exact c70_predefined. Qed.
Print Assumptions C70_predefined_exact.

Example C70_predefined_example :
  let run w fm := let! f := new_default_frame (Video (mk_video w 1 false FrameI fm 16)) None in
                  let! _ := copy_from_slice f (repeat (repeat 1 100) 3) [100; 100; 100] in Ret tt in
  map (fun w => run w fmt_YUV420_10) [14; 15; 64; 65] = [Panic; Ret tt; Ret tt; UB] /\
  map (fun w => run w fmt_RGB565) [0; 1; 32; 33; 51; 52; 64; 65] = [Panic; Ret tt; Ret tt; UB; UB; Ret tt; Ret tt; UB].
Proof. split; vm_compute; reflexivity. Qed.

(** The test [test_frame_copy_from_slice], frame.rs:638-651, expects the panic for the missing
    third plane; the copy of the first plane before it is already undefined behaviour. *)
Example C70_repository_test :
  exists f, new_default_frame (Video (mk_video 42 42 false FrameI fmt_YUV420 24)) None = Ret f /\
    copy_from_slice f (repeat [0] 2) [40; 40] = UB.
Proof. eexists. split; [vm_compute; reflexivity|]. vm_compute; reflexivity. Qed.

(** C90 is false: a picture without columns has planes of stride zero, and copying it
    panics. *)
Theorem C90_empty_picture_refuted :
  exists v f, vi_width v = 0 /\ vi_height v = 1 /\ vi_format v = fmt_YUV420 /\ new_default_frame (Video v) None = Ret f /\
    copy_from_slice f [[1]; [1]; [1]] [1; 1; 1] = Panic /\ copy_frame_to_buffer f [[1]; [1]; [1]] [1; 1; 1] = Panic.
Proof. exact c90_empty_refuted. Qed.
Print Assumptions C90_empty_picture_refuted.

(** Otherwise copying an empty picture does nothing. *)
Theorem C90_empty_picture_partial : forall v t f cs n srcs sls dsts dls,
  new_default_frame (Video v) t = Ret f -> fo_comps (vi_format v) = map Some cs ++ repeat None n ->
  vi_width v = 0 \/ vi_height v = 0 -> Forall (fits (vi_width v) (vi_height v)) cs ->
  rooms (vi_width v) (vi_height v) cs srcs sls -> rooms (vi_width v) (vi_height v) cs dsts dls ->
  copy_from_slice f srcs sls = Ret f /\ copy_frame_to_buffer f dsts dls = Ret dsts.
Proof. exact c90_empty. Qed.
Print Assumptions C90_empty_picture_partial.

Example C90_example :
  exists f, new_default_frame (Video (mk_video 3 0 false FrameI fmt_YUV420 24)) None = Ret f /\
    copy_from_slice f [[1]; []; [2]] [3; 2; 1] = Ret f /\ copy_frame_to_buffer f [[1]; []; [2]] [3; 2; 1] = Ret [[1]; []; [2]].
Proof. eexists. split; [vm_compute; reflexivity|]. split; [vm_compute; reflexivity|]. vm_compute; reflexivity. Qed.

(** C71, exactly: a component of [b] bytes per sample that is copied in and out is returned
    whole if and only if the bytes from [cw] on of every row were in the destination
    before.  For [b = 1] there are none. *)
Theorem C71_round_trip_exact : forall v t f cs n srcs sls dsts dls f' dsts' k c src sl dst dl dst' cw ch b,
  new_default_frame (Video v) t = Ret f -> fo_comps (vi_format v) = map Some cs ++ repeat None n ->
  Forall (fits (vi_width v) (vi_height v)) cs ->
  rooms (vi_width v) (vi_height v) cs srcs sls -> rooms (vi_width v) (vi_height v) cs dsts dls ->
  copy_from_slice f srcs sls = Ret f' -> copy_frame_to_buffer f' dsts dls = Ret dsts' ->
  nth_error cs k = Some c -> nth_error srcs k = Some src -> nth_error sls k = Some sl ->
  nth_error dsts k = Some dst -> nth_error dls k = Some dl -> nth_error dsts' k = Some dst' ->
  get_width c (vi_width v) = Ret cw -> get_height c (vi_height v) = Ret ch -> ceil_div (depth c) 8 b -> 0 < depth c ->
  holds dst (N.to_nat dl) (N.to_nat (cw * b)) (N.to_nat ch) ->
  (same_columns dst' (N.to_nat dl) src (N.to_nat sl) 0 (N.to_nat (cw * b)) (N.to_nat ch) <->
   same_columns dst (N.to_nat dl) src (N.to_nat sl) (N.to_nat cw) (N.to_nat (cw * b)) (N.to_nat ch)).
Proof. exact c71_exact. Qed.
Print Assumptions C71_round_trip_exact.

Example C71_exact_example :
  exists f f', new_default_frame (Video (mk_video 2 1 false FrameI fmt_RGB48 48)) None = Ret f /\
    copy_from_slice f (repeat [1; 2; 3; 4] 3) [4; 4; 4] = Ret f' /\
    copy_frame_to_buffer f' [[0; 0; 3; 4]; [0; 0; 0; 4]; [1; 2; 0; 0]] [4; 4; 4] = Ret [[1; 2; 3; 4]; [1; 2; 0; 4]; [1; 2; 0; 0]].
Proof. eexists _, _. split; [vm_compute; reflexivity|]. split; [vm_compute; reflexivity|]. vm_compute; reflexivity. Qed.
