(** C118: copying with more or fewer buffers than planes. *)
From Coq Require Import List Arith NArith Bool.
From Verif Require Import Base PixelModel FrameModel FormatModel DataSpec MissingProofs.
Import ListNotations.
Local Open Scope N_scope.

(** C118: if the sources, the strides or the components of the format end before the planes
    of the frame do, copying into it panics. *)
Theorem C118_too_few_sources : forall v B ps p ps2 t cs rest srcs srcs2 sls sls2,
  fo_comps (vi_format v) = map Some cs ++ rest -> rooms (vi_width v) (vi_height v) cs (map pl_buf ps) (map pl_linesize ps) ->
  rooms (vi_width v) (vi_height v) cs srcs sls ->
  srcs2 = [] \/ sls2 = [] \/ rest = [] \/ (exists r, rest = None :: r) ->
  copy_from_slice (mk_frame (Video v) (mk_fb B (ps ++ p :: ps2)) t) (srcs ++ srcs2) (sls ++ sls2) = Panic.
Proof. exact missing_in. Qed.
Print Assumptions C118_too_few_sources.

(** C118: further sources are ignored. *)
Theorem C118_more_sources : forall v B ps t cs rest srcs srcs2 sls sls2,
  fo_comps (vi_format v) = map Some cs ++ rest -> rooms (vi_width v) (vi_height v) cs (map pl_buf ps) (map pl_linesize ps) ->
  rooms (vi_width v) (vi_height v) cs srcs sls ->
  copy_from_slice (mk_frame (Video v) (mk_fb B ps) t) (srcs ++ srcs2) (sls ++ sls2) = copy_from_slice (mk_frame (Video v) (mk_fb B ps) t) srcs sls.
Proof. exact extra_in. Qed.
Print Assumptions C118_more_sources.

(** C118: copying out stops without an error where the first of the destinations, strides,
    planes and components ends, and leaves further destinations alone; a plane and a
    destination for a component that is absent make it panic. *)
Theorem C118_destinations : forall v B ps ps2 t cs rest dsts dsts2 dls dls2,
  fo_comps (vi_format v) = map Some cs ++ rest -> rooms (vi_width v) (vi_height v) cs (map pl_buf ps) (map pl_linesize ps) ->
  rooms (vi_width v) (vi_height v) cs dsts dls ->
  (dsts2 = [] \/ dls2 = [] \/ rest = [] \/ ps2 = [] ->
   exists dsts', copy_frame_to_buffer (mk_frame (Video v) (mk_fb B (ps ++ ps2)) t) (dsts ++ dsts2) (dls ++ dls2) = Ret (dsts' ++ dsts2) /\
     length dsts' = length dsts /\
     forall k c p dst dl, nth_error cs k = Some c -> nth_error ps k = Some p -> nth_error dsts k = Some dst -> nth_error dls k = Some dl ->
       exists dst', nth_error dsts' k = Some dst' /\ component_copied (vi_width v) (vi_height v) c dst dl (pl_buf p) (pl_linesize p) dst') /\
  (dsts2 <> [] -> dls2 <> [] -> ps2 <> [] -> (exists r, rest = None :: r) ->
   copy_frame_to_buffer (mk_frame (Video v) (mk_fb B (ps ++ ps2)) t) (dsts ++ dsts2) (dls ++ dls2) = Panic).
Proof. exact missing_out. Qed.
Print Assumptions C118_destinations.

(** C118: copying out a plane the frame does not have panics. *)
Theorem C118_no_such_plane : forall f k dst dl, (length (fb_planes (fr_buf f)) <= k)%nat -> copy_plane_to_buffer f k dst dl = Panic.
Proof. exact no_plane. Qed.
Print Assumptions C118_no_such_plane.

(** C118: only video frames can be copied. *)
Theorem C118_audio_copies : forall a b t k dst dl dsts dls,
  copy_plane_to_buffer (mk_frame (Audio a) b t) k dst dl = Panic /\
  copy_frame_to_buffer (mk_frame (Audio a) b t) dsts dls = Panic /\
  copy_from_slice (mk_frame (Audio a) b t) dsts dls = Panic.
Proof. exact audio_copies. Qed.
Print Assumptions C118_audio_copies.

Example C118_plane_example :
  exists f, new_default_frame (Video (mk_video 2 2 false FrameI fmt_YUV420 24)) None = Ret f /\
    copy_plane_to_buffer f 0 [9; 9; 9; 9] 2 = Ret [0; 0; 0; 0] /\ copy_plane_to_buffer f 3 [9; 9; 9; 9] 2 = Panic.
Proof. eexists. split; [vm_compute; reflexivity|]. split; vm_compute; reflexivity. Qed.

Example C118_example :
  exists f, new_default_frame (Video (mk_video 2 2 false FrameI fmt_YUV420 24)) None = Ret f /\
    copy_from_slice f [[1; 2; 3; 4]; [5]] [2; 1] = Panic /\
    copy_frame_to_buffer f [[9; 9; 9; 9]; [9]] [2; 1] = Ret [[0; 0; 0; 0]; [0]] /\
    copy_frame_to_buffer f [[9; 9; 9; 9]; [9]; [9]; [7; 7]] [2; 1; 1; 1] = Ret [[0; 0; 0; 0]; [0]; [0]; [7; 7]].
Proof. eexists. split; [vm_compute; reflexivity|]. split; [vm_compute; reflexivity|]. split; vm_compute; reflexivity. Qed.
