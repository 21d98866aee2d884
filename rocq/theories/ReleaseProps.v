(** Builds without overflow checks, and exactly when sizes can be computed: C97 to C99. *)
From Coq Require Import List NArith.
From Verif Require Import Base AudioModel PixelModel FormatModel FrameModel DataSpec FrameSizeSpec FrameSizeProofs ReleaseModel ReleaseProofs.
Import ListNotations.
Local Open Scope N_scope.

(** C97: a build without overflow checks creates the same frames and copies the same bytes
    as a build with them wherever the latter does not panic. *)
Theorem C97_release_agrees :
  (forall kind t f, new_default_frame kind t = Ret f -> r_new_default_frame kind t = Ret f) /\
  (forall f dst dls o, copy_frame_to_buffer f dst dls = o -> o <> Panic -> r_copy_frame_to_buffer f dst dls = o) /\
  (forall f src sls o, copy_from_slice f src sls = o -> o <> Panic -> r_copy_from_slice f src sls = o).
Proof. exact release_agrees. Qed.
Print Assumptions C97_release_agrees.

Example C97_example :
  let v := mk_video 5 2 false FrameI fmt_YUV420 24 in
  exists f f', r_new_default_frame (Video v) None = Ret f /\
    r_copy_from_slice f [repeat 1 10; repeat 2 3; repeat 3 3] [5; 3; 3] = Ret f' /\
    r_copy_frame_to_buffer f' [repeat 0 10; repeat 0 3; repeat 0 3] [5; 3; 3] = Ret [repeat 1 10; repeat 2 3; repeat 3 3].
Proof. eexists _, _. split; [vm_compute; reflexivity|]. split; vm_compute; reflexivity. Qed.

(** C98: without overflow checks a frame of a picture whose size does not fit is created all
    the same, with planes shorter than one row, and copying a picture into it writes past
    their end. *)
Theorem C98_release_undersized_refuted : exists v f src,
  new_default_frame (Video v) None = Panic /\ r_new_default_frame (Video v) None = Ret f /\
  Forall (fun p => N.of_nat (length (pl_buf p)) < pl_linesize p) (fb_planes (fr_buf f)) /\
  length src = N.to_nat (vi_width v) /\ r_copy_from_slice f [src; src; src] [vi_width v; vi_width v; vi_width v] = UB.
Proof. exact undersized. Qed.
Print Assumptions C98_release_undersized_refuted.

(** C98: if the sizes fit, the planes have them, with and without overflow checks. *)
Theorem C98_release_sizes_partial : forall v t sizes,
  Forall2 (plane_bytes (vi_width v) (vi_height v)) (present (fo_comps (vi_format v))) sizes -> total sizes < 2 ^ 63 ->
  exists f, r_new_default_frame (Video v) t = Ret f /\ new_default_frame (Video v) t = Ret f /\
    map (fun p => N.of_nat (length (pl_buf p))) (fb_planes (fr_buf f)) = sizes.
Proof. exact release_sizes. Qed.
Print Assumptions C98_release_sizes_partial.

(** Audio frames are concerned too: 2^60 samples in 8 channels fit into no bytes at all. *)
Example C98_audio :
  let v := mk_audio (2 ^ 60) 48000 (repeat ChL 8) fmt_S16 None in
  new_default_frame (Audio v) None = Panic /\
  r_new_default_frame (Audio v) None = Ret (mk_frame (Audio v) (mk_fb [] [mk_plane [] 0]) default_time).
Proof. split; vm_compute; reflexivity. Qed.

(** C99: sizes of components and of runs of samples are computed exactly when every number on
    the way fits; otherwise a build with overflow checks panics. *)
Theorem C99_component_size_exact : forall c x r,
  (get_width c x = Ret r <-> h_ss c < 64 /\ x + 2 ^ h_ss c <= W64 /\ ceil_div x (2 ^ h_ss c) r) /\
  (get_height c x = Ret r <-> v_ss c < 64 /\ x + 2 ^ v_ss c <= W64 /\ ceil_div x (2 ^ v_ss c) r).
Proof. exact component_size_exact. Qed.
Print Assumptions C99_component_size_exact.

Theorem C99_audio_size_exact : forall f len a s, power_of_two a -> so_bits f < 256 ->
  get_audio_size f len a = Ret s <-> samples_bytes f len a s.
Proof. exact audio_size_exact. Qed.
Print Assumptions C99_audio_size_exact.

(** C99: default frames are created exactly when their sizes fit. *)
Theorem C99_video_created_exact : forall v t, (exists f, new_default_frame (Video v) t = Ret f) <->
  exists sizes, Forall2 (plane_bytes (vi_width v) (vi_height v)) (present (fo_comps (vi_format v))) sizes /\ total sizes < 2 ^ 63.
Proof. exact video_created_exact. Qed.
Print Assumptions C99_video_created_exact.

Theorem C99_audio_created_exact : forall v t, so_bits (ai_format v) < 256 ->
  (exists f, new_default_frame (Audio v) t = Ret f) <->
  exists s, samples_bytes (ai_format v) (ai_samples v) 32 s /\ s * N.of_nat (length (ai_map v)) < 2 ^ 63.
Proof. exact audio_created_exact. Qed.
Print Assumptions C99_audio_created_exact.

Example C99_example :
  Forall2 (plane_bytes 42 5) (present (fo_comps fmt_YUV420)) [320; 96; 96] /\
  samples_bytes fmt_S16 10 32 32 /\ get_width (mk_chromaton 1 0 false 8 0 0 1) (2 ^ 64 - 1) = Panic.
Proof.
  split; [|split; [|reflexivity]].
  - repeat constructor; apply plane_exact; vm_compute; reflexivity.
  - apply (audio_size_exact fmt_S16 10 32 32); [exists 5; reflexivity|reflexivity|vm_compute; reflexivity].
Qed.
