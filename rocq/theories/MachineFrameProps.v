(** C135-C137: frames for any width of [usize]. *)
From Coq Require Import List Arith NArith Bool Lia.
From Verif Require Import Base AudioModel PixelModel FormatModel FrameModel ReleaseModel DataSpec FrameSizeSpec.
From Verif Require Import MachineModel MachineFrameModel MachineFrameSpec MachineFrameProofs MachineFrameProofs2.
Import ListNotations.
Local Open Scope N_scope.

(** C135: what a machine with overflow checks makes of a default frame or a copy, every machine
    that is at least as wide makes of it, with and without overflow checks.  For copies this
    includes the writes out of bounds. *)
Theorem C135_frames_wider : forall m n, checked m = true -> 1 <= bits m -> bits m <= bits n ->
  (forall kind t f, m_new_default_frame m kind t = Ret f -> m_new_default_frame n kind t = Ret f) /\
  (forall f dst dls o, m_copy_frame_to_buffer m f dst dls = o -> o <> Panic -> m_copy_frame_to_buffer n f dst dls = o) /\
  (forall f src sls o, m_copy_from_slice m f src sls = o -> o <> Panic -> m_copy_from_slice n f src sls = o).
Proof. exact wider_agrees. Qed.
Print Assumptions C135_frames_wider.

(** With 64 bits these are the functions of [FrameModel], and without overflow checks those of
    [ReleaseModel]. *)
Theorem C135_frames_on_64_bits :
  ((forall kind t, m_new_default_frame x86_64 kind t = new_default_frame kind t) /\
   (forall f dst dls, m_copy_frame_to_buffer x86_64 f dst dls = copy_frame_to_buffer f dst dls) /\
   (forall f src sls, m_copy_from_slice x86_64 f src sls = copy_from_slice f src sls)) /\
  (forall kind t, m_new_default_frame x86_64_release kind t = r_new_default_frame kind t) /\
  (forall f dst dls, m_copy_frame_to_buffer x86_64_release f dst dls = r_copy_frame_to_buffer f dst dls) /\
  (forall f src sls, m_copy_from_slice x86_64_release f src sls = r_copy_from_slice f src sls).
Proof. exact (conj on_64 on_64r). Qed.
Print Assumptions C135_frames_on_64_bits.

(** A picture of 3 x 2 in YUV 4:2:0 and a copy into it. *)
Example C135_example :
  let v := mk_video 3 2 false FrameI fmt_YUV420 12 in
  exists f, m_new_default_frame wasm32 (Video v) None = Ret f /\ m_new_default_frame x86_64_release (Video v) None = Ret f /\
    map (fun p => (pl_linesize p, length (pl_buf p))) (fb_planes (fr_buf f)) = [(32, 64%nat); (32, 32%nat); (32, 32%nat)] /\
    exists g, m_copy_from_slice wasm32 f [[1; 2; 3; 4; 5; 6]; [7; 8]; [9; 10]] [3; 2; 2] = Ret g /\
      m_copy_from_slice x86_64_release f [[1; 2; 3; 4; 5; 6]; [7; 8]; [9; 10]] [3; 2; 2] = Ret g /\
      map (fun p => firstn 3 (pl_buf p)) (fb_planes (fr_buf g)) = [[1; 2; 3]; [7; 8; 0]; [9; 10; 0]].
Proof.
  cbv zeta. eexists. split; [vm_compute; reflexivity|]. split; [vm_compute; reflexivity|]. split; [vm_compute; reflexivity|].
  eexists. split; [vm_compute; reflexivity|]. split; vm_compute; reflexivity.
Qed.

(** C136: with overflow checks a default frame is created exactly if no number on the way
    takes more than a word and the whole takes less than half of the address space. *)
Theorem C136_frames_created_any_width : forall m, checked m = true -> 9 <= bits m -> forall t,
  (forall v, (exists f, m_new_default_frame m (Video v) t = Ret f) <->
    exists sizes, Forall2 (plane_bytes_on (bits m) (vi_width v) (vi_height v)) (present (fo_comps (vi_format v))) sizes /\ total sizes < 2 ^ (bits m - 1)) /\
  (forall v, so_bits (ai_format v) < 256 -> (exists f, m_new_default_frame m (Audio v) t = Ret f) <->
    exists s, samples_bytes_on (bits m) (ai_format v) (ai_samples v) 32 s /\ s * N.of_nat (length (ai_map v)) < 2 ^ (bits m - 1)).
Proof. exact (fun m Hc Hb t => conj (fun v => m_video_created m Hc Hb v t) (fun v H => m_audio_created m Hc Hb v t H)). Qed.
Print Assumptions C136_frames_created_any_width.

(** With 12 bits: 32 x 63 pixels of 8 bits are 2016 bytes; 32 x 64 would be 2048. *)
Example C136_example :
  let one h := mk_video 32 h false FrameI (plain_format (YUV (YCbCr Limited)) 1 [Some (mk_chromaton 0 0 false 8 0 0 1)] 0 false false) 8 in
  (exists f, m_new_default_frame (mk_machine 12 true) (Video (one 63)) None = Ret f) /\
  m_new_default_frame (mk_machine 12 true) (Video (one 64)) None = Panic /\
  (exists f, m_new_default_frame wasm32 (Video (one 64)) None = Ret f).
Proof. cbv zeta. split; [eexists; vm_compute; reflexivity|]. split; [vm_compute; reflexivity|eexists; vm_compute; reflexivity]. Qed.

(** C137: copying into a default frame stays within its planes.  Without overflow checks and
    with 32 bits, 96 x 44739243 pixels in YUV 4:4:4 give planes of 32 bytes with lines of 96,
    and a source of one line is written out of bounds.  With overflow checks creating the frame
    panics, with 64 bits it has the right size. *)
Theorem C137_wasm32_undersized_refuted : exists v f src,
  m_new_default_frame wasm32 (Video v) None = Panic /\ (exists g, m_new_default_frame x86_64 (Video v) None = Ret g) /\
  m_new_default_frame wasm32_release (Video v) None = Ret f /\
  Forall (fun p => N.of_nat (length (pl_buf p)) < pl_linesize p) (fb_planes (fr_buf f)) /\
  length src = N.to_nat (vi_width v) /\ m_copy_from_slice wasm32_release f [src; src; src] [vi_width v; vi_width v; vi_width v] = UB.
Proof. exact undersized32. Qed.
Print Assumptions C137_wasm32_undersized_refuted.

(** Where the sizes fit the planes have them, whatever the width, with and without checks. *)
Theorem C137_fitting_frames_partial : forall m v t sizes, 9 <= bits m ->
  Forall2 (plane_bytes_on (bits m) (vi_width v) (vi_height v)) (present (fo_comps (vi_format v))) sizes -> total sizes < 2 ^ (bits m - 1) ->
  exists f, m_new_default_frame m (Video v) t = Ret f /\ map pl_buf (fb_planes (fr_buf f)) = map (fun k => repeat 0 (N.to_nat k)) sizes.
Proof. exact fitting_sizes. Qed.
Print Assumptions C137_fitting_frames_partial.

(** With ten bits: 32 x 15 fits, 32 x 33 leaves a plane of 32 bytes. *)
Example C137_example :
  let one h := mk_video 32 h false FrameI (plain_format (YUV (YCbCr Limited)) 1 [Some (mk_chromaton 0 0 false 8 0 0 1)] 0 false false) 8 in
  plane_bytes_on 10 32 15 (mk_chromaton 0 0 false 8 0 0 1) 480 /\
  (exists f, m_new_default_frame (mk_machine 10 false) (Video (one 15)) None = Ret f /\ map (fun p => length (pl_buf p)) (fb_planes (fr_buf f)) = [480%nat]) /\
  (exists f, m_new_default_frame (mk_machine 10 false) (Video (one 33)) None = Ret f /\ map (fun p => length (pl_buf p)) (fb_planes (fr_buf f)) = [32%nat]).
Proof.
  cbv zeta. split; [|split; eexists; split; vm_compute; reflexivity].
  exists 32, 32, 32, 15. cbn [h_ss v_ss depth]. change (2 ^ 0) with 1. change (2 ^ 10) with 1024. unfold ceil_div, least_multiple.
  repeat (split; [lia|]). split; [split; [exists 1; reflexivity|split; [lia|intros k; lia]]|]. repeat (split; [lia|]). reflexivity.
Qed.
