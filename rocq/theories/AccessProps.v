(** C84 (other crates), C91-C94: accessors and defaults. *)
From Coq Require Import String List Arith NArith ZArith Bool.
From Verif Require Import Base AudioModel PixelModel FormatModel FrameModel CodecModel CodebookModel AccessModel DataSpec AccessMain.
Import ListNotations.
Local Open Scope N_scope.

(** C84, the errors of frames and codebooks: the text determines the error. *)
Theorem C84_other_error_texts :
  (forall a b, show_frame_error a = show_frame_error b -> a = b) /\ (forall a b, show_codebook_error a = show_codebook_error b -> a = b).
Proof. exact other_error_texts. Qed.
Print Assumptions C84_other_error_texts.

(** They are these texts. *)
Theorem C84_other_error_literals :
  map show_frame_error [FrameModel.InvalidIndex; InvalidConversion] = ["Invalid Index"; "Invalid Conversion"]%string /\
  map show_codebook_error [InvalidCodebook; InvalidCode] = ["Invalid Codebook"; "Invalid Code"]%string.
Proof. exact other_error_literals. Qed.
Print Assumptions C84_other_error_literals.

Example C84_other_example : show_frame_error InvalidConversion = "Invalid Conversion"%string /\ show_codebook_error InvalidCode = "Invalid Code"%string.
Proof. split; reflexivity. Qed.

(** C91 is false: the derived default belongs to stream 0, a new packet to no stream (-1). *)
Theorem C91_default_packet_refuted : packet_default <> packet_new.
Proof. exact packet_default_refuted. Qed.
Print Assumptions C91_default_packet_refuted.

(** All other fields agree. *)
Theorem C91_default_packet_partial : forall n,
  p_data packet_default = p_data (packet_with_capacity n) /\ p_pos packet_default = p_pos (packet_with_capacity n) /\
  p_t packet_default = p_t (packet_with_capacity n) /\ p_key packet_default = p_key (packet_with_capacity n) /\
  p_corrupted packet_default = p_corrupted (packet_with_capacity n) /\
  p_stream_index packet_default = 0%Z /\ p_stream_index (packet_with_capacity n) = (-1)%Z.
Proof. exact packet_default_rest. Qed.
Print Assumptions C91_default_packet_partial.

(** C92: the accessors of a component, of the informations and of a format return what the
    constructor was given; indexing a format panics exactly where [get_chromaton] has [None]
    for lack of an entry. *)
Theorem C92_component_access : forall h v p d sh o n, let c := chromaton_new h v p d sh o n in
  get_subsampling c = (h, v) /\ is_packed c = p /\ get_depth c = d /\ get_shift c = sh /\ get_offset c = o /\ get_step c = n.
Proof. exact component_access. Qed.
Print Assumptions C92_component_access.

Theorem C92_format_access : forall model l e be al pal f, formaton_new model l e be al pal = Ret f ->
  get_model f = model /\ get_elem_size f = e /\ is_be f = be /\ has_alpha f = al /\ is_paletted f = pal /\
  get_primaries f = CpUnspecified /\ get_xfer f = TcUnspecified /\ get_matrix f = McUnspecified /\
  get_num_comp f = N.of_nat (length l) /\ length (formaton_iter f) = 5%nat /\ present (formaton_iter f) = l /\
  (forall i, (i < 5)%nat -> formaton_index f i = Ret (nth_error l i) /\ get_chromaton f i = Ret (nth_error l i)) /\
  (forall i, (5 <= i)%nat -> formaton_index f i = Panic /\ get_chromaton f i = Ret None).
Proof. exact format_access. Qed.
Print Assumptions C92_format_access.

Theorem C92_sample_access : forall bits be packed planar float signed, let f := soniton_new bits be packed planar float signed in
  so_bits f = bits /\ so_be f = be /\ so_packed f = packed /\ so_planar f = planar /\ so_float f = float /\ so_signed f = signed.
Proof. exact sample_access. Qed.
Print Assumptions C92_sample_access.

Theorem C92_info_access :
  (forall w h fl ty fm v, video_new w h fl ty fm = Ret v ->
     video_width v = w /\ video_height v = h /\ video_flipped v = fl /\ video_type v = ty /\ video_format v = fm /\
     get_total_depth fm = Ret (vi_bits v) /\
     (forall x, video_width (video_set_width v x) = x /\ video_height (video_set_width v x) = h /\ video_format (video_set_width v x) = fm /\
       video_flipped (video_set_width v x) = fl /\ video_type (video_set_width v x) = ty /\ vi_bits (video_set_width v x) = vi_bits v) /\
     (forall x, video_height (video_set_height v x) = x /\ video_width (video_set_height v x) = w /\ video_format (video_set_height v x) = fm /\
       video_flipped (video_set_height v x) = fl /\ video_type (video_set_height v x) = ty /\ vi_bits (video_set_height v x) = vi_bits v)) /\
  (forall s r m f b, let a := audio_new s r m f b in
     audio_samples a = s /\ audio_rate a = r /\ audio_channels a = N.of_nat (length m) /\ audio_format a = f /\ audio_block_len a = b) /\
  (forall v, get_video_info (media_from_video v) = Some v /\ get_audio_info (media_from_video v) = None /\
     is_video (media_from_video v) = true /\ is_audio (media_from_video v) = false) /\
  (forall a, get_audio_info (media_from_audio a) = Some a /\ get_video_info (media_from_audio a) = None /\
     is_video (media_from_audio a) = false /\ is_audio (media_from_audio a) = true).
Proof. exact info_access. Qed.
Print Assumptions C92_info_access.

(** The extradata of a stream is that of its parameters, also once the stream is added. *)
Theorem C92_stream_extradata : forall p tb,
  stream_extradata (stream_from_params p tb) = cp_extradata p /\
  (forall g st, map stream_extradata (g_streams (fst (add_stream g st))) = map stream_extradata (g_streams g) ++ [stream_extradata st]).
Proof. exact stream_extradata_access. Qed.
Print Assumptions C92_stream_extradata.

(** A new stream has no number yet, and neither start, duration nor private data. *)
Theorem C92_stream_fields : forall (P : Type) (p : P) tb, let st := stream_from_params p tb in
  s_id st = (-1)%Z /\ s_index st = 0 /\ s_params st = p /\ s_timebase st = tb /\ s_start st = None /\ s_duration st = None /\ s_private st = None.
Proof. exact stream_fields. Qed.
Print Assumptions C92_stream_fields.

Example C92_example :
  formaton_index fmt_RGBA 3 = Ret (Some (packrgb 8 0 0 4)) /\ formaton_index fmt_RGBA 4 = Ret None /\ formaton_index fmt_RGBA 5 = Panic /\
  (let! v := video_new 42 24 true FrameB fmt_YUV420 in Ret (video_width v, video_height (video_set_height v 9), vi_bits v)) = Ret (42, 9, 24) /\
  audio_channels (audio_new 10 48000 [ChR; ChL] fmt_S16 None) = 2.
Proof. repeat apply conj; vm_compute; reflexivity. Qed.

(** C93: the predefined formats have the components they say they have: those of the colour
    model, and one more for alpha. *)
Theorem C93_predefined_components : forall fm ok, In (fm, ok) copyable ->
  get_num_comp fm = N.of_nat (length (present (formaton_iter fm))) /\
  get_num_comp fm = get_default_components (get_model fm) + (if has_alpha fm then 1 else 0) /\
  (exists d, get_total_depth fm = Ret d) /\ length (formaton_iter fm) = 5%nat /\
  (is_paletted fm = true <-> fm = fmt_PAL8).
Proof. exact predefined_counts. Qed.
Print Assumptions C93_predefined_components.

(** Only CMYK has four components. *)
Theorem C93_model_components : forall m, (m = CMYK -> get_default_components m = 4) /\ (m <> CMYK -> get_default_components m = 3).
Proof. exact model_components. Qed.
Print Assumptions C93_model_components.

Example C93_example : get_num_comp fmt_RGBA64 = 4 /\ get_default_components (get_model fmt_RGBA64) = 3 /\ get_total_depth fmt_RGBA64 = Ret 64.
Proof. repeat apply conj; reflexivity. Qed.

(** C94: default channel maps are those of the documentation; any other number of channels
    panics. *)
Theorem C94_default_maps : forall n m, default_map n = Ret m <-> n = 1 /\ m = [ChC] \/ n = 2 /\ m = [ChR; ChL].
Proof. exact default_maps. Qed.
Print Assumptions C94_default_maps.

Theorem C94_other_counts : forall n, n <> 1 -> n <> 2 -> default_map n = Panic.
Proof. exact default_maps_other. Qed.
Print Assumptions C94_other_counts.

Example C94_example : default_map 2 = Ret [ChR; ChL] /\ default_map 6 = Panic /\ find_channel_id [ChR; ChL] ChL = Some 1.
Proof. repeat apply conj; reflexivity. Qed.
