(** Model of the accessors of the data and format crates, and of the error texts that are not
    in [CodecModel]. *)
From Coq Require Import String List Arith NArith ZArith Bool.
From Verif Require Import Base AudioModel PixelModel FormatModel FrameModel MuxModel CodecModel CodebookModel.
Import ListNotations.
Local Open Scope N_scope.

(** [Chromaton::new], pixel.rs:585-603. *)
Definition chromaton_new (h v : N) (packed : bool) (d sh offs next : N) : chromaton := mk_chromaton h v packed d sh offs next.

(** Accessors of [Chromaton], pixel.rs:626-653. *)
Definition get_subsampling (c : chromaton) : N * N := (h_ss c, v_ss c).
Definition is_packed (c : chromaton) : bool := ch_packed c.
Definition get_depth (c : chromaton) : N := depth c.
Definition get_shift (c : chromaton) : N := shift c.
Definition get_offset (c : chromaton) : N := comp_offs c.
Definition get_step (c : chromaton) : N := next_elem c.

(** Accessors of [Formaton], pixel.rs:765-772, 798-800, 817-819 and 848-870. *)
Definition get_model (f : formaton) : color_model := fo_model f.
Definition get_primaries (f : formaton) : primaries := fo_primaries f.
Definition get_xfer (f : formaton) : xfer := fo_xfer f.
Definition get_matrix (f : formaton) : matrix := fo_matrix f.
Definition is_be (f : formaton) : bool := fo_be f.
Definition has_alpha (f : formaton) : bool := fo_alpha f.
Definition is_paletted (f : formaton) : bool := fo_palette f.
Definition get_elem_size (f : formaton) : N := fo_elem_size f.

(** [Formaton::iter] and [IntoIterator for &Formaton], pixel.rs:868-890: what the iterator
    yields. *)
Definition formaton_iter (f : formaton) : list (option chromaton) := fo_comps f.

(** [Index for &Formaton], pixel.rs:873-879: indexing the array panics out of bounds. *)
Definition formaton_index (f : formaton) (i : nat) : outcome (option chromaton) := index_at (fo_comps f) i.

(** Accessors of [VideoInfo], frame.rs:109-127. *)
Definition video_width (v : video_info) : N := vi_width v.
Definition video_height (v : video_info) : N := vi_height v.
Definition video_flipped (v : video_info) : bool := vi_flipped v.
Definition video_type (v : video_info) : frame_type := vi_type v.
Definition video_format (v : video_info) : formaton := vi_format v.

(** [AudioInfo::new] and its accessors, frame.rs:181-216. *)
Definition audio_new (samples rate : N) (m : channel_map) (f : soniton) (block : option N) : audio_info := mk_audio samples rate m f block.
Definition audio_rate (a : audio_info) : N := ai_rate a.
Definition audio_channels (a : audio_info) : N := map_len (ai_map a).
Definition audio_format (a : audio_info) : soniton := ai_format a.
Definition audio_samples (a : audio_info) : N := ai_samples a.
Definition audio_block_len (a : audio_info) : option N := ai_block_len a.

(** [From<VideoInfo>] and [From<AudioInfo> for MediaKind], frame.rs:289-299. *)
Definition media_from_video (v : video_info) : media_kind := Video v.
Definition media_from_audio (a : audio_info) : media_kind := Audio a.

(** The derived [Default for Packet], packet.rs:9: every field is the default of its type. *)
Definition packet_default : packet := mk_packet [] None 0 default_time false false.

(** [Stream::get_extradata], stream.rs:50-52, for streams with codec parameters. *)
Definition stream_extradata (s : stream codec_params) : option (list N) := cp_extradata (s_params s).

(** [Context::writer] and [into_writer], muxer.rs:153-160. *)
Definition mctx_writer {M W : Type} (c : mctx M W) : writer W := mc_writer c.
Definition mctx_into_writer {M W : Type} (c : mctx M W) : writer W := mc_writer c.

(** [Display for FrameError], frame.rs:30-37. *)
Definition show_frame_error (e : frame_error) : string :=
  match e with
  | FrameModel.InvalidIndex => "Invalid Index"
  | InvalidConversion => "Invalid Conversion"
  end.

(** [Display for CodebookError], codebook.rs:25-32. *)
Definition show_codebook_error (e : codebook_error) : string :=
  match e with
  | InvalidCodebook => "Invalid Codebook"
  | InvalidCode => "Invalid Code"
  end.
