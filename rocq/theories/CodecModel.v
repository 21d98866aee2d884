(** Transcription of the contexts of codec/src/decoder.rs and codec/src/encoder.rs,
    of codec/src/error.rs, of the error texts and conversions of
    format/src/error.rs, and of data/src/params.rs and data/src/value.rs.

    Decoders and encoders are an arbitrary type with the methods of their trait; a
    method may panic.  Frames are the model of data/src/frame.rs ([ArcFrame] is its
    contents). *)
From Coq Require Import String List Arith NArith ZArith Bool.
From Verif Require Import Base AccModel AudioModel PixelModel FormatModel FrameModel MuxModel DisplayModel.
Import ListNotations.
Local Open Scope nat_scope.

(** ** data/src/params.rs *)

(** params.rs:9-16 and 20-27 *)
Record video_params : Type := mk_video_params { vp_width : N; vp_height : N; vp_format : option formaton }.
Record audio_params : Type := mk_audio_params { ap_rate : N; ap_map : option channel_map; ap_format : option soniton }.

(** params.rs:31-36 *)
Inductive params_kind : Type := VideoParams (v : video_params) | AudioParams (a : audio_params).

(** params.rs:40-55 *)
Record codec_params : Type := mk_codec_params {
  cp_kind : option params_kind;
  cp_codec_id : option string;
  cp_extradata : option (list N);
  cp_bit_rate : N;
  cp_convergence_window : N;
  cp_delay : N
}.

(** ** data/src/value.rs *)

(** value.rs:11-26 *)
Inductive value : Type :=
| VI64 (z : Z)
| VU64 (n : N)
| VStr (s : string)
| VBool (b : bool)
| VPair (a b : Z)
| VFormaton (f : formaton)
| VSoniton (s : soniton).

(** value.rs:28-68: one [From] implementation each *)
Definition value_from_i64 (v : Z) : value := VI64 v.
Definition value_from_u64 (v : N) : value := VU64 v.
Definition value_from_str (v : string) : value := VStr v.
Definition value_from_bool (v : bool) : value := VBool v.
Definition value_from_pair (v : Z * Z) : value := VPair (fst v) (snd v).
Definition value_from_formaton (v : formaton) : value := VFormaton v.
Definition value_from_soniton (v : soniton) : value := VSoniton v.

(** ** codec/src/error.rs *)

(** codec/src/error.rs:5-18 *)
Inductive codec_error : Type :=
| CInvalidData
| CMoreDataNeeded
| CConfigurationIncomplete
| CConfigurationInvalid
| CUnsupported (feature : string).

(** codec/src/error.rs:22-32 *)
Definition show_codec_error (e : codec_error) : string :=
  match e with
  | CInvalidData => "Invalid Data"
  | CMoreDataNeeded => "Additional data needed"
  | CConfigurationIncomplete => "Configuration Incomplete"
  | CConfigurationInvalid => "Configuration Invalid"
  | CUnsupported feat => "Unsupported feature " ++ feat
  end.

(** ** format/src/error.rs *)

(** format/src/error.rs:15-22 *)
Definition error_source (e : error) : option io_error :=
  match e with Io inner => Some inner | _ => None end.

(** format/src/error.rs:24-32 *)
Definition show_error (e : error) : string :=
  match e with
  | InvalidData => "Invalid Data"
  | MoreDataNeeded n => dec (N.of_nat n) ++ " more bytes needed"
  | Io _ => "I/O error"
  end.

(** format/src/error.rs:34-38 *)
Definition error_from_io (e : io_error) : error := Io e.

(** ** codec/src/decoder.rs *)

(** decoder.rs:10-23 *)
Record decoder (D : Type) : Type := mk_decoder {
  dd_set_extradata : D -> list N -> outcome D;
  dd_send_packet : D -> packet -> outcome (D * result unit codec_error);
  dd_receive_frame : D -> outcome (D * result frame codec_error);
  dd_configure : D -> outcome (D * result unit codec_error);
  dd_flush : D -> outcome (D * result unit codec_error)
}.
Arguments mk_decoder {D}.
Arguments dd_set_extradata {D}.
Arguments dd_send_packet {D}.
Arguments dd_receive_frame {D}.
Arguments dd_configure {D}.
Arguments dd_flush {D}.

(** decoder.rs:43-46 *)
Record dec_ctx (D : Type) : Type := mk_dec_ctx { dc_dec : D }.
Arguments mk_dec_ctx {D}.
Arguments dc_dec {D}.

(** decoder.rs:52-59 ([context_by_name] of [MuxModel] leaves out the wrapping) *)
Definition dec_by_name {T D : Type} (create : T -> D) (c : name_map T) (name : string)
    : outcome (option (dec_ctx D)) :=
  let! r := codecs_by_name c name in
  Ret (option_map (fun builder => mk_dec_ctx (create builder)) r).

Section DecoderContext.
Context {D : Type}.
Variable dd : decoder D.

(** decoder.rs:61-63 *)
Definition ctx_set_extradata (c : dec_ctx D) (extra : list N) : outcome (dec_ctx D) :=
  let! d := dd_set_extradata dd (dc_dec c) extra in Ret (mk_dec_ctx d).

(** decoder.rs:66-68 *)
Definition ctx_send_packet (c : dec_ctx D) (p : packet) : outcome (dec_ctx D * result unit codec_error) :=
  let! (d, res) := dd_send_packet dd (dc_dec c) p in Ret (mk_dec_ctx d, res).

(** decoder.rs:70-72 *)
Definition ctx_receive_frame (c : dec_ctx D) : outcome (dec_ctx D * result frame codec_error) :=
  let! (d, res) := dd_receive_frame dd (dc_dec c) in Ret (mk_dec_ctx d, res).

(** decoder.rs:74-76 *)
Definition ctx_configure (c : dec_ctx D) : outcome (dec_ctx D * result unit codec_error) :=
  let! (d, res) := dd_configure dd (dc_dec c) in Ret (mk_dec_ctx d, res).

(** decoder.rs:79-81 *)
Definition ctx_flush (c : dec_ctx D) : outcome (dec_ctx D * result unit codec_error) :=
  let! (d, res) := dd_flush dd (dc_dec c) in Ret (mk_dec_ctx d, res).

(** decoder.rs:84-86 *)
Definition ctx_decoder (c : dec_ctx D) : D := dc_dec c.
End DecoderContext.

(** The calls a client can make and what they return (harness). *)
Inductive dec_op : Type :=
| DExtradata (extra : list N)
| DSend (p : packet)
| DReceive
| DConfigure
| DFlush.
Inductive dec_out : Type :=
| DNothing
| DUnit (r : result unit codec_error)
| DFrame (r : result frame codec_error).

Definition dec_step {D : Type} (dd : decoder D) (c : dec_ctx D) (op : dec_op) : outcome (dec_ctx D * dec_out) :=
  match op with
  | DExtradata x => let! c' := ctx_set_extradata dd c x in Ret (c', DNothing)
  | DSend p => let! (c', r) := ctx_send_packet dd c p in Ret (c', DUnit r)
  | DReceive => let! (c', r) := ctx_receive_frame dd c in Ret (c', DFrame r)
  | DConfigure => let! (c', r) := ctx_configure dd c in Ret (c', DUnit r)
  | DFlush => let! (c', r) := ctx_flush dd c in Ret (c', DUnit r)
  end.

Fixpoint dec_run {D : Type} (dd : decoder D) (c : dec_ctx D) (ops : list dec_op)
    : outcome (dec_ctx D * list dec_out) :=
  match ops with
  | [] => Ret (c, [])
  | op :: ops' =>
      let! (c1, o) := dec_step dd c op in
      let! (c2, os) := dec_run dd c1 ops' in
      Ret (c2, o :: os)
  end.

(** ** codec/src/encoder.rs *)

(** encoder.rs:14-34; [get_extradata] and [get_params] take [&self]. *)
Record encoder (E : Type) : Type := mk_encoder {
  en_get_extradata : E -> outcome (option (list N));
  en_send_frame : E -> frame -> outcome (E * result unit codec_error);
  en_receive_packet : E -> outcome (E * result packet codec_error);
  en_flush : E -> outcome (E * result unit codec_error);
  en_configure : E -> outcome (E * result unit codec_error);
  en_set_option : E -> string -> value -> outcome (E * result unit codec_error);
  en_set_params : E -> codec_params -> outcome (E * result unit codec_error);
  en_get_params : E -> outcome (result codec_params codec_error)
}.
Arguments mk_encoder {E}.
Arguments en_get_extradata {E}.
Arguments en_send_frame {E}.
Arguments en_receive_packet {E}.
Arguments en_flush {E}.
Arguments en_configure {E}.
Arguments en_set_option {E}.
Arguments en_set_params {E}.
Arguments en_get_params {E}.

(** encoder.rs:38-44 *)
Record enc_ctx (E : Type) : Type := mk_enc_ctx { ec_enc : E }.
Arguments mk_enc_ctx {E}.
Arguments ec_enc {E}.

(** encoder.rs:50-57 *)
Definition enc_by_name {T E : Type} (create : T -> E) (c : name_map T) (name : string)
    : outcome (option (enc_ctx E)) :=
  let! r := codecs_by_name c name in
  Ret (option_map (fun builder => mk_enc_ctx (create builder)) r).

Section EncoderContext.
Context {E : Type}.
Variable en : encoder E.

(** encoder.rs:60-62 *)
Definition enc_configure (c : enc_ctx E) : outcome (enc_ctx E * result unit codec_error) :=
  let! (x, res) := en_configure en (ec_enc c) in Ret (mk_enc_ctx x, res).

(** encoder.rs:65-67 *)
Definition enc_set_params (c : enc_ctx E) (p : codec_params) : outcome (enc_ctx E * result unit codec_error) :=
  let! (x, res) := en_set_params en (ec_enc c) p in Ret (mk_enc_ctx x, res).

(** encoder.rs:70-72 *)
Definition enc_get_params (c : enc_ctx E) : outcome (result codec_params codec_error) :=
  en_get_params en (ec_enc c).

(** encoder.rs:75-81: [into] is the conversion of the type of the option *)
Definition enc_set_option {V : Type} (into : V -> value) (c : enc_ctx E) (key : string) (val : V)
    : outcome (enc_ctx E * result unit codec_error) :=
  let! (x, res) := en_set_option en (ec_enc c) key (into val) in Ret (mk_enc_ctx x, res).

(** encoder.rs:84-86 *)
Definition enc_get_extradata (c : enc_ctx E) : outcome (option (list N)) := en_get_extradata en (ec_enc c).

(** encoder.rs:88-90 *)
Definition enc_send_frame (c : enc_ctx E) (f : frame) : outcome (enc_ctx E * result unit codec_error) :=
  let! (x, res) := en_send_frame en (ec_enc c) f in Ret (mk_enc_ctx x, res).

(** encoder.rs:93-95 *)
Definition enc_receive_packet (c : enc_ctx E) : outcome (enc_ctx E * result packet codec_error) :=
  let! (x, res) := en_receive_packet en (ec_enc c) in Ret (mk_enc_ctx x, res).

(** encoder.rs:98-100 *)
Definition enc_flush (c : enc_ctx E) : outcome (enc_ctx E * result unit codec_error) :=
  let! (x, res) := en_flush en (ec_enc c) in Ret (mk_enc_ctx x, res).

(** encoder.rs:103-105 *)
Definition enc_encoder (c : enc_ctx E) : E := ec_enc c.
End EncoderContext.

(** The types that [set_option] accepts (harness). *)
Inductive option_arg : Type :=
| AI64 (z : Z)
| AU64 (n : N)
| AStr (s : string)
| ABool (b : bool)
| APair (p : Z * Z)
| AFormaton (f : formaton)
| ASoniton (s : soniton).

Inductive enc_op : Type :=
| EConfigure
| ESetParams (p : codec_params)
| EGetParams
| ESetOption (key : string) (a : option_arg)
| EGetExtradata
| ESend (f : frame)
| EReceive
| EFlush.
Inductive enc_out : Type :=
| EUnit (r : result unit codec_error)
| EParams (r : result codec_params codec_error)
| EExtradata (x : option (list N))
| EPacket (r : result packet codec_error).

Definition enc_step {E : Type} (en : encoder E) (c : enc_ctx E) (op : enc_op) : outcome (enc_ctx E * enc_out) :=
  match op with
  | EConfigure => let! (c', r) := enc_configure en c in Ret (c', EUnit r)
  | ESetParams p => let! (c', r) := enc_set_params en c p in Ret (c', EUnit r)
  | EGetParams => let! r := enc_get_params en c in Ret (c, EParams r)
  | ESetOption key a =>
      let! (c', r) :=
        match a with
        | AI64 v => enc_set_option en value_from_i64 c key v
        | AU64 v => enc_set_option en value_from_u64 c key v
        | AStr v => enc_set_option en value_from_str c key v
        | ABool v => enc_set_option en value_from_bool c key v
        | APair v => enc_set_option en value_from_pair c key v
        | AFormaton v => enc_set_option en value_from_formaton c key v
        | ASoniton v => enc_set_option en value_from_soniton c key v
        end in
      Ret (c', EUnit r)
  | EGetExtradata => let! x := enc_get_extradata en c in Ret (c, EExtradata x)
  | ESend f => let! (c', r) := enc_send_frame en c f in Ret (c', EUnit r)
  | EReceive => let! (c', r) := enc_receive_packet en c in Ret (c', EPacket r)
  | EFlush => let! (c', r) := enc_flush en c in Ret (c', EUnit r)
  end.

Fixpoint enc_run {E : Type} (en : encoder E) (c : enc_ctx E) (ops : list enc_op)
    : outcome (enc_ctx E * list enc_out) :=
  match ops with
  | [] => Ret (c, [])
  | op :: ops' =>
      let! (c1, o) := enc_step en c op in
      let! (c2, os) := enc_run en c1 ops' in
      Ret (c2, o :: os)
  end.
