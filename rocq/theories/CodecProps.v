(** C82-C84: codec contexts, option values, error texts. *)
From Coq Require Import String List Arith NArith ZArith Bool.
From Verif Require Import Base AccModel AudioModel PixelModel FormatModel FrameModel MuxModel DisplayModel
  MuxSpec CodecModel CodecSpec CodecMain.
Import ListNotations.
Local Open Scope nat_scope.

(** C82: whatever the decoder, a decoding context made by name behaves in every
    sequence of calls like the object that the first descriptor of that name creates,
    and [decoder()] is that object. *)
Theorem C82_decoder_context : forall (T D : Type) (codec_of : T -> string) (create : T -> D) (dd : decoder D) l name ops t,
  first_named codec_of l name t ->
  exists c, dec_by_name create (codecs_from_list codec_of l) name = Ret (Some c) /\
    match bare_decs dd (create t) ops with
    | Ret (d, outs) => exists c', dec_run dd c ops = Ret (c', outs) /\ ctx_decoder c' = d
    | Panic => dec_run dd c ops = Panic
    | UB => dec_run dd c ops = UB
    end.
Proof. exact c82_decoder. Qed.
Print Assumptions C82_decoder_context.

(** The same for encoders. *)
Theorem C82_encoder_context : forall (T E : Type) (codec_of : T -> string) (create : T -> E) (en : encoder E) l name ops t,
  first_named codec_of l name t ->
  exists c, enc_by_name create (codecs_from_list codec_of l) name = Ret (Some c) /\
    match bare_encs en (create t) ops with
    | Ret (x, outs) => exists c', enc_run en c ops = Ret (c', outs) /\ enc_encoder c' = x
    | Panic => enc_run en c ops = Panic
    | UB => enc_run en c ops = UB
    end.
Proof. exact c82_encoder. Qed.
Print Assumptions C82_encoder_context.

(** A name that no descriptor has gives no context. *)
Theorem C82_unknown_codec : forall (T X : Type) (codec_of : T -> string) (create : T -> X) l name,
  (forall t, In t l -> codec_of t <> name) ->
  dec_by_name create (codecs_from_list codec_of l) name = Ret None /\
  enc_by_name create (codecs_from_list codec_of l) name = Ret None.
Proof. exact c82_unknown. Qed.
Print Assumptions C82_unknown_codec.

Example C82_example :
  dec_run counter (mk_dec_ctx (7, false))
    [DConfigure; DExtradata [1%N]; DConfigure;
     DSend (mk_packet [1; 2; 3]%N None 0%Z default_time false false); DReceive] =
  Ret (mk_dec_ctx (10, true),
       [DUnit (Error CConfigurationIncomplete); DNothing; DUnit (Okay tt); DUnit (Okay tt); DFrame (Error CMoreDataNeeded)]).
Proof. vm_compute; reflexivity. Qed.

(** C83: an encoder can tell every two different options apart, key, type and value. *)
Theorem C83_option_values : forall e k1 a1 k2 a2,
  enc_step recorder (mk_enc_ctx e) (ESetOption k1 a1) = enc_step recorder (mk_enc_ctx e) (ESetOption k2 a2) ->
  k1 = k2 /\ a1 = a2.
Proof. exact c83_options. Qed.
Print Assumptions C83_option_values.

Example C83_example :
  enc_step recorder (mk_enc_ctx []) (ESetOption "gop" (APair (-1, 25)%Z)) =
    Ret (mk_enc_ctx [("gop"%string, VPair (-1) 25)], EUnit (Okay tt)) /\
  enc_step recorder (mk_enc_ctx []) (ESetOption "q" (AU64 1%N)) <> enc_step recorder (mk_enc_ctx []) (ESetOption "q" (AI64 1%Z)).
Proof. split; [vm_compute; reflexivity|vm_compute; discriminate]. Qed.

(** C84: the text of a codec error determines the error. *)
Theorem C84_codec_error_texts : forall a b, show_codec_error a = show_codec_error b -> a = b.
Proof. exact c84_codec_texts. Qed.
Print Assumptions C84_codec_error_texts.

(** The text of a format error determines its kind and its number of bytes; the text
    of an I/O error says no more than that it is one. *)
Theorem C84_format_error_texts : forall a b, show_error a = show_error b <-> same_kind a b.
Proof. exact c84_format_texts. Qed.
Print Assumptions C84_format_error_texts.

(** The I/O error is not lost in the conversion: it is the source of the error. *)
Theorem C84_io_error_source : forall e io, error_source e = Some io <-> e = error_from_io io.
Proof. exact c84_io_source. Qed.
Print Assumptions C84_io_error_source.

Example C84_example :
  show_error (MoreDataNeeded 1200) = "1200 more bytes needed"%string /\
  show_codec_error (CUnsupported "10 bit") = "Unsupported feature 10 bit"%string /\
  error_source (error_from_io WriteZero) = Some WriteZero.
Proof. repeat split; vm_compute; reflexivity. Qed.
