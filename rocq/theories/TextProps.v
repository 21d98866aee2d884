(** C115 and C116: what the [Display] implementations print. *)
From Coq Require Import Ascii String.
From Coq Require Import List NArith Bool.
From Verif Require Import Base AudioModel PixelModel FormatModel FrameModel DisplayModel CodecModel TextSpec TextProofs.
Import ListNotations.
Local Open Scope N_scope.

(** C115: a component is printed with all its numbers, unless the mask overflows. *)
Theorem C115_component_text : forall c,
  (displayable c -> exists s, show_chromaton c = Ret s /\ component_text c s) /\ (~ displayable c -> show_chromaton c = Panic).
Proof. exact (fun c => conj (chromaton_text c) (chromaton_panics c)). Qed.
Print Assumptions C115_component_text.

(** C115: a format is printed with all components that are present, unless one of them
    cannot be printed. *)
Theorem C115_format_text : forall f,
  (Forall displayable (present f) -> exists s, show_formaton f = Ret s /\ format_text f s) /\
  (~ Forall displayable (present f) -> show_formaton f = Panic).
Proof. exact formaton_text. Qed.
Print Assumptions C115_format_text.

Theorem C115_other_texts :
  (forall f, sample_text f (show_soniton f)) /\ (forall k, media_text k (show_media k)) /\
  (forall e, codec_error_text e (show_codec_error e)) /\ (forall e, format_error_text e (show_error e)).
Proof. exact (conj soniton_text (conj media_texts error_texts)). Qed.
Print Assumptions C115_other_texts.

Example C115_example :
  show_formaton fmt_RGB565 = Ret "[Formaton for RGB (elem LE size 2):  (0x0, packed(+0,F800, step 2)) (0x0, packed(+0,7E0, step 2)) (0x0, packed(+0,1F, step 2))]"%string /\
  numeral 16 "F800" 63488 /\ numeral 10 "1080" 1080 /\ ~ numeral 10 "01080" 1080 /\ ~ numeral 10 "10A" 110 /\
  (2 ^ 5 - 1) * 2 ^ 11 mod 2 ^ 32 = 63488 /\
  show_media (Video (mk_video 1920 1080 false FrameI fmt_YUV420 24)) = "1920x1080"%string /\
  show_chromaton (mk_chromaton 0 0 true 31 0 0 1) = Panic.
Proof.
  split; [vm_compute; reflexivity|]. split; [split; [vm_compute; reflexivity|discriminate]|]. split; [split; [vm_compute; reflexivity|discriminate]|].
  split; [intros [_ H]; discriminate (H eq_refl)|]. split; [intros [H _]; vm_compute in H; discriminate H|].
  split; [vm_compute; reflexivity|]. split; vm_compute; reflexivity.
Qed.

(** C116: the names. *)
Theorem C116_names :
  (forall m, In (matrix_code m, show_matrix m) matrix_names) /\
  (forall p, In (primaries_code p, show_primaries p) primaries_names) /\
  (forall x, In (xfer_code x, show_xfer x) transfer_names) /\
  (forall c, nth_error channel_names (N.to_nat (channel_code c)) = Some (show_channel c)) /\
  (forall l, In (l, show_chroma_location l) location_names) /\
  (forall t, In (t, show_frame_type t) frame_names).
Proof. exact names_all. Qed.
Print Assumptions C116_names.

Theorem C116_model_names : forall m, show_model m = model_name m.
Proof. exact model_text. Qed.
Print Assumptions C116_model_names.

Example C116_example :
  NoDup (map fst matrix_names) /\ NoDup (map fst primaries_names) /\ NoDup (map fst transfer_names) /\
  show_matrix McBT2020NonConstantLuminance = "ITU BT.2020 (Non Constant Luminance)"%string /\ show_channel ChLFE = "LFE"%string.
Proof.
  split; [|split; [|split; [|split; reflexivity]]];
    (cbn [map fst matrix_names primaries_names transfer_names]; repeat (constructor; [intros H; repeat destruct H as [H|H]; try discriminate H; exact H|]); constructor).
Qed.
