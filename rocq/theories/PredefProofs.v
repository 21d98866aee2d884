(** The predefined formats. *)
From Coq Require Import List NArith Bool.
From Verif Require Import Base AudioModel PixelModel DataSpec PredefSpec.
Import ListNotations.
Local Open Scope N_scope.

Ltac components := intros c; cbn [fo_comps present plain_format In] in *; intros H; repeat destruct H as [H|H]; try contradiction; subst c.
Ltac planar :=
  unfold planar_ycbcr, undescribed;
  split; [repeat split|]; split; [reflexivity|]; split; [reflexivity|]; split; [reflexivity|]; split; [reflexivity|]; split; [reflexivity|];
  split; [intros c; vm_compute; intros H; repeat destruct H as [H|H]; try contradiction; subst c; repeat split|];
  split; [reflexivity|]; split; reflexivity.

Lemma planar_formats :
  (planar_ycbcr fmt_YUV444 8 0 0 [(8, 1); (8, 2)] /\ planar_ycbcr fmt_YUV422 8 0 1 [(8, 1); (8, 2)] /\ planar_ycbcr fmt_YUV420 8 1 1 [(8, 1); (8, 2)] /\
   planar_ycbcr fmt_YUV411 8 2 0 [(8, 1); (8, 2)] /\ planar_ycbcr fmt_YUV410 8 2 1 [(8, 1); (8, 2)]) /\
  (planar_ycbcr fmt_YUV444_10 10 0 0 [(1, 10); (2, 10)] /\ planar_ycbcr fmt_YUV422_10 10 0 1 [(1, 10); (2, 10)] /\ planar_ycbcr fmt_YUV420_10 10 1 1 [(1, 10); (2, 10)] /\
   planar_ycbcr fmt_YUV411_10 10 2 0 [(1, 10); (2, 10)] /\ planar_ycbcr fmt_YUV410_10 10 2 1 [(1, 10); (2, 10)]).
Proof.
  split.
  - split; [planar|]. split; [planar|]. split; [planar|]. split; planar.
  - split; [planar|]. split; [planar|]. split; [planar|]. split; planar.
Qed.

Lemma packed_formats :
  packed_rgb fmt_PAL8 3 false true [(8, 0, 0); (8, 0, 1); (8, 0, 2)] /\
  packed_rgb fmt_RGB565 2 false false [(5, 11, 0); (6, 5, 0); (5, 0, 0)] /\
  packed_rgb fmt_RGB24 3 false false [(8, 0, 2); (8, 0, 1); (8, 0, 0)] /\
  packed_rgb fmt_RGBA 4 true false [(8, 0, 3); (8, 0, 2); (8, 0, 1); (8, 0, 0)] /\
  packed_rgb fmt_RGB48 6 false false [(16, 0, 2); (16, 0, 1); (16, 0, 0)] /\
  packed_rgb fmt_RGBA64 8 true false [(16, 0, 3); (16, 0, 2); (16, 0, 1); (16, 0, 0)].
Proof.
  Ltac pack := unfold packed_rgb, undescribed;
    split; [repeat split|]; split; [reflexivity|]; split; [reflexivity|]; split; [reflexivity|]; split; [reflexivity|]; split; [reflexivity|];
    split; [intros c; vm_compute; intros H; repeat destruct H as [H|H]; try contradiction; subst c; repeat split|]; split; reflexivity.
  split; [pack|]. split; [pack|]. split; [pack|]. split; [pack|]. split; pack.
Qed.

Lemma sample_formats :
  samples fmt_U8 8 false false /\ samples fmt_S16 16 false true /\ samples fmt_S32 32 false true /\ samples fmt_F32 32 true true /\ samples fmt_F64 64 true true.
Proof. repeat split. Qed.
