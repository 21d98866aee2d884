(** C117: the predefined formats. *)
From Coq Require Import List NArith Bool.
From Verif Require Import Base AudioModel PixelModel DataSpec PredefSpec PredefProofs.
Import ListNotations.
Local Open Scope N_scope.

(** C117: the planar formats in full.  In those of 10 bits depth and offset of the chroma
    components are exchanged (C51), and those named 4:2:2 halve the height (C72). *)
Theorem C117_planar_formats :
  (planar_ycbcr fmt_YUV444 8 0 0 [(8, 1); (8, 2)] /\ planar_ycbcr fmt_YUV422 8 0 1 [(8, 1); (8, 2)] /\ planar_ycbcr fmt_YUV420 8 1 1 [(8, 1); (8, 2)] /\
   planar_ycbcr fmt_YUV411 8 2 0 [(8, 1); (8, 2)] /\ planar_ycbcr fmt_YUV410 8 2 1 [(8, 1); (8, 2)]) /\
  (planar_ycbcr fmt_YUV444_10 10 0 0 [(1, 10); (2, 10)] /\ planar_ycbcr fmt_YUV422_10 10 0 1 [(1, 10); (2, 10)] /\ planar_ycbcr fmt_YUV420_10 10 1 1 [(1, 10); (2, 10)] /\
   planar_ycbcr fmt_YUV411_10 10 2 0 [(1, 10); (2, 10)] /\ planar_ycbcr fmt_YUV410_10 10 2 1 [(1, 10); (2, 10)]).
Proof. exact planar_formats. Qed.
Print Assumptions C117_planar_formats.

(** C117: the packed formats in full.  The offsets in those of 16 bits count bytes as if
    there were 8 (C73). *)
Theorem C117_packed_formats :
  packed_rgb fmt_PAL8 3 false true [(8, 0, 0); (8, 0, 1); (8, 0, 2)] /\
  packed_rgb fmt_RGB565 2 false false [(5, 11, 0); (6, 5, 0); (5, 0, 0)] /\
  packed_rgb fmt_RGB24 3 false false [(8, 0, 2); (8, 0, 1); (8, 0, 0)] /\
  packed_rgb fmt_RGBA 4 true false [(8, 0, 3); (8, 0, 2); (8, 0, 1); (8, 0, 0)] /\
  packed_rgb fmt_RGB48 6 false false [(16, 0, 2); (16, 0, 1); (16, 0, 0)] /\
  packed_rgb fmt_RGBA64 8 true false [(16, 0, 3); (16, 0, 2); (16, 0, 1); (16, 0, 0)].
Proof. exact packed_formats. Qed.
Print Assumptions C117_packed_formats.

(** C117: the sample formats are those of their names. *)
Theorem C117_sample_formats :
  samples fmt_U8 8 false false /\ samples fmt_S16 16 false true /\ samples fmt_S32 32 false true /\ samples fmt_F32 32 true true /\ samples fmt_F64 64 true true.
Proof. exact sample_formats. Qed.
Print Assumptions C117_sample_formats.

Example C117_example : ~ samples fmt_U8 8 false true /\ ~ packed_rgb fmt_RGB24 4 false false [(8, 0, 2); (8, 0, 1); (8, 0, 0)].
Proof. split; [intros (_ & _ & H & _); discriminate H|intros (_ & _ & _ & H & _); discriminate H]. Qed.
