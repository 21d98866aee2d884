(** The component and the position a build without overflow checks works with. *)
From Coq Require Import List Arith NArith.
From Verif Require Import Base PixelModel MuxModel WordCountModel.
Local Open Scope N_scope.

(** Depth and shift modulo 32. *)
Definition wrapped (c : chromaton) : chromaton :=
  mk_chromaton (h_ss c) (v_ss c) (ch_packed c) (depth c mod 32) (shift c mod 32) (comp_offs c) (next_elem c).

(** The position modulo 2^64. *)
Definition wrapped_writer {W : Type} (w : writer W) : wwriter W := mk_wwriter (w_inner w) (N.of_nat (w_written w) mod W64).

(** All components of a format with depth and shift modulo 32. *)
Definition wrapped_format (f : formaton) : formaton :=
  mk_formaton (fo_model f) (fo_primaries f) (fo_xfer f) (fo_matrix f) (fo_location f) (fo_components f) (map (option_map wrapped) (fo_comps f))
    (fo_elem_size f) (fo_be f) (fo_alpha f) (fo_palette f).
