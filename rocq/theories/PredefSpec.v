(** What the names of the predefined formats say. *)
From Coq Require Import List NArith Bool.
From Verif Require Import Base AudioModel PixelModel DataSpec.
Import ListNotations.
Local Open Scope N_scope.

(** No colour description, little endian. *)
Definition undescribed (f : formaton) : Prop :=
  fo_primaries f = CpUnspecified /\ fo_xfer f = TcUnspecified /\ fo_matrix f = McUnspecified /\ fo_location f = ClUnspecified /\ fo_be f = false.

(** One full plane for luma, of [bits] bits per sample, and two planes for chroma; of these
    only the subsampling [(h, v)], the depths and the offsets are left open. *)
Definition planar_ycbcr (f : formaton) (bits h v : N) (chroma : list (N * N)) : Prop :=
  undescribed f /\ fo_model f = Trichromatic (YUV (YCbCr Limited)) /\ fo_components f = 3 /\ fo_elem_size f = 0 /\
  fo_alpha f = false /\ fo_palette f = false /\
  (forall c, In c (present (fo_comps f)) -> ch_packed c = false /\ shift c = 0 /\ next_elem c = 1) /\
  map (fun c => (h_ss c, v_ss c)) (present (fo_comps f)) = [(0, 0); (h, v); (h, v)] /\
  map (fun c => (depth c, comp_offs c)) (present (fo_comps f)) = (bits, 0) :: chroma /\
  length (fo_comps f) = 5%nat.

(** The components lie within one element of [size] bytes; [parts] has depth, shift and
    offset of each. *)
Definition packed_rgb (f : formaton) (size : N) (alpha palette : bool) (parts : list (N * N * N)) : Prop :=
  undescribed f /\ fo_model f = Trichromatic RGB /\ fo_components f = N.of_nat (length parts) /\ fo_elem_size f = size /\
  fo_alpha f = alpha /\ fo_palette f = palette /\
  (forall c, In c (present (fo_comps f)) -> ch_packed c = true /\ h_ss c = 0 /\ v_ss c = 0 /\ next_elem c = size) /\
  map (fun c => (depth c, shift c, comp_offs c)) (present (fo_comps f)) = parts /\
  length (fo_comps f) = 5%nat.

(** Interleaved little endian samples. *)
Definition samples (f : soniton) (bits : N) (float signed : bool) : Prop :=
  so_bits f = bits /\ so_float f = float /\ so_signed f = signed /\ so_be f = false /\ so_packed f = false /\ so_planar f = false.
