(** How many bytes a default frame has, in numbers. *)
From Coq Require Import List NArith.
From Verif Require Import Base AudioModel PixelModel DataSpec.
Import ListNotations.
Local Open Scope N_scope.

(** A component of a picture of [w] x [h] takes [n] bytes: [rows] rows of [s] bytes, and none
    of the numbers on the way is too large for a 64-bit word. *)
Definition plane_bytes (w h : N) (c : chromaton) (n : N) : Prop :=
  exists cw need s rows,
    h_ss c < 64 /\ w + 2 ^ h_ss c <= W64 /\ ceil_div w (2 ^ h_ss c) cw /\
    1 <= depth c /\ cw * depth c + depth c < W64 /\
    8 * need <= cw * depth c + depth c - 1 /\ cw * depth c + depth c - 1 < 8 * (need + 1) /\
    need + 32 < W64 /\ least_multiple 32 need s /\
    v_ss c < 64 /\ h + 2 ^ v_ss c <= W64 /\ ceil_div h (2 ^ v_ss c) rows /\ n = s * rows.

(** [len] samples take [s] bytes with the given alignment, and none of the numbers on the way
    is too large. *)
Definition samples_bytes (f : soniton) (len a s : N) : Prop :=
  exists need, bytes_needed f len need /\ (so_packed f = true -> len * so_bits f + 7 < W64) /\
    need + a < W64 /\ least_multiple a need s.

Definition total (l : list N) : N := fold_right N.add 0 l.
