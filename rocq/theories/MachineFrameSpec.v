(** How many bytes a default frame has, in numbers of any width.  With 64 bits these are
    [plane_bytes] and [samples_bytes] of [FrameSizeSpec]. *)
From Coq Require Import List NArith.
From Verif Require Import Base AudioModel PixelModel DataSpec.
Import ListNotations.
Local Open Scope N_scope.

Definition plane_bytes_on (b w h : N) (c : chromaton) (n : N) : Prop :=
  exists cw need s rows,
    h_ss c < b /\ w + 2 ^ h_ss c <= 2 ^ b /\ ceil_div w (2 ^ h_ss c) cw /\
    1 <= depth c /\ cw * depth c + depth c < 2 ^ b /\
    8 * need <= cw * depth c + depth c - 1 /\ cw * depth c + depth c - 1 < 8 * (need + 1) /\
    need + 32 < 2 ^ b /\ least_multiple 32 need s /\
    v_ss c < b /\ h + 2 ^ v_ss c <= 2 ^ b /\ ceil_div h (2 ^ v_ss c) rows /\ n = s * rows.

Definition samples_bytes_on (b : N) (f : soniton) (len a s : N) : Prop :=
  exists need, bytes_needed f len need /\ (so_packed f = true -> len * so_bits f + 7 < 2 ^ b) /\
    need + a < 2 ^ b /\ least_multiple a need s.
