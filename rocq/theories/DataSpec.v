(** Vocabulary of the statements about the data crate.  Nothing here depends on how
    the functions compute. *)
From Coq Require Import String List Arith NArith Bool.
From Verif Require Import Base AudioModel PixelModel FrameModel DisplayModel.
Import ListNotations.
Local Open Scope N_scope.

(** The smallest multiple of [a] that is at least [need]. *)
Definition least_multiple (a need s : N) : Prop :=
  (exists k, s = k * a) /\ need <= s /\ forall k, need <= k * a -> s <= k * a.

(** [q] is [x / y] rounded up. *)
Definition ceil_div (x y q : N) : Prop := x <= q * y /\ (q = 0 \/ (q - 1) * y < x).

Definition power_of_two (a : N) : Prop := exists k, a = 2 ^ k.

(** The first position of [t] in [m]. *)
Definition first_position {A : Type} (m : list A) (t : A) (i : nat) : Prop :=
  nth_error m i = Some t /\ forall j, (j < i)%nat -> nth_error m j <> Some t.

(** The components that are present. *)
Fixpoint present {A : Type} (l : list (option A)) : list A :=
  match l with
  | [] => []
  | Some a :: l' => a :: present l'
  | None :: l' => present l'
  end.

(** A zeroed plane for component [c] of a picture of [w] x [h]. *)
Definition zero_plane (w h : N) (c : chromaton) (p : plane) : Prop :=
  exists stride rows, get_linesize c w ALIGNMENT = Ret stride /\ get_height c h = Ret rows /\
    pl_linesize p = stride /\ pl_buf p = repeat 0 (N.to_nat (stride * rows)).

(** Row [y] of a buffer with the given stride, as the pieces of [chunks] have it, has at
    least [w] bytes. *)
Definition row_complete (len stride w y : nat) : Prop := (w <= Nat.min stride (len - y * stride))%nat.

(** [dst'] is [dst] with a picture of [w] x [h] bytes from [src] copied over it, row by
    row; [dl] and [sl] are the strides. *)
Definition picture_copied (dst : list N) (dl : nat) (src : list N) (sl w h : nat) (dst' : list N) : Prop :=
  length dst' = length dst /\
  forall i, (i < length dst)%nat ->
    nth_error dst' i =
    (if (i mod dl <? w)%nat && (i / dl <? h)%nat then nth_error src (i / dl * sl + i mod dl) else nth_error dst i).

(** A buffer with stride [l] has room for a picture of [w] x [h] bytes; the last row need
    not be complete. *)
Definition holds (buf : list N) (l w h : nat) : Prop :=
  (0 < l)%nat /\ (h = 0%nat \/ (w <= l /\ (h - 1) * l + w <= length buf)%nat).

(** Buffer [buf] with stride [l] has room for component [c] of a [w] x [h] picture. *)
Definition room (w h : N) (c : chromaton) (buf : list N) (l : N) : Prop :=
  exists cw ch, get_width c w = Ret cw /\ get_height c h = Ret ch /\ holds buf (N.to_nat l) (N.to_nat cw) (N.to_nat ch).

(** [dst'] is [dst] with component [c] of a [w] x [h] picture copied from [src]. *)
Definition component_copied (w h : N) (c : chromaton) (dst : list N) (dl : N) (src : list N) (sl : N) (dst' : list N) : Prop :=
  exists cw ch, get_width c w = Ret cw /\ get_height c h = Ret ch /\
    picture_copied dst (N.to_nat dl) src (N.to_nat sl) (N.to_nat cw) (N.to_nat ch) dst'.

(** Component [c] of a [w] x [h] picture fits into the plane that a default frame has for
    it: the stride is not zero, and no smaller than the width of the component. *)
Definition fits (w h : N) (c : chromaton) : Prop :=
  exists s cw ch, get_linesize c w ALIGNMENT = Ret s /\ get_width c w = Ret cw /\ get_height c h = Ret ch /\
    0 < s /\ (cw <= s \/ ch = 0).

(** How a copy of a component that does not fit ends. *)
Definition misfit (w h : N) (c : chromaton) (X : Type) (o : outcome X) : Prop :=
  exists s cw ch, get_linesize c w ALIGNMENT = Ret s /\ get_width c w = Ret cw /\ get_height c h = Ret ch /\
    (s = 0 /\ o = Panic \/ 0 < s /\ s < cw /\ 0 < ch /\ o = UB).

(** The first component that does not fit decides the outcome [o]. *)
Definition first_misfit (w h : N) (cs : list chromaton) (X : Type) (o : outcome X) : Prop :=
  exists before c after, cs = before ++ c :: after /\ Forall (fits w h) before /\ misfit w h c X o.

(** The predefined formats, each with the widths for which all its components fit. *)
Definition copyable : list (formaton * (N -> Prop)) :=
  [(fmt_YUV444, fun w => 0 < w); (fmt_YUV422, fun w => 0 < w); (fmt_YUV420, fun w => 0 < w); (fmt_YUV411, fun w => 0 < w);
   (fmt_YUV410, fun w => 0 < w); (fmt_PAL8, fun w => 0 < w); (fmt_RGB24, fun w => 0 < w); (fmt_RGBA, fun w => 0 < w);
   (fmt_RGB48, fun _ => True); (fmt_RGBA64, fun _ => True);
   (fmt_YUV444_10, fun w => 8 <= w <= 32); (fmt_YUV422_10, fun w => 8 <= w <= 32); (fmt_YUV420_10, fun w => 15 <= w <= 64);
   (fmt_YUV411_10, fun w => 29 <= w <= 128); (fmt_YUV410_10, fun w => 29 <= w <= 128);
   (fmt_RGB565, fun w => 1 <= w <= 32 \/ 52 <= w <= 64)].

(** One buffer and one stride for every component, with enough room. *)
Definition rooms (w h : N) (cs : list chromaton) (bufs : list (list N)) (ls : list N) : Prop :=
  length bufs = length cs /\ length ls = length cs /\
  forall k c buf l, nth_error cs k = Some c -> nth_error bufs k = Some buf -> nth_error ls k = Some l -> room w h c buf l.

(** Bytes [x0] to [x1] of the first [h] rows of two buffers with strides [al] and [bl] are
    the same. *)
Definition same_columns (a : list N) (al : nat) (b : list N) (bl : nat) (x0 x1 h : nat) : Prop :=
  forall y x, (y < h)%nat -> (x0 <= x < x1)%nat -> nth_error a (y * al + x) = nth_error b (y * bl + x).

(** What the samples need: packed samples share bytes, others start at a byte. *)
Definition bytes_needed (f : soniton) (len need : N) : Prop :=
  if so_packed f then ceil_div (len * so_bits f) 8 need
  else exists b, ceil_div (so_bits f) 8 b /\ need = len * b.

(** A component as pixel.rs documents it: subsampling shifts below 64 and a depth. *)
Definition sane_component (c : chromaton) : Prop := h_ss c < 64 /\ v_ss c < 64 /\ 1 <= depth c < 256.

(** The bits a packed component occupies within the element: from [fst] up to [snd]. *)
Definition bit_range (c : chromaton) : N * N := (8 * comp_offs c + shift c, 8 * comp_offs c + shift c + depth c).
Definition disjoint_ranges (a b : N * N) : Prop := snd a <= fst b \/ snd b <= fst a.
Definition well_packed (f : formaton) : Prop :=
  (forall c, In c (present (fo_comps f)) -> snd (bit_range c) <= 8 * fo_elem_size f) /\
  forall i j c c', i <> j -> nth_error (present (fo_comps f)) i = Some c -> nth_error (present (fo_comps f)) j = Some c' ->
    disjoint_ranges (bit_range c) (bit_range c').

(** Published code points: ISO/IEC 23091-2 (ITU-T H.273) sections 8.1, 8.2 and 8.3. *)
Definition lookup {A : Type} (table : list (N * A)) (v : N) : option A :=
  match find (fun e => fst e =? v) table with
  | Some (_, a) => Some a
  | None => None
  end.
Definition published_primaries : list (N * primaries) :=
  [(0, CpReserved0); (1, CpBT709); (2, CpUnspecified); (3, CpReserved); (4, CpBT470M); (5, CpBT470BG); (6, CpST170M);
   (7, CpST240M); (8, CpFilm); (9, CpBT2020); (10, CpST428); (11, CpP3DCI); (12, CpP3Display); (22, CpTech3213)].
Definition published_xfer : list (N * xfer) :=
  [(0, TcReserved0); (1, TcBT1886); (2, TcUnspecified); (3, TcReserved); (4, TcBT470M); (5, TcBT470BG); (6, TcST170M);
   (7, TcST240M); (8, TcLinear); (9, TcLogarithmic100); (10, TcLogarithmic316); (11, TcXVYCC); (12, TcBT1361E);
   (13, TcSRGB); (14, TcBT2020Ten); (15, TcBT2020Twelve); (16, TcPerceptualQuantizer); (17, TcST428); (18, TcHybridLogGamma)].
Definition published_matrix : list (N * matrix) :=
  [(0, McIdentity); (1, McBT709); (2, McUnspecified); (3, McReserved); (4, McBT470M); (5, McBT470BG); (6, McST170M);
   (7, McST240M); (8, McYCgCo); (9, McBT2020NonConstantLuminance); (10, McBT2020ConstantLuminance); (11, McST2085);
   (12, McChromaticityDerivedNonConstantLuminance); (13, McChromaticityDerivedConstantLuminance); (14, McICtCp);
   (15, McPqC2); (16, McYCgCoRe); (17, McYCgCoRo)].

(** The text that the [Display] of a sample format is meant to print: every flag after its
    label. *)
Definition intended_text (s : soniton) : string :=
  ("(" ++ dec (so_bits s) ++ " bps, " ++ (if so_be s then "BE" else "LE") ++ " planar: " ++ show_bool (so_planar s) ++
   " packed: " ++ show_bool (so_packed s) ++ " " ++ (if so_float s then "float" else if so_signed s then "int" else "uint") ++ ")")%string.
