(** Model of data/src/pixel.rs (pixel formats), except the Display implementations,
    which are in DisplayModel.v. *)
From Coq Require Import List Arith NArith Bool.
From Verif Require Import Base AudioModel.
Import ListNotations.
Local Open Scope N_scope.

(** [YUVRange], pixel.rs:16-21. *)
Inductive yuv_range := Limited | Full.

(** [MatrixCoefficients], pixel.rs:42-165, with its discriminants in [matrix_code]. *)
Inductive matrix :=
| McIdentity
| McBT709
| McUnspecified
| McReserved
| McBT470M
| McBT470BG
| McST170M
| McST240M
| McYCgCo
| McBT2020NonConstantLuminance
| McBT2020ConstantLuminance
| McST2085
| McChromaticityDerivedNonConstantLuminance
| McChromaticityDerivedConstantLuminance
| McICtCp
| McPqC2
| McYCgCoRe
| McYCgCoRo.
Definition matrix_code (c : matrix) : N :=
  match c with
  | McIdentity => 0
  | McBT709 => 1
  | McUnspecified => 2
  | McReserved => 3
  | McBT470M => 4
  | McBT470BG => 5
  | McST170M => 6
  | McST240M => 7
  | McYCgCo => 8
  | McBT2020NonConstantLuminance => 9
  | McBT2020ConstantLuminance => 10
  | McST2085 => 11
  | McChromaticityDerivedNonConstantLuminance => 12
  | McChromaticityDerivedConstantLuminance => 13
  | McICtCp => 14
  | McPqC2 => 15
  | McYCgCoRe => 16
  | McYCgCoRo => 17
  end.
Definition matrix_all : list matrix :=
  [McIdentity; McBT709; McUnspecified; McReserved; McBT470M; McBT470BG; McST170M; McST240M; McYCgCo; McBT2020NonConstantLuminance; McBT2020ConstantLuminance; McST2085; McChromaticityDerivedNonConstantLuminance; McChromaticityDerivedConstantLuminance; McICtCp; McPqC2; McYCgCoRe; McYCgCoRo].

(** [ColorPrimaries], pixel.rs:213-287, with its discriminants in [primaries_code]. *)
Inductive primaries :=
| CpReserved0
| CpBT709
| CpUnspecified
| CpReserved
| CpBT470M
| CpBT470BG
| CpST170M
| CpST240M
| CpFilm
| CpBT2020
| CpST428
| CpP3DCI
| CpP3Display
| CpTech3213.
Definition primaries_code (c : primaries) : N :=
  match c with
  | CpReserved0 => 0
  | CpBT709 => 1
  | CpUnspecified => 2
  | CpReserved => 3
  | CpBT470M => 4
  | CpBT470BG => 5
  | CpST170M => 6
  | CpST240M => 7
  | CpFilm => 8
  | CpBT2020 => 9
  | CpST428 => 10
  | CpP3DCI => 11
  | CpP3Display => 12
  | CpTech3213 => 22
  end.
Definition primaries_all : list primaries :=
  [CpReserved0; CpBT709; CpUnspecified; CpReserved; CpBT470M; CpBT470BG; CpST170M; CpST240M; CpFilm; CpBT2020; CpST428; CpP3DCI; CpP3Display; CpTech3213].

(** [TransferCharacteristic], pixel.rs:319-398, with its discriminants in [xfer_code]. *)
Inductive xfer :=
| TcReserved0
| TcBT1886
| TcUnspecified
| TcReserved
| TcBT470M
| TcBT470BG
| TcST170M
| TcST240M
| TcLinear
| TcLogarithmic100
| TcLogarithmic316
| TcXVYCC
| TcBT1361E
| TcSRGB
| TcBT2020Ten
| TcBT2020Twelve
| TcPerceptualQuantizer
| TcST428
| TcHybridLogGamma.
Definition xfer_code (c : xfer) : N :=
  match c with
  | TcReserved0 => 0
  | TcBT1886 => 1
  | TcUnspecified => 2
  | TcReserved => 3
  | TcBT470M => 4
  | TcBT470BG => 5
  | TcST170M => 6
  | TcST240M => 7
  | TcLinear => 8
  | TcLogarithmic100 => 9
  | TcLogarithmic316 => 10
  | TcXVYCC => 11
  | TcBT1361E => 12
  | TcSRGB => 13
  | TcBT2020Ten => 14
  | TcBT2020Twelve => 15
  | TcPerceptualQuantizer => 16
  | TcST428 => 17
  | TcHybridLogGamma => 18
  end.
Definition xfer_all : list xfer :=
  [TcReserved0; TcBT1886; TcUnspecified; TcReserved; TcBT470M; TcBT470BG; TcST170M; TcST240M; TcLinear; TcLogarithmic100; TcLogarithmic316; TcXVYCC; TcBT1361E; TcSRGB; TcBT2020Ten; TcBT2020Twelve; TcPerceptualQuantizer; TcST428; TcHybridLogGamma].

(** [FromPrimitive::from_u32] as num_derive generates it: [n] is compared with the
    discriminant of one variant after the other, in declaration order. *)
Definition from_code {A : Type} (code : A -> N) (all : list A) (n : N) : option A :=
  find (fun c => n =? code c) all.
Definition matrix_from_u32 : N -> option matrix := from_code matrix_code matrix_all.
Definition primaries_from_u32 : N -> option primaries := from_code primaries_code primaries_all.
Definition xfer_from_u32 : N -> option xfer := from_code xfer_code xfer_all.

(** [ToPrimitive::to_u32] as num_derive generates it. *)
Definition matrix_to_u32 (c : matrix) : option N := Some (matrix_code c).
Definition primaries_to_u32 (c : primaries) : option N := Some (primaries_code c).
Definition xfer_to_u32 (c : xfer) : option N := Some (xfer_code c).

(** [ChromaLocation], pixel.rs:433-441. *)
Inductive chroma_location := ClUnspecified | ClLeft | ClCenter | ClTopLeft | ClTop | ClBottomLeft | ClBottom.

(** [YUVSystem], pixel.rs:461-475. *)
Inductive yuv_system := YCbCr (r : yuv_range) | YCoCg | ICtCp.

(** [TrichromaticEncodingSystem], pixel.rs:491-501. *)
Inductive trichromatic := RGB | YUV (s : yuv_system) | XYZ.

(** [ColorModel], pixel.rs:517-532. *)
Inductive color_model := Trichromatic (t : trichromatic) | CMYK | HSV | LAB.

(** [ColorModel::get_default_components], pixel.rs:547-552. *)
Definition get_default_components (m : color_model) : N :=
  match m with
  | CMYK => 4
  | _ => 3
  end.

(** [Chromaton], pixel.rs:560-577; all numbers are [u8]. *)
Record chromaton := mk_chromaton {
  h_ss : N;
  v_ss : N;
  ch_packed : bool;
  depth : N;
  shift : N;
  comp_offs : N;
  next_elem : N
}.

(** Constructors, pixel.rs:585-623. *)
Definition yuv8 (h v offs : N) : chromaton := mk_chromaton h v false 8 0 offs 1.
Definition yuvhb (h v d offs : N) : chromaton := mk_chromaton h v false d 0 offs 1.
Definition packrgb (d sh offs next : N) : chromaton := mk_chromaton 0 0 true d sh offs next.
Definition pal8 (offs : N) : chromaton := mk_chromaton 0 0 true 8 0 offs 3.

(** [(x + ((1 << ss) - 1)) >> ss], pixel.rs:657, 662 and 674. *)
Definition sub_size (x ss : N) : outcome N :=
  let! one := ushl 1 ss in
  let! m := usub one 1 in
  let! s := uadd x m in
  ushr s ss.

(** [Chromaton::get_width], pixel.rs:656-658. *)
Definition get_width (c : chromaton) (width : N) : outcome N := sub_size width (h_ss c).

(** [Chromaton::get_height], pixel.rs:661-663. *)
Definition get_height (c : chromaton) (height : N) : outcome N := sub_size height (v_ss c).

(** [Chromaton::get_linesize], pixel.rs:666-669. *)
Definition get_linesize (c : chromaton) (width alignment : N) : outcome N :=
  let d := depth c in
  let! w := get_width c width in
  let! b := umul w d in
  let! s := uadd b d in
  let! t := usub s 1 in
  align (N.shiftr t 3) alignment.

(** [Chromaton::get_data_size], pixel.rs:673-676. *)
Definition get_data_size (c : chromaton) (width height alignment : N) : outcome N :=
  let! nh := sub_size height (v_ss c) in
  let! l := get_linesize c width alignment in
  umul l nh.

(** [Formaton], pixel.rs:701-725. [fo_comps] is an array of five. *)
Record formaton := mk_formaton {
  fo_model : color_model;
  fo_primaries : primaries;
  fo_xfer : xfer;
  fo_matrix : matrix;
  fo_location : chroma_location;
  fo_components : N;
  fo_comps : list (option chromaton);
  fo_elem_size : N;
  fo_be : bool;
  fo_alpha : bool;
  fo_palette : bool
}.

(** The loop of [Formaton::new], pixel.rs:743-745: [c[i] = Some( *v )]. *)
Fixpoint fill_comps (c : list (option chromaton)) (i : nat) (l : list chromaton) : outcome (list (option chromaton)) :=
  match l with
  | [] => Ret c
  | v :: l' => let! c' := store c i (Some v) in fill_comps c' (S i) l'
  end.

(** [Formaton::new], pixel.rs:729-762. *)
Definition formaton_new (model : color_model) (components : list chromaton) (elem_size : N) (be alpha palette : bool) : outcome formaton :=
  if (5 <? length components)%nat then Panic
  else
    let! c := fill_comps (repeat None 5) 0 components in
    Ret (mk_formaton model CpUnspecified TcUnspecified McUnspecified ClUnspecified
           (N.of_nat (length components) mod 256) c elem_size be alpha palette).

(** [Formaton::get_total_depth], pixel.rs:775-781: [u8] additions. *)
Fixpoint add_depths (acc : N) (l : list (option chromaton)) : outcome N :=
  match l with
  | [] => Ret acc
  | None :: l' => add_depths acc l'
  | Some c :: l' => if acc + depth c <? 256 then add_depths (acc + depth c) l' else Panic
  end.
Definition get_total_depth (f : formaton) : outcome N := add_depths 0 (fo_comps f).

(** Calling a method that takes [mut self] by value on a [Copy] type: the method works
    on a copy, which is dropped; the variable of the caller keeps its value. *)
Definition call_by_value {S A : Type} (method : S -> S * A) (self : S) : S * A :=
  let '(_, r) := method self in (self, r).

Definition with_primaries (f : formaton) (p : primaries) : formaton :=
  mk_formaton (fo_model f) p (fo_xfer f) (fo_matrix f) (fo_location f) (fo_components f) (fo_comps f) (fo_elem_size f) (fo_be f) (fo_alpha f) (fo_palette f).
Definition with_xfer (f : formaton) (x : xfer) : formaton :=
  mk_formaton (fo_model f) (fo_primaries f) x (fo_matrix f) (fo_location f) (fo_components f) (fo_comps f) (fo_elem_size f) (fo_be f) (fo_alpha f) (fo_palette f).
Definition with_matrix (f : formaton) (m : matrix) : formaton :=
  mk_formaton (fo_model f) (fo_primaries f) (fo_xfer f) m (fo_location f) (fo_components f) (fo_comps f) (fo_elem_size f) (fo_be f) (fo_alpha f) (fo_palette f).

(** [Formaton::set_primaries], [set_primaries_from_u32], pixel.rs:784-795. *)
Definition set_primaries (f : formaton) (p : primaries) : formaton * unit :=
  call_by_value (fun self => (with_primaries self p, tt)) f.
Definition set_primaries_from_u32 (f : formaton) (v : N) : formaton * option primaries :=
  call_by_value (fun self => match primaries_from_u32 v with
                             | Some p => (with_primaries self p, Some p)
                             | None => (self, None)
                             end) f.

(** [Formaton::set_xfer], [set_xfer_from_u32], pixel.rs:803-814. *)
Definition set_xfer (f : formaton) (x : xfer) : formaton * unit :=
  call_by_value (fun self => (with_xfer self x, tt)) f.
Definition set_xfer_from_u32 (f : formaton) (v : N) : formaton * option xfer :=
  call_by_value (fun self => match xfer_from_u32 v with
                             | Some p => (with_xfer self p, Some p)
                             | None => (self, None)
                             end) f.

(** [Formaton::set_matrix], [set_matrix_from_u32], pixel.rs:822-833. *)
Definition set_matrix (f : formaton) (m : matrix) : formaton * unit :=
  call_by_value (fun self => (with_matrix self m, tt)) f.
Definition set_matrix_from_u32 (f : formaton) (v : N) : formaton * option matrix :=
  call_by_value (fun self => match matrix_from_u32 v with
                             | Some p => (with_matrix self p, Some p)
                             | None => (self, None)
                             end) f.

(** [Formaton::get_num_comp], pixel.rs:836-838. *)
Definition get_num_comp (f : formaton) : N := fo_components f.

(** [Formaton::get_chromaton], pixel.rs:840-845. *)
Definition get_chromaton (f : formaton) (idx : nat) : outcome (option chromaton) :=
  if (idx <? length (fo_comps f))%nat then index_at (fo_comps f) idx else Ret None.

(** Predefined formats, pixel.rs:920-1253. *)
Definition plain_format (m : trichromatic) (n : N) (comps : list (option chromaton)) (elem_size : N) (alpha palette : bool) : formaton :=
  mk_formaton (Trichromatic m) CpUnspecified TcUnspecified McUnspecified ClUnspecified n comps elem_size false alpha palette.
Definition fmt_YUV444 : formaton := plain_format (YUV (YCbCr Limited)) 3 [Some (mk_chromaton 0 0 false 8 0 0 1); Some (yuv8 0 0 1); Some (yuv8 0 0 2); None; None] 0 false false.
Definition fmt_YUV422 : formaton := plain_format (YUV (YCbCr Limited)) 3 [Some (mk_chromaton 0 0 false 8 0 0 1); Some (yuv8 0 1 1); Some (yuv8 0 1 2); None; None] 0 false false.
Definition fmt_YUV420 : formaton := plain_format (YUV (YCbCr Limited)) 3 [Some (mk_chromaton 0 0 false 8 0 0 1); Some (yuv8 1 1 1); Some (yuv8 1 1 2); None; None] 0 false false.
Definition fmt_YUV411 : formaton := plain_format (YUV (YCbCr Limited)) 3 [Some (mk_chromaton 0 0 false 8 0 0 1); Some (yuv8 2 0 1); Some (yuv8 2 0 2); None; None] 0 false false.
Definition fmt_YUV410 : formaton := plain_format (YUV (YCbCr Limited)) 3 [Some (mk_chromaton 0 0 false 8 0 0 1); Some (yuv8 2 1 1); Some (yuv8 2 1 2); None; None] 0 false false.
Definition fmt_YUV444_10 : formaton := plain_format (YUV (YCbCr Limited)) 3 [Some (mk_chromaton 0 0 false 10 0 0 1); Some (yuvhb 0 0 1 10); Some (yuvhb 0 0 2 10); None; None] 0 false false.
Definition fmt_YUV422_10 : formaton := plain_format (YUV (YCbCr Limited)) 3 [Some (mk_chromaton 0 0 false 10 0 0 1); Some (yuvhb 0 1 1 10); Some (yuvhb 0 1 2 10); None; None] 0 false false.
Definition fmt_YUV420_10 : formaton := plain_format (YUV (YCbCr Limited)) 3 [Some (mk_chromaton 0 0 false 10 0 0 1); Some (yuvhb 1 1 1 10); Some (yuvhb 1 1 2 10); None; None] 0 false false.
Definition fmt_YUV411_10 : formaton := plain_format (YUV (YCbCr Limited)) 3 [Some (mk_chromaton 0 0 false 10 0 0 1); Some (yuvhb 2 0 1 10); Some (yuvhb 2 0 2 10); None; None] 0 false false.
Definition fmt_YUV410_10 : formaton := plain_format (YUV (YCbCr Limited)) 3 [Some (mk_chromaton 0 0 false 10 0 0 1); Some (yuvhb 2 1 1 10); Some (yuvhb 2 1 2 10); None; None] 0 false false.
Definition fmt_PAL8 : formaton := plain_format RGB 3 [Some (pal8 0); Some (pal8 1); Some (pal8 2); None; None] 3 false true.
Definition fmt_RGB565 : formaton := plain_format RGB 3 [Some (packrgb 5 11 0 2); Some (packrgb 6 5 0 2); Some (packrgb 5 0 0 2); None; None] 2 false false.
Definition fmt_RGB24 : formaton := plain_format RGB 3 [Some (packrgb 8 0 2 3); Some (packrgb 8 0 1 3); Some (packrgb 8 0 0 3); None; None] 3 false false.
Definition fmt_RGBA : formaton := plain_format RGB 4 [Some (packrgb 8 0 3 4); Some (packrgb 8 0 2 4); Some (packrgb 8 0 1 4); Some (packrgb 8 0 0 4); None] 4 true false.
Definition fmt_RGB48 : formaton := plain_format RGB 3 [Some (packrgb 16 0 2 6); Some (packrgb 16 0 1 6); Some (packrgb 16 0 0 6); None; None] 6 false false.
Definition fmt_RGBA64 : formaton := plain_format RGB 4 [Some (packrgb 16 0 3 8); Some (packrgb 16 0 2 8); Some (packrgb 16 0 1 8); Some (packrgb 16 0 0 8); None] 8 true false.
