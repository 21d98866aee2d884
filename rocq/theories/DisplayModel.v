(** Model of the [Display] implementations of audiosample.rs, pixel.rs and frame.rs: the
    text that is written. *)
From Coq Require Import List NArith ZArith Bool String Ascii DecimalString.
From Verif Require Import Base AudioModel PixelModel FrameModel.
Import ListNotations.
Local Open Scope string_scope.

(** [{}] of an unsigned number and of a [bool]. *)
Definition dec (n : N) : string := NilEmpty.string_of_uint (N.to_uint n).
Definition show_bool (b : bool) : string := if b then "true" else "false".

(** [{:X}] of an [i32]: its 32 bits in upper-case hexadecimal. *)
Definition hex_digit (n : N) : string :=
  match n with
  | 0%N => "0" | 1%N => "1" | 2%N => "2" | 3%N => "3" | 4%N => "4" | 5%N => "5" | 6%N => "6" | 7%N => "7"
  | 8%N => "8" | 9%N => "9" | 10%N => "A" | 11%N => "B" | 12%N => "C" | 13%N => "D" | 14%N => "E" | _ => "F"
  end.
Fixpoint hex_fuel (fuel : nat) (n : N) : string :=
  match fuel with
  | O => ""
  | S f => if (n <? 16)%N then hex_digit n else hex_fuel f (n / 16)%N ++ hex_digit (n mod 16)%N
  end.
Definition hex32 (z : Z) : string := hex_fuel 8 (as_unsigned 32 z).

(** [Display for Soniton], audiosample.rs:63-79. *)
Definition show_soniton (s : soniton) : string :=
  let fmt := if so_float s then "float" else if so_signed s then "int" else "uint" in
  let endian := if so_be s then "BE" else "LE" in
  "(" ++ dec (so_bits s) ++ " bps, " ++ endian ++ " planar: " ++ show_bool (so_packed s) ++ " packed: " ++ show_bool (so_planar s) ++ " " ++ fmt ++ ")".

(** [Display for ChannelType], audiosample.rs:201-235. *)
Definition show_channel (c : channel) : string :=
  match c with
  | ChC => "C"
  | ChL => "L"
  | ChR => "R"
  | ChCs => "Cs"
  | ChLs => "Ls"
  | ChRs => "Rs"
  | ChLss => "Lss"
  | ChRss => "Rss"
  | ChLFE => "LFE"
  | ChLc => "Lc"
  | ChRc => "Rc"
  | ChLh => "Lh"
  | ChRh => "Rh"
  | ChCh => "Ch"
  | ChLFE2 => "LFE2"
  | ChLw => "Lw"
  | ChRw => "Rw"
  | ChOv => "Ov"
  | ChLhs => "Lhs"
  | ChRhs => "Rhs"
  | ChChs => "Chs"
  | ChLl => "Ll"
  | ChRl => "Rl"
  | ChCl => "Cl"
  | ChLt => "Lt"
  | ChRt => "Rt"
  | ChLo => "Lo"
  | ChRo => "Ro"
  end.

(** [Display for MatrixCoefficients], pixel.rs:167-198. *)
Definition show_matrix (c : matrix) : string :=
  match c with
  | McIdentity => "Identity"
  | McBT709 => "ITU BT.709"
  | McUnspecified => "Unspecified"
  | McReserved => "Reserved"
  | McBT470M => "ITU BT.470M"
  | McBT470BG => "ITU BT.470BG"
  | McST170M => "SMPTE ST-170M"
  | McST240M => "SMPTE ST-240M"
  | McYCgCo => "YCgCo"
  | McBT2020NonConstantLuminance => "ITU BT.2020 (Non Constant Luminance)"
  | McBT2020ConstantLuminance => "ITU BT.2020 (Constant Luminance)"
  | McST2085 => "SMPTE ST-2085"
  | McChromaticityDerivedNonConstantLuminance => "Chromaticity Derived (Non Constant Luminance)"
  | McChromaticityDerivedConstantLuminance => "Chromaticity Derived (Constant Luminance)"
  | McICtCp => "ICtCp"
  | McPqC2 => "PQ-C2"
  | McYCgCoRe => "YCgCo-Re"
  | McYCgCoRo => "YCgCo-Ro"
  end.

(** [Display for ColorPrimaries], pixel.rs:289-308. *)
Definition show_primaries (c : primaries) : string :=
  match c with
  | CpReserved0 => "Identity"
  | CpBT709 => "ITU BT.709"
  | CpUnspecified => "Unspecified"
  | CpReserved => "Reserved"
  | CpBT470M => "ITU BT.470M"
  | CpBT470BG => "ITU BT.470BG"
  | CpST170M => "SMPTE ST-170M"
  | CpST240M => "SMPTE ST-240M"
  | CpFilm => "Film"
  | CpBT2020 => "ITU BT.2020"
  | CpST428 => "SMPTE ST-428"
  | CpP3DCI => "DCI P3"
  | CpP3Display => "Display P3"
  | CpTech3213 => "EBU Tech3213"
  end.

(** [Display for TransferCharacteristic], pixel.rs:400-424. *)
Definition show_xfer (c : xfer) : string :=
  match c with
  | TcReserved0 => "Identity"
  | TcBT1886 => "ITU BT.1886"
  | TcUnspecified => "Unspecified"
  | TcReserved => "Reserved"
  | TcBT470M => "ITU BT.470M"
  | TcBT470BG => "ITU BT.470BG"
  | TcST170M => "SMPTE ST-170M"
  | TcST240M => "SMPTE ST-240M"
  | TcLinear => "Linear"
  | TcLogarithmic100 => "Logarithmic 100:1 range"
  | TcLogarithmic316 => "Logarithmic 316:1 range"
  | TcXVYCC => "XVYCC"
  | TcBT1361E => "ITU BT.1361 Extended Color Gamut"
  | TcSRGB => "sRGB"
  | TcBT2020Ten => "ITU BT.2020 for 10bit systems"
  | TcBT2020Twelve => "ITU BT.2020 for 12bit systems"
  | TcPerceptualQuantizer => "Perceptual Quantizer"
  | TcST428 => "SMPTE ST-428"
  | TcHybridLogGamma => "Hybrid Log-Gamma"
  end.

(** [Display for ChromaLocation], pixel.rs:443-456. *)
Definition show_chroma_location (c : chroma_location) : string :=
  match c with
  | ClUnspecified => "Unspecified"
  | ClLeft => "Left"
  | ClCenter => "Center"
  | ClTopLeft => "TopLeft"
  | ClTop => "Top"
  | ClBottomLeft => "BottomLeft"
  | ClBottom => "Bottom"
  end.

(** [Display for YUVRange], [YUVSystem], [TrichromaticEncodingSystem] and [ColorModel],
    pixel.rs:23-30, 477-486, 503-512 and 534-543. *)
Definition show_range (r : yuv_range) : string :=
  match r with
  | Limited => "Limited range"
  | Full => "Full range"
  end.
Definition show_system (s : yuv_system) : string :=
  match s with
  | YCbCr r => "YCbCr (" ++ show_range r ++ ")"
  | YCoCg => "YCbCg"
  | ICtCp => "ICtCp"
  end.
Definition show_trichromatic (t : trichromatic) : string :=
  match t with
  | YUV s => show_system s
  | RGB => "RGB"
  | XYZ => "XYZ"
  end.
Definition show_model (m : color_model) : string :=
  match m with
  | Trichromatic t => show_trichromatic t
  | CMYK => "CMYK"
  | HSV => "HSV"
  | LAB => "LAB"
  end.

(** [a << n] and [a - b] on [i32], the default type of the literals at pixel.rs:682. *)
Definition ishl32 (a : Z) (n : N) : outcome Z :=
  if (n <? 32)%N then Ret (as_signed 32 (as_unsigned 32 (a * 2 ^ Z.of_N n))) else Panic.
Definition isub32 (a b : Z) : outcome Z :=
  if ((- 2 ^ 31 <=? a - b) && (a - b <? 2 ^ 31))%Z then Ret (a - b)%Z else Panic.

(** [Display for Chromaton], pixel.rs:679-692. *)
Definition show_chromaton (c : chromaton) : outcome string :=
  let! pfmt :=
    (if ch_packed c then
       let! one := ishl32 1 (depth c) in
       let! m := isub32 one 1 in
       let! mask := ishl32 m (shift c) in
       Ret ("packed(+" ++ dec (comp_offs c) ++ "," ++ hex32 mask ++ ", step " ++ dec (next_elem c) ++ ")")
     else Ret ("planar(" ++ dec (comp_offs c) ++ "," ++ dec (next_elem c) ++ ")")) in
  Ret ("(" ++ dec (h_ss c) ++ "x" ++ dec (v_ss c) ++ ", " ++ pfmt ++ ")").

(** [Display for Formaton], pixel.rs:890-906. *)
Fixpoint show_comps (str : string) (l : list (option chromaton)) : outcome string :=
  match l with
  | [] => Ret str
  | None :: l' => show_comps str l'
  | Some c :: l' => let! s := show_chromaton c in show_comps (str ++ " " ++ s) l'
  end.
Definition show_formaton (f : formaton) : outcome string :=
  let endian := if fo_be f then "BE" else "LE" in
  let palstr := if fo_palette f then "palette " else "" in
  let astr := if fo_alpha f then "alpha " else "" in
  let str := "Formaton for " ++ show_model (fo_model f) ++ " (" ++ palstr ++ astr ++ "elem " ++ endian ++ " size " ++ dec (fo_elem_size f) ++ "): " in
  let! str := show_comps str (fo_comps f) in
  Ret ("[" ++ str ++ "]").

(** [Display for FrameType], [VideoInfo], [AudioInfo] and [MediaKind], frame.rs:59-69,
    150-154, 224-233 and 279-287. *)
Definition show_frame_type (t : frame_type) : string :=
  match t with
  | FrameI => "I"
  | FrameP => "P"
  | FrameB => "B"
  | FrameSKIP => "Skip"
  | FrameOTHER => "x"
  end.
Definition show_video (v : video_info) : string := dec (vi_width v) ++ "x" ++ dec (vi_height v).
Definition show_audio (a : audio_info) : string := dec (ai_rate a) ++ " Hz, " ++ dec (map_len (ai_map a)) ++ " ch".
Definition show_media (k : media_kind) : string :=
  match k with
  | Audio a => show_audio a
  | Video v => show_video v
  end.
