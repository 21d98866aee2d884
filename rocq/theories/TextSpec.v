(** What the texts of the [Display] implementations say: numerals are read back as numbers,
    names are listed by code. *)
From Coq Require Import Ascii String.
From Coq Require Import List NArith ZArith Bool.
From Verif Require Import Base AudioModel PixelModel FormatModel FrameModel CodecModel.
Import ListNotations.
Local Open Scope N_scope.
(* From the models only the types of the values that are shown are used. *)

(** ** Numerals *)

(** 0-9, A-F *)
Definition digit_value (a : ascii) : option N :=
  let n := N_of_ascii a in
  if (48 <=? n) && (n <=? 57) then Some (n - 48)
  else if (65 <=? n) && (n <=? 70) then Some (n - 55) else None.

Fixpoint value_from (base acc : N) (s : string) : option N :=
  match s with
  | EmptyString => Some acc
  | String a s' =>
      match digit_value a with
      | Some d => if d <? base then value_from base (base * acc + d) s' else None
      | None => None
      end
  end.

(** [s] is the shortest numeral of [n]. *)
Definition numeral (base : N) (s : string) (n : N) : Prop :=
  value_from base 0 s = Some n /\
  match s with EmptyString => False | String a s' => a = "0"%char -> s' = EmptyString end.

(** ** Components and formats *)

Definition component_text (c : chromaton) (s : string) : Prop :=
  exists h v offs next,
    numeral 10 h (h_ss c) /\ numeral 10 v (v_ss c) /\ numeral 10 offs (comp_offs c) /\ numeral 10 next (next_elem c) /\
    if ch_packed c then
      exists mask, numeral 16 mask ((2 ^ depth c - 1) * 2 ^ shift c mod 2 ^ 32) /\
        s = ("(" ++ h ++ "x" ++ v ++ ", packed(+" ++ offs ++ "," ++ mask ++ ", step " ++ next ++ "))")%string
    else s = ("(" ++ h ++ "x" ++ v ++ ", planar(" ++ offs ++ "," ++ next ++ "))")%string.

(** Of a packed component the mask has to fit an [i32]. *)
Definition displayable (c : chromaton) : Prop := ch_packed c = false \/ depth c < 31 /\ shift c < 32.

Definition present (f : formaton) : list chromaton :=
  flat_map (fun o => match o with Some c => [c] | None => [] end) (fo_comps f).

Definition model_name (m : color_model) : string :=
  match m with
  | Trichromatic RGB => "RGB"
  | Trichromatic XYZ => "XYZ"
  | Trichromatic (YUV (YCbCr Limited)) => "YCbCr (Limited range)"
  | Trichromatic (YUV (YCbCr Full)) => "YCbCr (Full range)"
  | Trichromatic (YUV YCoCg) => "YCbCg"
  | Trichromatic (YUV ICtCp) => "ICtCp"
  | CMYK => "CMYK"
  | HSV => "HSV"
  | LAB => "LAB"
  end.

(** The texts of the components, each after a space. *)
Fixpoint spaced (l : list string) : string :=
  match l with [] => "" | s :: l' => " " ++ s ++ spaced l' end.

Definition format_text (f : formaton) (s : string) : Prop :=
  exists size texts,
    numeral 10 size (fo_elem_size f) /\ Forall2 component_text (present f) texts /\
    s = ("[Formaton for " ++ model_name (fo_model f) ++ " (" ++ (if fo_palette f then "palette " else "") ++
         (if fo_alpha f then "alpha " else "") ++ "elem " ++ (if fo_be f then "BE" else "LE") ++ " size " ++ size ++ "): " ++
         spaced texts ++ "]")%string.

(** ** Sample formats and descriptions of media *)

Definition yes_no (b : bool) : string := if b then "true" else "false".
(** With the two labels exchanged, as they are printed. *)
Definition sample_text (f : soniton) (s : string) : Prop :=
  exists bits, numeral 10 bits (so_bits f) /\
    s = ("(" ++ bits ++ " bps, " ++ (if so_be f then "BE" else "LE") ++ " planar: " ++ yes_no (so_packed f) ++ " packed: " ++
         yes_no (so_planar f) ++ " " ++ (if so_float f then "float" else if so_signed f then "int" else "uint") ++ ")")%string.

Definition media_text (k : media_kind) (s : string) : Prop :=
  exists a b,
    match k with
    | Video v => numeral 10 a (vi_width v) /\ numeral 10 b (vi_height v) /\ s = (a ++ "x" ++ b)%string
    | Audio i => numeral 10 a (ai_rate i) /\ numeral 10 b (N.of_nat (List.length (ai_map i))) /\ s = (a ++ " Hz, " ++ b ++ " ch")%string
    end.

(** ** Names *)

(** By code of ITU-T H.273; code 0 of the last two is reserved there. *)
Definition matrix_names : list (N * string) :=
  [(0, "Identity"); (1, "ITU BT.709"); (2, "Unspecified"); (3, "Reserved"); (4, "ITU BT.470M"); (5, "ITU BT.470BG");
   (6, "SMPTE ST-170M"); (7, "SMPTE ST-240M"); (8, "YCgCo"); (9, "ITU BT.2020 (Non Constant Luminance)");
   (10, "ITU BT.2020 (Constant Luminance)"); (11, "SMPTE ST-2085"); (12, "Chromaticity Derived (Non Constant Luminance)");
   (13, "Chromaticity Derived (Constant Luminance)"); (14, "ICtCp"); (15, "PQ-C2"); (16, "YCgCo-Re"); (17, "YCgCo-Ro")]%string.
Definition primaries_names : list (N * string) :=
  [(0, "Identity"); (1, "ITU BT.709"); (2, "Unspecified"); (3, "Reserved"); (4, "ITU BT.470M"); (5, "ITU BT.470BG");
   (6, "SMPTE ST-170M"); (7, "SMPTE ST-240M"); (8, "Film"); (9, "ITU BT.2020"); (10, "SMPTE ST-428"); (11, "DCI P3");
   (12, "Display P3"); (22, "EBU Tech3213")]%string.
Definition transfer_names : list (N * string) :=
  [(0, "Identity"); (1, "ITU BT.1886"); (2, "Unspecified"); (3, "Reserved"); (4, "ITU BT.470M"); (5, "ITU BT.470BG");
   (6, "SMPTE ST-170M"); (7, "SMPTE ST-240M"); (8, "Linear"); (9, "Logarithmic 100:1 range"); (10, "Logarithmic 316:1 range");
   (11, "XVYCC"); (12, "ITU BT.1361 Extended Color Gamut"); (13, "sRGB"); (14, "ITU BT.2020 for 10bit systems");
   (15, "ITU BT.2020 for 12bit systems"); (16, "Perceptual Quantizer"); (17, "SMPTE ST-428"); (18, "Hybrid Log-Gamma")]%string.
(** In the order of the declaration. *)
Definition channel_names : list string :=
  ["C"; "L"; "R"; "Cs"; "Ls"; "Rs"; "Lss"; "Rss"; "LFE"; "Lc"; "Rc"; "Lh"; "Rh"; "Ch"; "LFE2"; "Lw"; "Rw"; "Ov"; "Lhs"; "Rhs";
   "Chs"; "Ll"; "Rl"; "Cl"; "Lt"; "Rt"; "Lo"; "Ro"]%string.
Definition location_names : list (chroma_location * string) :=
  [(ClUnspecified, "Unspecified"); (ClLeft, "Left"); (ClCenter, "Center"); (ClTopLeft, "TopLeft"); (ClTop, "Top");
   (ClBottomLeft, "BottomLeft"); (ClBottom, "Bottom")]%string.
Definition frame_names : list (frame_type * string) :=
  [(FrameI, "I"); (FrameP, "P"); (FrameB, "B"); (FrameSKIP, "Skip"); (FrameOTHER, "x")]%string.

(** ** Errors *)

(** What is printed, and the parts that vary. *)
Definition codec_error_text (e : codec_error) (s : string) : Prop :=
  match e with
  | CInvalidData => s = "Invalid Data"%string
  | CMoreDataNeeded => s = "Additional data needed"%string
  | CConfigurationIncomplete => s = "Configuration Incomplete"%string
  | CConfigurationInvalid => s = "Configuration Invalid"%string
  | CUnsupported f => s = ("Unsupported feature " ++ f)%string
  end.
Definition format_error_text (e : error) (s : string) : Prop :=
  match e with
  | InvalidData => s = "Invalid Data"%string
  | MoreDataNeeded n => exists d, numeral 10 d (N.of_nat n) /\ s = (d ++ " more bytes needed")%string
  | Io _ => s = "I/O error"%string
  end.
