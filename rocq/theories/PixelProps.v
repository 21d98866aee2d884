(** C49-C51, C59, C60, C66, C72-C76: pixel formats. *)
From Coq Require Import String List Arith NArith Bool Lia.
From Verif Require Import Base AudioModel PixelModel FrameModel DisplayModel DataSpec DataProofs DisplayProofs PixelMain.
Import ListNotations.
Local Open Scope N_scope.

(** C49: what is returned is the size divided by the subsampling, rounded up, and it is
    returned unless the sum overflows. *)
Theorem C49_component_size : forall c x,
  (forall r, get_width c x = Ret r -> ceil_div x (2 ^ h_ss c) r) /\
  (forall r, get_height c x = Ret r -> ceil_div x (2 ^ v_ss c) r) /\
  (h_ss c < 64 -> x + (2 ^ h_ss c - 1) < W64 -> exists r, get_width c x = Ret r) /\
  (v_ss c < 64 -> x + (2 ^ v_ss c - 1) < W64 -> exists r, get_height c x = Ret r).
Proof. exact c49_component_size. Qed.
Print Assumptions C49_component_size.

(** Exactly: the size that is returned, and when it is. *)
Theorem C49_component_exact : forall c x r,
  (get_width c x = Ret r <-> h_ss c < 64 /\ x + 2 ^ h_ss c <= W64 /\ ceil_div x (2 ^ h_ss c) r) /\
  (get_height c x = Ret r <-> v_ss c < 64 /\ x + 2 ^ v_ss c <= W64 /\ ceil_div x (2 ^ v_ss c) r).
Proof. exact c49_component_exact. Qed.
Print Assumptions C49_component_exact.

Example C49_example : get_width (yuv8 2 1 1) 1921 = Ret 481 /\ get_height (yuv8 2 1 1) 1081 = Ret 541 /\ ceil_div 1921 4 481.
Proof. split; [reflexivity|]. split; [reflexivity|]. split; [discriminate|right; reflexivity]. Qed.

(** C50 is false: the red component of RGB565 with 103 pixels needs 515 bits and gets
    512. *)
Theorem C50_stride_refuted :
  exists c w cw s, In (Some c) (fo_comps fmt_RGB565) /\ get_width c w = Ret cw /\ get_linesize c w 32 = Ret s /\ 8 * s < cw * depth c.
Proof. exact c50_stride_refuted. Qed.
Print Assumptions C50_stride_refuted.

(** It holds for depths from 8 on; below, at most [8 - depth] bits are missing. *)
Theorem C50_stride_partial : forall c w a s, power_of_two a -> get_linesize c w a = Ret s ->
  exists cw, get_width c w = Ret cw /\ (exists k, s = k * a) /\
    (8 <= depth c -> cw * depth c <= 8 * s) /\ cw * depth c <= 8 * s + (8 - depth c).
Proof. exact c50_stride_partial. Qed.
Print Assumptions C50_stride_partial.

(** The data size is the stride times the height. *)
Theorem C50_data_size : forall c w h a n, get_data_size c w h a = Ret n ->
  exists s ch, get_linesize c w a = Ret s /\ get_height c h = Ret ch /\ n = s * ch.
Proof. exact data_size_inv. Qed.
Print Assumptions C50_data_size.

Example C50_example : get_linesize (yuv8 1 1 1) 1921 32 = Ret 992 /\ get_data_size (yuv8 1 1 1) 1921 1081 32 = Ret (992 * 541).
Proof. split; vm_compute; reflexivity. Qed.

(** C51 is false: the chroma components of every predefined 10-bit format have depth 1
    and 2 and offset 10. *)
Theorem C51_ten_bit_refuted : forall f, In f [fmt_YUV444_10; fmt_YUV422_10; fmt_YUV420_10; fmt_YUV411_10; fmt_YUV410_10] ->
  exists i c, nth_error (fo_comps f) i = Some (Some c) /\ depth c <> 10 /\ comp_offs c <> N.of_nat i.
Proof. exact c51_ten_bit_refuted. Qed.
Print Assumptions C51_ten_bit_refuted.

(** The luma components are right, and so are all components of the 8-bit formats. *)
Theorem C51_ten_bit_partial :
  (forall f, In f [fmt_YUV444_10; fmt_YUV422_10; fmt_YUV420_10; fmt_YUV411_10; fmt_YUV410_10] ->
    exists c, nth_error (fo_comps f) 0 = Some (Some c) /\ depth c = 10 /\ comp_offs c = 0) /\
  (forall f, In f [fmt_YUV444; fmt_YUV422; fmt_YUV420; fmt_YUV411; fmt_YUV410] -> forall i c, nth_error (fo_comps f) i = Some (Some c) ->
    depth c = 8 /\ comp_offs c = N.of_nat i).
Proof. exact c51_ten_bit_partial. Qed.
Print Assumptions C51_ten_bit_partial.

Example C51_example : map (option_map depth) (fo_comps fmt_YUV420_10) = [Some 10; Some 1; Some 2; None; None].
Proof. reflexivity. Qed.

(** C59: parsing gives exactly the published table. *)
Theorem C59_published : forall v,
  matrix_from_u32 v = lookup published_matrix v /\
  primaries_from_u32 v = lookup published_primaries v /\
  xfer_from_u32 v = lookup published_xfer v.
Proof. exact c59_published. Qed.
Print Assumptions C59_published.

(** Parsing is the inverse of the conversion to a number. *)
Theorem C59_round_trip : forall v,
  (forall m, matrix_from_u32 v = Some m <-> matrix_to_u32 m = Some v) /\
  (forall m, primaries_from_u32 v = Some m <-> primaries_to_u32 m = Some v) /\
  (forall m, xfer_from_u32 v = Some m <-> xfer_to_u32 m = Some v).
Proof. exact c59_round_trip. Qed.
Print Assumptions C59_round_trip.

Example C59_example : primaries_from_u32 22 = Some CpTech3213 /\ primaries_from_u32 13 = None /\ matrix_from_u32 17 = Some McYCgCoRo /\ xfer_from_u32 19 = None.
Proof. repeat apply conj; reflexivity. Qed.

(** C60 is false: no setter has any effect on the format it is called on. *)
Theorem C60_setters_refuted :
  exists f, (exists p, fo_primaries (fst (set_primaries f p)) <> p) /\ (exists x, fo_xfer (fst (set_xfer f x)) <> x) /\
    (exists m, fo_matrix (fst (set_matrix f m)) <> m) /\
    (exists v p, snd (set_primaries_from_u32 f v) = Some p /\ fo_primaries (fst (set_primaries_from_u32 f v)) <> p).
Proof. exact c60_setters_refuted. Qed.
Print Assumptions C60_setters_refuted.

(** What does hold: the format is as before and the parsed value is returned. *)
Theorem C60_setters_partial : forall f,
  (forall p, set_primaries f p = (f, tt)) /\ (forall x, set_xfer f x = (f, tt)) /\ (forall m, set_matrix f m = (f, tt)) /\
  (forall v, set_primaries_from_u32 f v = (f, lookup published_primaries v)) /\
  (forall v, set_xfer_from_u32 f v = (f, lookup published_xfer v)) /\
  (forall v, set_matrix_from_u32 f v = (f, lookup published_matrix v)).
Proof. exact c60_setters_partial. Qed.
Print Assumptions C60_setters_partial.

Example C60_example : snd (set_matrix_from_u32 fmt_YUV420 9) = Some McBT2020NonConstantLuminance /\ fo_matrix (fst (set_matrix_from_u32 fmt_YUV420 9)) = McUnspecified.
Proof. split; reflexivity. Qed.

(** C66 *)
Theorem C66_formaton_new : forall model l e be al pal,
  ((length l <= 5)%nat -> exists f, formaton_new model l e be al pal = Ret f /\
     get_num_comp f = N.of_nat (length l) /\ (forall i, get_chromaton f i = Ret (nth_error l i)) /\
     get_total_depth f = (let s := fold_right (fun c n => depth c + n) 0 l in if s <? 256 then Ret s else Panic) /\
     present (fo_comps f) = l /\ length (fo_comps f) = 5%nat /\
     fo_model f = model /\ fo_elem_size f = e /\ fo_be f = be /\ fo_alpha f = al /\ fo_palette f = pal /\
     fo_primaries f = CpUnspecified /\ fo_xfer f = TcUnspecified /\ fo_matrix f = McUnspecified /\ fo_location f = ClUnspecified) /\
  ((5 < length l)%nat -> formaton_new model l e be al pal = Panic).
Proof. exact formaton_new_spec. Qed.
Print Assumptions C66_formaton_new.

Example C66_example :
  formaton_new (Trichromatic RGB) [packrgb 8 0 2 3; packrgb 8 0 1 3; packrgb 8 0 0 3] 3 false false false = Ret fmt_RGB24 /\
  get_chromaton fmt_RGB24 1 = Ret (Some (packrgb 8 0 1 3)) /\ get_total_depth fmt_RGB24 = Ret 24 /\
  formaton_new CMYK (repeat (yuv8 0 0 0) 6) 0 false false false = Panic.
Proof. repeat apply conj; vm_compute; reflexivity. Qed.

(** C72 is false: in the predefined 4:2:2 formats it is the height of the chroma
    components that is halved. *)
Theorem C72_subsampling_refuted :
  exists c, In (Some c) (fo_comps fmt_YUV422) /\ In (Some (yuvhb 0 1 1 10)) (fo_comps fmt_YUV422_10) /\
    comp_offs c = 1 /\ get_width c 16 = Ret 16 /\ get_height c 16 = Ret 8.
Proof. exact c72_subsampling_refuted. Qed.
Print Assumptions C72_subsampling_refuted.

(** The other families have the subsampling of their names. *)
Theorem C72_subsampling_partial : forall f hs vs,
  In (f, (hs, vs)) [(fmt_YUV444, (0, 0)); (fmt_YUV420, (1, 1)); (fmt_YUV411, (2, 0)); (fmt_YUV410, (2, 1));
                    (fmt_YUV444_10, (0, 0)); (fmt_YUV420_10, (1, 1)); (fmt_YUV411_10, (2, 0)); (fmt_YUV410_10, (2, 1))] ->
  exists y cb cr, present (fo_comps f) = [y; cb; cr] /\ (h_ss y, v_ss y) = (0, 0) /\ (h_ss cb, v_ss cb) = (hs, vs) /\ (h_ss cr, v_ss cr) = (hs, vs).
Proof. exact c72_subsampling_partial. Qed.
Print Assumptions C72_subsampling_partial.

Example C72_example : map (option_map h_ss) (fo_comps fmt_YUV411) = [Some 0; Some 2; Some 2; None; None].
Proof. reflexivity. Qed.

(** C73 is false: the 16-bit components of RGB48 and RGBA64 are one byte apart. *)
Theorem C73_packing_refuted : ~ well_packed fmt_RGB48 /\ ~ well_packed fmt_RGBA64.
Proof. exact c73_packing_refuted. Qed.
Print Assumptions C73_packing_refuted.

(** The other packed formats place their components side by side. *)
Theorem C73_packing_partial : forall f, In f [fmt_PAL8; fmt_RGB565; fmt_RGB24; fmt_RGBA] -> well_packed f.
Proof. exact c73_packing_partial. Qed.
Print Assumptions C73_packing_partial.

Example C73_example : map bit_range (present (fo_comps fmt_RGB565)) = [(11, 16); (5, 11); (0, 5)] /\ map bit_range (present (fo_comps fmt_RGB48)) = [(16, 32); (8, 24); (0, 16)].
Proof. split; reflexivity. Qed.

(** C74 is false: 16 samples of 16 bits fit in 32 bytes, and get 64. *)
Theorem C74_minimal_stride_refuted :
  exists c w cw s, In (Some c) (fo_comps fmt_RGB48) /\ get_width c w = Ret cw /\ cw * depth c <= 8 * 32 /\ get_linesize c w 32 = Ret s /\ 32 < s.
Proof. exact c74_minimal_stride_refuted. Qed.
Print Assumptions C74_minimal_stride_refuted.

(** It holds for a depth of 8. *)
Theorem C74_minimal_stride_partial : forall c w a s, power_of_two a -> depth c = 8 -> get_linesize c w a = Ret s ->
  exists cw, ceil_div w (2 ^ h_ss c) cw /\ least_multiple a cw s.
Proof. exact c74_minimal_stride_partial. Qed.
Print Assumptions C74_minimal_stride_partial.

(** Exactly, for every component and width: when the stride is computed without
    overflow, and which multiple of the alignment it is.  [need] is the number of whole
    bytes in [cw * depth + depth - 1] bits, where [cw] is the width of the component. *)
Theorem C74_stride_exact : forall c w a s, power_of_two a ->
  get_linesize c w a = Ret s <->
  exists cw need, h_ss c < 64 /\ w + 2 ^ h_ss c <= W64 /\ 1 <= depth c /\
    ceil_div w (2 ^ h_ss c) cw /\ cw * depth c + depth c < W64 /\
    8 * need <= cw * depth c + depth c - 1 /\ cw * depth c + depth c - 1 < 8 * (need + 1) /\
    need + a < W64 /\ least_multiple a need s.
Proof. exact c74_stride_exact. Qed.
Print Assumptions C74_stride_exact.

Example C74_example : get_linesize (yuv8 1 1 1) 64 32 = Ret 32 /\ get_linesize (yuv8 1 1 1) 65 32 = Ret 64.
Proof. split; vm_compute; reflexivity. Qed.

(** C75 is false: showing a packed component of 32 bits panics. *)
Theorem C75_display_refuted : exists c, ch_packed c = true /\ depth c = 32 /\ show_chromaton c = Panic.
Proof. exact c75_display_refuted. Qed.
Print Assumptions C75_display_refuted.

(** Exactly these components can be shown. *)
Theorem C75_display_partial : forall c,
  (exists s, show_chromaton c = Ret s) <-> ch_packed c = false \/ (depth c < 31 /\ shift c < 32).
Proof. exact c75_display_partial. Qed.
Print Assumptions C75_display_partial.

Example C75_example :
  show_formaton fmt_RGB565 = Ret "[Formaton for RGB (elem LE size 2):  (0x0, packed(+0,F800, step 2)) (0x0, packed(+0,7E0, step 2)) (0x0, packed(+0,1F, step 2))]"%string /\
  show_formaton fmt_YUV420 = Ret "[Formaton for YCbCr (Limited range) (elem LE size 0):  (0x0, planar(0,1)) (1x1, planar(1,1)) (1x1, planar(2,1))]"%string.
Proof. split; vm_compute; reflexivity. Qed.

(** C76: different values have different names. *)
Theorem C76_names :
  (forall a b, show_channel a = show_channel b -> a = b) /\ (forall a b, show_matrix a = show_matrix b -> a = b) /\
  (forall a b, show_primaries a = show_primaries b -> a = b) /\ (forall a b, show_xfer a = show_xfer b -> a = b) /\
  (forall a b, show_chroma_location a = show_chroma_location b -> a = b) /\ (forall a b, show_model a = show_model b -> a = b) /\
  (forall a b, show_frame_type a = show_frame_type b -> a = b).
Proof. exact c76_names. Qed.
Print Assumptions C76_names.

Example C76_example : show_model (Trichromatic (YUV (YCbCr Full))) = "YCbCr (Full range)"%string /\ show_channel ChLFE2 = "LFE2"%string.
Proof. split; reflexivity. Qed.
