(** Sizes, default frames and copies in a build without overflow checks (the release
    profile of cargo): the arithmetic of audiosample.rs, pixel.rs and frame.rs wraps around,
    and shift amounts are taken modulo 64.  Everything else is as in [AudioModel],
    [PixelModel] and [FrameModel]. *)
From Coq Require Import List Arith NArith Bool.
From Verif Require Import Base AudioModel PixelModel FormatModel FrameModel.
Import ListNotations.
Local Open Scope N_scope.

Definition radd (a b : N) : N := (a + b) mod W64.
Definition rmul (a b : N) : N := (a * b) mod W64.
Definition rsub (a b : N) : N := (a + (W64 - b mod W64)) mod W64.
Definition rshl (a n : N) : N := N.shiftl a (n mod 64) mod W64.
Definition rshr (a n : N) : N := N.shiftr a (n mod 64).

(** audiosample.rs:27-29 and pixel.rs:579-581 *)
Definition r_align (v a : N) : N := N.land (rsub (radd v a) 1) (unot (rsub a 1)).
(** audiosample.rs:33-35 *)
Definition r_round_to_byte (v : N) : N := rshr (radd v 7) 3.
(** audiosample.rs:52-60 *)
Definition r_get_audio_size (f : soniton) (length alignment : N) : N :=
  let s := if so_packed f then r_round_to_byte (rmul length (so_bits f)) else rmul length (r_round_to_byte (so_bits f)) in
  r_align s alignment.

(** pixel.rs:657, 662 and 674 *)
Definition r_sub_size (x ss : N) : N := rshr (radd x (rsub (rshl 1 ss) 1)) ss.
(** pixel.rs:656-663 *)
Definition r_get_width (c : chromaton) (width : N) : N := r_sub_size width (h_ss c).
Definition r_get_height (c : chromaton) (height : N) : N := r_sub_size height (v_ss c).
(** pixel.rs:666-669 *)
Definition r_get_linesize (c : chromaton) (width alignment : N) : N :=
  r_align (rshr (rsub (radd (rmul (r_get_width c width) (depth c)) (depth c)) 1) 3) alignment.
(** pixel.rs:673-676 *)
Definition r_get_data_size (c : chromaton) (width height alignment : N) : N :=
  rmul (r_get_linesize c width alignment) (r_sub_size height (v_ss c)).

(** frame.rs:139-147 *)
Fixpoint r_sum_sizes (acc w h a : N) (l : list (option chromaton)) : N :=
  match l with
  | [] => acc
  | None :: l' => r_sum_sizes acc w h a l'
  | Some c :: l' => r_sum_sizes (radd acc (r_get_data_size c w h a)) w h a l'
  end.
Definition r_video_size (v : video_info) (a : N) : N :=
  r_sum_sizes 0 (vi_width v) (vi_height v) a (fo_comps (vi_format v)).
(** frame.rs:219-221 *)
Definition r_audio_size (v : audio_info) (a : N) : N :=
  rmul (r_get_audio_size (ai_format v) (ai_samples v) a) (map_len (ai_map v)).

(** frame.rs:418-428 and 441-447 *)
Fixpoint r_video_planes (w h : N) (b : frame_buffer) (l : list (option chromaton)) : outcome frame_buffer :=
  match l with
  | [] => Ret b
  | None :: l' => r_video_planes w h b l'
  | Some c :: l' =>
    let! (front, rest) := split_to (fb_buf b) (r_get_data_size c w h ALIGNMENT) in
    r_video_planes w h (mk_fb rest (fb_planes b ++ [mk_plane front (r_get_linesize c w ALIGNMENT)])) l'
  end.
Fixpoint r_audio_planes (v : audio_info) (n : nat) (b : frame_buffer) : outcome frame_buffer :=
  match n with
  | O => Ret b
  | S n' =>
    let size := r_get_audio_size (ai_format v) (ai_samples v) ALIGNMENT in
    let! (front, rest) := split_to (fb_buf b) size in
    r_audio_planes v n' (mk_fb rest (fb_planes b ++ [mk_plane front size]))
  end.

(** frame.rs:409-458 *)
Definition r_fb_new (kind : media_kind) : outcome frame_buffer :=
  match kind with
  | Video v =>
    let! buf := zeroed (r_video_size v ALIGNMENT) in
    r_video_planes (vi_width v) (vi_height v) (mk_fb buf []) (fo_comps (vi_format v))
  | Audio v =>
    let size := r_audio_size v ALIGNMENT in
    let! buf := zeroed size in
    if so_planar (ai_format v) then r_audio_planes v (length (ai_map v)) (mk_fb buf [])
    else
      let! (front, rest) := split_to buf size in
      Ret (mk_fb rest [mk_plane front size])
  end.

(** frame.rs:474-486 *)
Definition r_new_default_frame (kind : media_kind) (t : option time_info) : outcome frame :=
  let! b := r_fb_new kind in
  Ret (mk_frame kind b (match t with Some t => t | None => default_time end)).

(** frame.rs:503-527; [copy_plane_to_buffer] and [copy_plane] compute nothing *)
Fixpoint r_copy_out (b : frame_buffer) (width height : N) (plane_index : nat) (dst : list (list N)) (dst_linesizes : list N) (comps : list (option chromaton)) : outcome (list (list N)) :=
  match dst, dst_linesizes, comps with
  | d :: dst', dl :: dls', c :: comps' =>
    if (plane_index <? fb_count b)%nat then
      let! src := unwrap_ok (fb_slice b plane_index) in
      let! sl := unwrap_ok (fb_linesize b plane_index) in
      let! c' := unwrap c in
      let! d' := copy_plane d dl src sl (r_get_width c' width) (r_get_height c' height) in
      let! r := r_copy_out b width height (S plane_index) dst' dls' comps' in
      Ret (d' :: r)
    else Ret dst
  | _, _, _ => Ret dst
  end.
Definition r_copy_frame_to_buffer (f : frame) (dst : list (list N)) (dst_linesizes : list N) : outcome (list (list N)) :=
  match fr_kind f with
  | Video fmt => r_copy_out (fr_buf f) (vi_width fmt) (vi_height fmt) 0 dst dst_linesizes (fo_comps (vi_format fmt))
  | Audio _ => Panic
  end.

(** frame.rs:531-558 *)
Fixpoint r_copy_in (b : frame_buffer) (width height : N) (n i : nat) (src : list (list N)) (src_linesizes : list N) (comps : list (option chromaton)) : outcome frame_buffer :=
  match n with
  | O => Ret b
  | S n' =>
    let! dl := unwrap_ok (fb_linesize b i) in
    let! sl := unwrap (hd_error src_linesizes) in
    let! data := unwrap_ok (fb_slice b i) in
    let! ss := unwrap (hd_error src) in
    let! cc := unwrap (hd_error comps) in
    let! c := unwrap cc in
    let! data' := copy_plane data dl ss sl (r_get_width c width) (r_get_height c height) in
    r_copy_in (fb_set b i data') width height n' (S i) (tl src) (tl src_linesizes) (tl comps)
  end.
Definition r_copy_from_slice (f : frame) (src : list (list N)) (src_linesizes : list N) : outcome frame :=
  match fr_kind f with
  | Video fmt =>
    let! b := r_copy_in (fr_buf f) (vi_width fmt) (vi_height fmt) (fb_count (fr_buf f)) 0 src src_linesizes (fo_comps (vi_format fmt)) in
    Ret (mk_frame (fr_kind f) b (fr_t f))
  | Audio _ => Panic
  end.
