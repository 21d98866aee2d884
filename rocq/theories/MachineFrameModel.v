(** Sizes, default frames and copies for any width of [usize], with or without overflow
    checks.  Everything that does not depend on it is taken from [AudioModel], [PixelModel]
    and [FrameModel]. *)
From Coq Require Import List Arith NArith Bool.
From Verif Require Import Base AudioModel PixelModel FormatModel FrameModel MachineModel.
Import ListNotations.
Local Open Scope N_scope.

Section Frame.
Variable m : machine.

(** audiosample.rs:27-29 and pixel.rs:579-581 *)
Definition m_align (v a : N) : outcome N :=
  let! s := madd m v a in
  let! t := msub m s 1 in
  let! k := msub m a 1 in
  Ret (N.land t (mnot m k)).
(** audiosample.rs:33-35 *)
Definition m_round_to_byte (v : N) : outcome N :=
  let! s := madd m v 7 in
  Ret (N.shiftr s 3).
(** audiosample.rs:52-60 *)
Definition m_get_audio_size (f : soniton) (length alignment : N) : outcome N :=
  let! s :=
    (if so_packed f then
       let! b := mmul m length (so_bits f) in m_round_to_byte b
     else
       let! b := m_round_to_byte (so_bits f) in mmul m length b) in
  m_align s alignment.

(** pixel.rs:657, 662 and 674 *)
Definition m_sub_size (x ss : N) : outcome N :=
  let! one := mshl m 1 ss in
  let! k := msub m one 1 in
  let! s := madd m x k in
  mshr m s ss.
(** pixel.rs:656-663 *)
Definition m_get_width (c : chromaton) (width : N) : outcome N := m_sub_size width (h_ss c).
Definition m_get_height (c : chromaton) (height : N) : outcome N := m_sub_size height (v_ss c).
(** pixel.rs:666-669 *)
Definition m_get_linesize (c : chromaton) (width alignment : N) : outcome N :=
  let d := depth c in
  let! w := m_get_width c width in
  let! b := mmul m w d in
  let! s := madd m b d in
  let! t := msub m s 1 in
  m_align (N.shiftr t 3) alignment.
(** pixel.rs:673-676 *)
Definition m_get_data_size (c : chromaton) (width height alignment : N) : outcome N :=
  let! nh := m_sub_size height (v_ss c) in
  let! l := m_get_linesize c width alignment in
  mmul m l nh.

(** frame.rs:139-147 *)
Fixpoint m_sum_sizes (acc w h a : N) (l : list (option chromaton)) : outcome N :=
  match l with
  | [] => Ret acc
  | None :: l' => m_sum_sizes acc w h a l'
  | Some c :: l' =>
    let! s := m_get_data_size c w h a in
    let! acc' := madd m acc s in
    m_sum_sizes acc' w h a l'
  end.
Definition m_video_size (v : video_info) (a : N) : outcome N :=
  m_sum_sizes 0 (vi_width v) (vi_height v) a (fo_comps (vi_format v)).
(** frame.rs:219-221 *)
Definition m_audio_size (v : audio_info) (a : N) : outcome N :=
  let! s := m_get_audio_size (ai_format v) (ai_samples v) a in
  mmul m s (map_len (ai_map v)).

(** [BytesMut::zeroed] (bytes crate): a vector of more than [isize::MAX] bytes panics *)
Definition m_zeroed (size : N) : outcome (list N) :=
  if size <? room m then Ret (repeat 0 (N.to_nat size)) else Panic.

(** frame.rs:418-428 and 441-447 *)
Fixpoint m_video_planes (w h : N) (b : frame_buffer) (l : list (option chromaton)) : outcome frame_buffer :=
  match l with
  | [] => Ret b
  | None :: l' => m_video_planes w h b l'
  | Some c :: l' =>
    let! planesize := m_get_data_size c w h ALIGNMENT in
    let! linesize := m_get_linesize c w ALIGNMENT in
    let! (front, rest) := split_to (fb_buf b) planesize in
    m_video_planes w h (mk_fb rest (fb_planes b ++ [mk_plane front linesize])) l'
  end.
Fixpoint m_audio_planes (v : audio_info) (n : nat) (b : frame_buffer) : outcome frame_buffer :=
  match n with
  | O => Ret b
  | S n' =>
    let! size := m_get_audio_size (ai_format v) (ai_samples v) ALIGNMENT in
    let! (front, rest) := split_to (fb_buf b) size in
    m_audio_planes v n' (mk_fb rest (fb_planes b ++ [mk_plane front size]))
  end.

(** frame.rs:409-458 *)
Definition m_fb_new (kind : media_kind) : outcome frame_buffer :=
  match kind with
  | Video v =>
    let! size := m_video_size v ALIGNMENT in
    let! buf := m_zeroed size in
    m_video_planes (vi_width v) (vi_height v) (mk_fb buf []) (fo_comps (vi_format v))
  | Audio v =>
    let! size := m_audio_size v ALIGNMENT in
    let! buf := m_zeroed size in
    if so_planar (ai_format v) then m_audio_planes v (length (ai_map v)) (mk_fb buf [])
    else
      let! (front, rest) := split_to buf size in
      Ret (mk_fb rest [mk_plane front size])
  end.

(** frame.rs:474-486 *)
Definition m_new_default_frame (kind : media_kind) (t : option time_info) : outcome frame :=
  let! b := m_fb_new kind in
  Ret (mk_frame kind b (match t with Some t => t | None => default_time end)).

(** frame.rs:514-523 and 503-527; [copy_plane] computes nothing *)
Fixpoint m_copy_out (b : frame_buffer) (width height : N) (plane_index : nat) (dst : list (list N)) (dst_linesizes : list N) (comps : list (option chromaton)) : outcome (list (list N)) :=
  match dst, dst_linesizes, comps with
  | d :: dst', dl :: dls', c :: comps' =>
    if (plane_index <? fb_count b)%nat then
      let! src := unwrap_ok (fb_slice b plane_index) in
      let! sl := unwrap_ok (fb_linesize b plane_index) in
      let! c' := unwrap c in
      let! w := m_get_width c' width in
      let! h := m_get_height c' height in
      let! d' := copy_plane d dl src sl w h in
      let! r := m_copy_out b width height (S plane_index) dst' dls' comps' in
      Ret (d' :: r)
    else Ret dst
  | _, _, _ => Ret dst
  end.
Definition m_copy_frame_to_buffer (f : frame) (dst : list (list N)) (dst_linesizes : list N) : outcome (list (list N)) :=
  match fr_kind f with
  | Video fmt => m_copy_out (fr_buf f) (vi_width fmt) (vi_height fmt) 0 dst dst_linesizes (fo_comps (vi_format fmt))
  | Audio _ => Panic
  end.

(** frame.rs:531-558 *)
Fixpoint m_copy_in (b : frame_buffer) (width height : N) (n i : nat) (src : list (list N)) (src_linesizes : list N) (comps : list (option chromaton)) : outcome frame_buffer :=
  match n with
  | O => Ret b
  | S n' =>
    let! dl := unwrap_ok (fb_linesize b i) in
    let! sl := unwrap (hd_error src_linesizes) in
    let! data := unwrap_ok (fb_slice b i) in
    let! ss := unwrap (hd_error src) in
    let! cc := unwrap (hd_error comps) in
    let! c := unwrap cc in
    let! w := m_get_width c width in
    let! h := m_get_height c height in
    let! data' := copy_plane data dl ss sl w h in
    m_copy_in (fb_set b i data') width height n' (S i) (tl src) (tl src_linesizes) (tl comps)
  end.
Definition m_copy_from_slice (f : frame) (src : list (list N)) (src_linesizes : list N) : outcome frame :=
  match fr_kind f with
  | Video fmt =>
    let! b := m_copy_in (fr_buf f) (vi_width fmt) (vi_height fmt) (fb_count (fr_buf f)) 0 src src_linesizes (fo_comps (vi_format fmt)) in
    Ret (mk_frame (fr_kind f) b (fr_t f))
  | Audio _ => Panic
  end.
End Frame.
