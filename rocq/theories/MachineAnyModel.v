(** Copying into and out of frames with any implementation of [FrameBuffer], as in [AnyFrameModel], for
    any width of [usize], with or without overflow checks.  [copy_plane_to_buffer] and [as_slice]
    compute nothing that depends on it. *)
From Coq Require Import List Arith NArith Bool.
From Verif Require Import Base PixelModel FrameModel FormatModel AnyFrameModel MachineModel MachineFrameModel.
Import ListNotations.
Local Open Scope N_scope.

Section Any.
Context {F : Type}.
Variable mc : machine.
Variable impl : frame_impl F.

(** frame.rs:514-523, [count] being the number of planes asked for before *)
Fixpoint ma_out (b : F) (width height : N) (count plane_index : nat) (dst : list (list N)) (dst_linesizes : list N) (comps : list (option chromaton))
    : outcome (F * list (list N)) :=
  match dst, dst_linesizes, comps with
  | d :: dst', dl :: dls', c :: comps' =>
    if (plane_index <? count)%nat then
      let! (b1, s) := fi_slice impl b plane_index in
      let! src := unwrap_ok s in
      let! (b2, l) := fi_linesize impl b1 plane_index in
      let! sl := unwrap_ok l in
      let! c' := unwrap c in
      let! w := m_get_width mc c' width in
      let! h := m_get_height mc c' height in
      let! d' := copy_plane d dl src sl w h in
      let! (b3, r) := ma_out b2 width height count (S plane_index) dst' dls' comps' in
      Ret (b3, d' :: r)
    else Ret (b, dst)
  | _, _, _ => Ret (b, dst)
  end.

(** frame.rs:503-527 *)
Definition ma_frame_to_buffer (f : any_frame) (dst : list (list N)) (dst_linesizes : list N) : outcome (any_frame * list (list N)) :=
  match af_kind f with
  | Video fmt =>
    let! (b1, count) := fi_count impl (af_buf f) in
    let! (b2, dst') := ma_out b1 (vi_width fmt) (vi_height fmt) count 0 dst dst_linesizes (fo_comps (vi_format fmt)) in
    Ret (mk_any (af_kind f) b2 (af_t f), dst')
  | Audio _ => Panic
  end.

(** frame.rs:540-554; [as_mut_slice::<u8>], frame.rs:336-340, is the slice itself *)
Fixpoint ma_in (b : F) (width height : N) (n i : nat) (src : list (list N)) (src_linesizes : list N) (comps : list (option chromaton)) : outcome F :=
  match n with
  | O => Ret b
  | S n' =>
    let! (b1, l) := fi_linesize impl b i in
    let! dl := unwrap_ok l in
    let! sl := unwrap (hd_error src_linesizes) in
    let! (b2, s) := fi_mut_slice impl b1 i in
    let! data := unwrap_ok s in
    let! ss := unwrap (hd_error src) in
    let! cc := unwrap (hd_error comps) in
    let! c := unwrap cc in
    let! w := m_get_width mc c width in
    let! h := m_get_height mc c height in
    let! data' := copy_plane data dl ss sl w h in
    ma_in (fi_put impl b2 i data') width height n' (S i) (tl src) (tl src_linesizes) (tl comps)
  end.

(** frame.rs:531-558 *)
Definition ma_from_slice (f : any_frame) (src : list (list N)) (src_linesizes : list N) : outcome any_frame :=
  match af_kind f with
  | Video fmt =>
    let! (b1, count) := fi_count impl (af_buf f) in
    let! b := ma_in b1 (vi_width fmt) (vi_height fmt) count 0 src src_linesizes (fo_comps (vi_format fmt)) in
    Ret (mk_any (af_kind f) b (af_t f))
  | Audio _ => Panic
  end.
End Any.
