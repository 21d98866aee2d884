(** Copying into and out of frames whose buffer is any implementation of [FrameBuffer]
    (data/src/frame.rs), not only the default one of [FrameModel].

    The methods that take [&self] may change something inside, and any method may panic, so each
    of them is a function from a state to a state and an answer. *)
From Coq Require Import List Arith NArith Bool.
From Verif Require Import Base PixelModel FrameModel FormatModel.
Import ListNotations.
Local Open Scope N_scope.

(** [trait FrameBuffer], frame.rs:302-313.  A slice that was handed out for writing comes
    back with new contents: [fi_put]. *)
Record frame_impl (F : Type) : Type := mk_impl {
  fi_linesize : F -> nat -> outcome (F * result N frame_error);
  fi_count : F -> outcome (F * nat);
  fi_slice : F -> nat -> outcome (F * result (list N) frame_error);
  fi_mut_slice : F -> nat -> outcome (F * result (list N) frame_error);
  fi_put : F -> nat -> list N -> F
}.
Arguments mk_impl {F}.
Arguments fi_linesize {F}.
Arguments fi_count {F}.
Arguments fi_slice {F}.
Arguments fi_mut_slice {F}.
Arguments fi_put {F}.

(** [DefaultFrameBuffer], frame.rs:383-406 *)
Definition default_impl : frame_impl frame_buffer := mk_impl
  (fun b idx => Ret (b, fb_linesize b idx))
  (fun b => Ret (b, fb_count b))
  (fun b idx => Ret (b, fb_slice b idx))
  (fun b idx => Ret (b, fb_slice b idx))
  fb_set.

Section Any.
Context {F : Type}.
Variable impl : frame_impl F.

(** frame.rs:463-470 *)
Record any_frame : Type := mk_any { af_kind : media_kind; af_buf : F; af_t : time_info }.

(** frame.rs:490-501; also the state of the buffer afterwards *)
Definition any_plane_to_buffer (f : any_frame) (plane_index : nat) (dst : list N) (dst_linesize : N) : outcome (any_frame * list N) :=
  match af_kind f with
  | Video fmt =>
    let! (b1, s) := fi_slice impl (af_buf f) plane_index in
    let! src := unwrap_ok s in
    let! (b2, l) := fi_linesize impl b1 plane_index in
    let! src_linesize := unwrap_ok l in
    let! dst' := copy_plane dst dst_linesize src src_linesize (vi_width fmt) (vi_height fmt) in
    Ret (mk_any (af_kind f) b2 (af_t f), dst')
  | Audio _ => Panic
  end.

(** frame.rs:514-523, [count] being the number of planes asked for before *)
Fixpoint any_out (b : F) (width height : N) (count plane_index : nat) (dst : list (list N)) (dst_linesizes : list N) (comps : list (option chromaton))
    : outcome (F * list (list N)) :=
  match dst, dst_linesizes, comps with
  | d :: dst', dl :: dls', c :: comps' =>
    if (plane_index <? count)%nat then
      let! (b1, s) := fi_slice impl b plane_index in
      let! src := unwrap_ok s in
      let! (b2, l) := fi_linesize impl b1 plane_index in
      let! sl := unwrap_ok l in
      let! c' := unwrap c in
      let! w := get_width c' width in
      let! h := get_height c' height in
      let! d' := copy_plane d dl src sl w h in
      let! (b3, r) := any_out b2 width height count (S plane_index) dst' dls' comps' in
      Ret (b3, d' :: r)
    else Ret (b, dst)
  | _, _, _ => Ret (b, dst)
  end.

(** frame.rs:503-527 *)
Definition any_frame_to_buffer (f : any_frame) (dst : list (list N)) (dst_linesizes : list N) : outcome (any_frame * list (list N)) :=
  match af_kind f with
  | Video fmt =>
    let! (b1, count) := fi_count impl (af_buf f) in
    let! (b2, dst') := any_out b1 (vi_width fmt) (vi_height fmt) count 0 dst dst_linesizes (fo_comps (vi_format fmt)) in
    Ret (mk_any (af_kind f) b2 (af_t f), dst')
  | Audio _ => Panic
  end.

(** frame.rs:540-554; [as_mut_slice::<u8>], frame.rs:336-340, is the slice itself *)
Fixpoint any_in (b : F) (width height : N) (n i : nat) (src : list (list N)) (src_linesizes : list N) (comps : list (option chromaton)) : outcome F :=
  match n with
  | O => Ret b
  | S n' =>
    let! (b1, l) := fi_linesize impl b i in
    let! dl := unwrap_ok l in
    let! sl := unwrap (hd_error src_linesizes) in
    let! (b2, s) := fi_mut_slice impl b1 i in
    let! data := unwrap_ok s in
    let! ss := unwrap (hd_error src) in
    let! cc := unwrap (hd_error comps) in
    let! c := unwrap cc in
    let! w := get_width c width in
    let! h := get_height c height in
    let! data' := copy_plane data dl ss sl w h in
    any_in (fi_put impl b2 i data') width height n' (S i) (tl src) (tl src_linesizes) (tl comps)
  end.

(** frame.rs:531-558 *)
Definition any_from_slice (f : any_frame) (src : list (list N)) (src_linesizes : list N) : outcome any_frame :=
  match af_kind f with
  | Video fmt =>
    let! (b1, count) := fi_count impl (af_buf f) in
    let! b := any_in b1 (vi_width fmt) (vi_height fmt) count 0 src src_linesizes (fo_comps (vi_format fmt)) in
    Ret (mk_any (af_kind f) b (af_t f))
  | Audio _ => Panic
  end.

(** [as_slice], frame.rs:329-333, at address [addr] for elements of [size] bytes, as in [FrameModel] *)
Definition any_as_slice (b : F) (idx : nat) (addr size : N) : outcome (F * result (list (list N)) frame_error) :=
  let! (b1, s) := fi_slice impl b idx in
  match s with
  | Error e => Ret (b1, Error e)
  | Okay buf =>
    Ret (b1, if (addr mod size =? 0) && (N.of_nat (length buf) mod size =? 0) then Okay (group (length buf) (N.to_nat size) buf)
             else Error InvalidConversion)
  end.
End Any.
Arguments mk_any {F}.
Arguments af_kind {F}.
Arguments af_buf {F}.
Arguments af_t {F}.
