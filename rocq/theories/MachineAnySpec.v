(** Vocabulary of the statements about frames with any implementation of [FrameBuffer], for any width of
    [usize]. *)
From Coq Require Import List NArith.
From Verif Require Import Base PixelModel FrameModel AnyFrameModel AnyFrameSpec MachineModel MachineFrameModel.
Import ListNotations.
Local Open Scope N_scope.

(** Each row of component [c] of a [w] x [h] picture that begins within the buffer is complete, if the
    component has a size on this machine. *)
Definition m_whole_component (mc : machine) (w h : N) (c : chromaton) (buf : list N) (l : N) : Prop :=
  forall cw ch, m_get_width mc c w = Ret cw -> m_get_height mc c h = Ret ch -> whole_rows buf l cw ch.

(** What the implementation answers for the plane of each component goes together. *)
Definition m_answers_fit_all {F : Type} (mc : machine) (impl : frame_impl F) (inv : F -> Prop) (w h : N) (comps : list (option chromaton)) : Prop :=
  forall k c, nth_error comps k = Some (Some c) -> answers_fit impl inv k (m_whole_component mc w h c).

(** Buffers given by the caller. *)
Definition m_buffers_fit (mc : machine) (w h : N) (comps : list (option chromaton)) (bufs : list (list N)) (ls : list N) : Prop :=
  forall k c buf l, nth_error comps k = Some (Some c) -> nth_error bufs k = Some buf -> nth_error ls k = Some l ->
    m_whole_component mc w h c buf l.
