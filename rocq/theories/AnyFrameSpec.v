(** Vocabulary of the statements about frames with any implementation of [FrameBuffer]. *)
From Coq Require Import List Arith NArith Bool.
From Verif Require Import Base PixelModel FrameModel DataSpec AnyFrameModel.
Import ListNotations.
Local Open Scope N_scope.

(** Two computations end in the same way, and their results are related. *)
Definition agrees {A B : Type} (R : A -> B -> Prop) (x : outcome A) (y : outcome B) : Prop :=
  match x, y with
  | Ret a, Ret b => R a b
  | Panic, Panic => True
  | UB, UB => True
  | _, _ => False
  end.

(** The answer for plane [i] of [ps]: the one value there, or some error. *)
Definition answers {A : Type} (ps : list plane) (i : nat) (part : plane -> A) (r : result A frame_error) : Prop :=
  match nth_error ps i with
  | Some p => r = Okay (part p)
  | None => exists e, r = Error e
  end.

(** An implementation that does what the documentation of the trait says: it has planes, and
    the methods tell about them and do not change them; writing to a slice changes the contents
    of that plane and nothing else. *)
Definition lawful {F : Type} (impl : frame_impl F) (planes : F -> list plane) : Prop :=
  (forall b i, exists b' r, fi_linesize impl b i = Ret (b', r) /\ planes b' = planes b /\ answers (planes b) i pl_linesize r) /\
  (forall b, exists b', fi_count impl b = Ret (b', length (planes b)) /\ planes b' = planes b) /\
  (forall b i, exists b' r, fi_slice impl b i = Ret (b', r) /\ planes b' = planes b /\ answers (planes b) i pl_buf r) /\
  (forall b i, exists b' r, fi_mut_slice impl b i = Ret (b', r) /\ planes b' = planes b /\ answers (planes b) i pl_buf r) /\
  (forall b before p after data, planes b = before ++ p :: after -> length data = length (pl_buf p) ->
     planes (fi_put impl b (length before) data) = before ++ mk_plane data (pl_linesize p) :: after).

(** The methods are safe code: they answer or panic. *)
Definition safe_methods {F : Type} (impl : frame_impl F) : Prop :=
  forall b i, fi_linesize impl b i <> UB /\ fi_count impl b <> UB /\ fi_slice impl b i <> UB /\ fi_mut_slice impl b i <> UB.

(** Each of the first [h] rows that begins within the buffer has its [w] bytes. *)
Definition whole_rows (buf : list N) (l w h : N) : Prop :=
  l = 0 \/ forall y, (y < N.to_nat h)%nat -> (y * N.to_nat l < length buf)%nat -> row_complete (length buf) (N.to_nat l) (N.to_nat w) y.

(** The same for component [c] of a [w] x [h] picture, if the component has a size. *)
Definition whole_component (w h : N) (c : chromaton) (buf : list N) (l : N) : Prop :=
  forall cw ch, get_width c w = Ret cw -> get_height c h = Ret ch -> whole_rows buf l cw ch.

(** The states that can come up: they include those after every call, and after writing to a
    slice that was handed out. *)
Definition keeps {F : Type} (impl : frame_impl F) (inv : F -> Prop) : Prop :=
  (forall b i b' r, inv b -> fi_linesize impl b i = Ret (b', r) -> inv b') /\
  (forall b b' n, inv b -> fi_count impl b = Ret (b', n) -> inv b') /\
  (forall b i b' r, inv b -> fi_slice impl b i = Ret (b', r) -> inv b') /\
  (forall b i b' buf data, inv b -> fi_mut_slice impl b i = Ret (b', Okay buf) -> length data = length buf -> inv (fi_put impl b' i data)).

(** Whatever the implementation answers for plane [i], now or later, goes together. *)
Definition answers_fit {F : Type} (impl : frame_impl F) (inv : F -> Prop) (i : nat) (ok : list N -> N -> Prop) : Prop :=
  forall b b1 l b2 b3 buf, inv b -> inv b2 -> fi_linesize impl b i = Ret (b1, Okay l) ->
    fi_slice impl b2 i = Ret (b3, Okay buf) \/ fi_mut_slice impl b2 i = Ret (b3, Okay buf) -> ok buf l.

(** The same for every component of a picture and the plane with its number. *)
Definition answers_fit_all {F : Type} (impl : frame_impl F) (inv : F -> Prop) (w h : N) (comps : list (option chromaton)) : Prop :=
  forall k c, nth_error comps k = Some (Some c) -> answers_fit impl inv k (whole_component w h c).

(** Buffers given by the caller. *)
Definition buffers_fit (w h : N) (comps : list (option chromaton)) (bufs : list (list N)) (ls : list N) : Prop :=
  forall k c buf l, nth_error comps k = Some (Some c) -> nth_error bufs k = Some buf -> nth_error ls k = Some l ->
    whole_component w h c buf l.

(** One plane of three bytes whose line size is said to be [said], which may depend on how many
    questions were asked before; everything else is in order.  Safe code can do this. *)
Definition liar (said : nat -> N) : frame_impl (nat * list N) := mk_impl
  (fun b i => Ret ((S (fst b), snd b), match i with O => Okay (said (fst b)) | S _ => Error InvalidIndex end))
  (fun b => Ret (b, 1%nat))
  (fun b i => Ret (b, match i with O => Okay (snd b) | S _ => Error InvalidIndex end))
  (fun b i => Ret (b, match i with O => Okay (snd b) | S _ => Error InvalidIndex end))
  (fun b _ data => (fst b, data)).
