(** C169: copying into and out of frames with any implementation of [FrameBuffer]. *)
From Coq Require Import List Arith NArith Bool.
From Verif Require Import Base PixelModel FrameModel FormatModel DataSpec AnyFrameModel AnyFrameSpec AnyFrameProofs.
Import ListNotations.
Local Open Scope N_scope.

(** C169: the default buffer is an implementation that keeps to the documentation of the trait. *)
Theorem C169_default_lawful : lawful default_impl fb_planes.
Proof. exact default_lawful. Qed.
Print Assumptions C169_default_lawful.

(** C169: with every implementation that does, copies end as with the default buffer that has the
    same planes, and give the same bytes.  All that C54 to C56, C70, C71 and C118 say about copies
    therefore holds for all of them. *)
Theorem C169_lawful_copies : forall (F : Type) (impl : frame_impl F) planes k b t B, lawful impl planes ->
  let f := mk_any k b t in
  let g := mk_frame k (mk_fb B (planes b)) t in
  let unchanged f' := planes (af_buf f') = planes b /\ af_kind f' = k /\ af_t f' = t in
  (forall i dst dl, agrees (fun x y => snd x = y /\ unchanged (fst x)) (any_plane_to_buffer impl f i dst dl) (copy_plane_to_buffer g i dst dl)) /\
  (forall dsts dls, agrees (fun x y => snd x = y /\ unchanged (fst x)) (any_frame_to_buffer impl f dsts dls) (copy_frame_to_buffer g dsts dls)) /\
  (forall srcs sls, agrees (fun x y => planes (af_buf x) = fb_planes (fr_buf y) /\ af_kind x = fr_kind y /\ af_t x = fr_t y)
                      (any_from_slice impl f srcs sls) (copy_from_slice g srcs sls)).
Proof.
  exact (fun F impl planes k b t B law =>
    conj (lawful_plane impl planes law k b t B) (conj (lawful_frame impl planes law k b t B) (lawful_from impl planes law k b t B))).
Qed.
Print Assumptions C169_lawful_copies.

(** C169: for an implementation of which nothing is known but that it is safe code, copies do not
    touch bytes that do not belong to them if every answer for the line size of a plane goes
    together with every answer for its bytes, in all states that can come up ([inv]). *)
Theorem C169_safe_partial : forall (F : Type) (impl : frame_impl F) inv v b t, safe_methods impl -> keeps impl inv -> inv b ->
  let w := vi_width v in
  let h := vi_height v in
  let comps := fo_comps (vi_format v) in
  (forall i dst dl, answers_fit impl inv i (fun buf l => whole_rows buf l w h) -> whole_rows dst dl w h ->
     any_plane_to_buffer impl (mk_any (Video v) b t) i dst dl <> UB) /\
  (forall dsts dls, answers_fit_all impl inv w h comps -> buffers_fit w h comps dsts dls ->
     any_frame_to_buffer impl (mk_any (Video v) b t) dsts dls <> UB) /\
  (forall srcs sls, answers_fit_all impl inv w h comps -> buffers_fit w h comps srcs sls ->
     any_from_slice impl (mk_any (Video v) b t) srcs sls <> UB).
Proof.
  exact (fun F impl inv v b t safe kept Hb =>
    conj (fun i dst dl => safe_plane impl inv safe kept v b t i dst dl Hb)
      (conj (fun dsts dls => safe_frame impl inv safe kept v b t dsts dls Hb) (fun srcs sls => safe_from impl inv safe kept v b t srcs sls Hb))).
Qed.
Print Assumptions C169_safe_partial.

(** C169 is false for implementations in general, although [FrameBuffer] is a safe trait: a line
    size that is longer than the plane makes every copy undefined behaviour. *)
Theorem C169_trust_refuted : exists (F : Type) (impl : frame_impl F) v b,
  safe_methods impl /\ vi_width v = 4 /\ vi_height v = 1 /\
  any_plane_to_buffer impl (mk_any (Video v) b default_time) 0 [0; 0; 0; 0] 4 = UB /\
  any_frame_to_buffer impl (mk_any (Video v) b default_time) [[0; 0; 0; 0]] [4] = UB /\
  any_from_slice impl (mk_any (Video v) b default_time) [[0; 0; 0; 0]] [4] = UB.
Proof. exact trust_refuted. Qed.
Print Assumptions C169_trust_refuted.

(** C169: nor does it help to look at the planes before: here they have room for the picture when
    they are asked about, and no longer when they are copied. *)
Theorem C169_checked_refuted : exists (F : Type) (impl : frame_impl F) v b b1 l b2 buf c,
  safe_methods impl /\ fo_comps (vi_format v) = [Some c] /\
  fi_linesize impl b 0 = Ret (b1, Okay l) /\ fi_slice impl b1 0 = Ret (b2, Okay buf) /\ room (vi_width v) (vi_height v) c buf l /\
  any_frame_to_buffer impl (mk_any (Video v) b2 default_time) [[0; 0; 0; 0]] [2] = UB /\
  any_from_slice impl (mk_any (Video v) b2 default_time) [[0; 0; 0; 0]] [2] = UB.
Proof. exact checked_refuted. Qed.
Print Assumptions C169_checked_refuted.

(** C169: whatever the implementation does, the destinations keep their lengths, those beyond the
    number of planes it reports keep their contents, and the frame keeps its kind and time. *)
Theorem C169_destinations : forall (F : Type) (impl : frame_impl F) f,
  (forall i dst dl f' dst', any_plane_to_buffer impl f i dst dl = Ret (f', dst') ->
     length dst' = length dst /\ af_kind f' = af_kind f /\ af_t f' = af_t f) /\
  (forall dsts dls f' dsts', any_frame_to_buffer impl f dsts dls = Ret (f', dsts') ->
     map (@length N) dsts' = map (@length N) dsts /\ af_kind f' = af_kind f /\ af_t f' = af_t f /\
     exists b n, fi_count impl (af_buf f) = Ret (b, n) /\ skipn n dsts' = skipn n dsts).
Proof. exact (fun F impl f => conj (plane_length impl f) (frame_lengths impl f)). Qed.
Print Assumptions C169_destinations.

(** C169: to copy one plane out the implementation is asked for the bytes of the plane, then for its line size, and for
    nothing else. *)
Theorem C169_plane_calls : forall (F : Type) (impl : frame_impl F) f i dst dl f' dst', any_plane_to_buffer impl f i dst dl = Ret (f', dst') ->
  exists v b1 src l, af_kind f = Video v /\ fi_slice impl (af_buf f) i = Ret (b1, Okay src) /\ fi_linesize impl b1 i = Ret (af_buf f', Okay l) /\
    copy_plane dst dl src l (vi_width v) (vi_height v) = Ret dst'.
Proof. exact (fun F impl => plane_calls impl). Qed.
Print Assumptions C169_plane_calls.

(** C169: typed views of a plane of any implementation: its errors are passed on, and its bytes are
    cut into elements if their address and number are multiples of the size of one. *)
Theorem C169_views : forall (F : Type) (impl : frame_impl F) b i addr size b' r, In size [1; 2; 4] -> fi_slice impl b i = Ret (b', r) ->
  exists a, any_as_slice impl b i addr size = Ret (b', a) /\
    (forall e, r = Error e -> a = Error e) /\
    (forall buf, r = Okay buf -> addr mod size = 0 -> N.of_nat (length buf) mod size = 0 ->
       exists l, a = Okay l /\ concat l = buf /\ forall e, In e l -> N.of_nat (length e) = size) /\
    (forall buf, r = Okay buf -> addr mod size <> 0 \/ N.of_nat (length buf) mod size <> 0 -> a = Error InvalidConversion).
Proof. exact (fun F impl => any_views impl). Qed.
Print Assumptions C169_views.

Example C169_example :
  let v := mk_video 2 1 false FrameI (plain_format RGB 1 [Some (pal8 0)] 1 false true) 8 in
  any_from_slice (liar (fun _ => 3)) (mk_any (Video v) (0%nat, [1; 2; 3]) default_time) [[11; 12]] [2] = Ret (mk_any (Video v) (1%nat, [11; 12; 3]) default_time) /\
  any_frame_to_buffer (liar (fun _ => 3)) (mk_any (Video v) (1%nat, [11; 12; 3]) default_time) [[0; 0; 0]; [5]] [2; 1] =
    Ret (mk_any (Video v) (2%nat, [11; 12; 3]) default_time, [[11; 12; 0]; [5]]) /\
  any_plane_to_buffer (liar (fun _ => 3)) (mk_any (Video v) (0%nat, [11; 12; 3]) default_time) 1 [0; 0] 2 = Panic /\
  any_as_slice (liar (fun _ => 3)) (0%nat, [1; 2; 3]) 0 4096 1 = Ret ((0%nat, [1; 2; 3]), Okay [[1]; [2]; [3]]) /\
  any_as_slice (liar (fun _ => 3)) (0%nat, [1; 2; 3]) 0 4096 2 = Ret ((0%nat, [1; 2; 3]), Error InvalidConversion).
Proof. repeat apply conj; vm_compute; reflexivity. Qed.

Example C169_lawful_example : lawful (liar (fun _ => 3)) (fun b => [mk_plane (snd b) 3]).
Proof. exact liar_lawful. Qed.
Print Assumptions C169_lawful_example.

Example C169_safe_example :
  let inv (b : nat * list N) := length (snd b) = 3%nat in
  safe_methods (liar (fun _ => 3)) /\ keeps (liar (fun _ => 3)) inv /\ inv (0%nat, [1; 2; 3]) /\
  answers_fit_all (liar (fun _ => 3)) inv 2 1 [Some (pal8 0)] /\ buffers_fit 2 1 [Some (pal8 0)] [[11; 12]] [2].
Proof. exact liar_fits. Qed.
