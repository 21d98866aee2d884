(** Property C176: copies with any implementation of [FrameBuffer], for any width of [usize]. *)
From Coq Require Import List Arith NArith Bool.
From Verif Require Import Base PixelModel FrameModel FormatModel DataSpec AnyFrameModel AnyFrameSpec MachineModel MachineFrameModel
  MachineAnyModel MachineAnySpec MachineAnyProofs.
Import ListNotations.
Local Open Scope N_scope.

(** C176: on every machine, copies with an implementation that keeps to the documentation of the trait
    end as with the default buffer that has the same planes, and give the same bytes. *)
Theorem C176_lawful_copies : forall (F : Type) mc (impl : frame_impl F) planes k b t B, lawful impl planes ->
  let f := mk_any k b t in
  let g := mk_frame k (mk_fb B (planes b)) t in
  (forall dsts dls, agrees (fun x y => snd x = y /\ planes (af_buf (fst x)) = planes b /\ af_kind (fst x) = k /\ af_t (fst x) = t)
                      (ma_frame_to_buffer mc impl f dsts dls) (m_copy_frame_to_buffer mc g dsts dls)) /\
  (forall srcs sls, agrees (fun x y => planes (af_buf x) = fb_planes (fr_buf y) /\ af_kind x = fr_kind y /\ af_t x = fr_t y)
                      (ma_from_slice mc impl f srcs sls) (m_copy_from_slice mc g srcs sls)).
Proof.
  exact (fun F mc impl planes k b t B law => conj (m_lawful_frame mc impl planes law k b t B) (m_lawful_from mc impl planes law k b t B)).
Qed.
Print Assumptions C176_lawful_copies.

(** C176: with any implementation in safe code, what a machine with overflow checks makes of a copy,
    every machine that is at least as wide makes of it, with and without overflow checks, writes out of
    bounds included; with 64 bits and overflow checks it is what C169 says. *)
Theorem C176_wider : forall (F : Type) (impl : frame_impl F) m n, checked m = true -> 1 <= bits m -> bits m <= bits n ->
  (forall f dst dls o, ma_frame_to_buffer m impl f dst dls = o -> o <> Panic -> ma_frame_to_buffer n impl f dst dls = o) /\
  (forall f src sls o, ma_from_slice m impl f src sls = o -> o <> Panic -> ma_from_slice n impl f src sls = o).
Proof. exact (fun F impl m n Hc H1 Hle => any_wider m n Hc H1 Hle impl). Qed.
Print Assumptions C176_wider.
Theorem C176_on_64_bits : forall (F : Type) (impl : frame_impl F),
  (forall f dst dls, ma_frame_to_buffer x86_64 impl f dst dls = any_frame_to_buffer impl f dst dls) /\
  (forall f src sls, ma_from_slice x86_64 impl f src sls = any_from_slice impl f src sls).
Proof. exact (fun F impl => any_64 impl). Qed.
Print Assumptions C176_on_64_bits.

(** C176: copies touch no bytes that do not belong to them if all answers for the line size of a plane
    go together with all answers for its bytes. *)
Theorem C176_safe : forall (F : Type) mc (impl : frame_impl F) inv v b t, safe_methods impl -> keeps impl inv -> inv b ->
  let w := vi_width v in
  let h := vi_height v in
  let comps := fo_comps (vi_format v) in
  (forall dsts dls, m_answers_fit_all mc impl inv w h comps -> m_buffers_fit mc w h comps dsts dls ->
     ma_frame_to_buffer mc impl (mk_any (Video v) b t) dsts dls <> UB) /\
  (forall srcs sls, m_answers_fit_all mc impl inv w h comps -> m_buffers_fit mc w h comps srcs sls ->
     ma_from_slice mc impl (mk_any (Video v) b t) srcs sls <> UB).
Proof.
  exact (fun F mc impl inv v b t safe kept Hb =>
    conj (fun dsts dls => m_safe_frame mc impl inv safe kept v b t dsts dls Hb) (fun srcs sls => m_safe_from mc impl inv safe kept v b t srcs sls Hb)).
Qed.
Print Assumptions C176_safe.

(** C176: whatever the implementation and the machine, the destinations keep their lengths, and those
    beyond the number of planes reported keep their contents. *)
Theorem C176_destinations : forall (F : Type) mc (impl : frame_impl F) f dsts dls f' dsts',
  ma_frame_to_buffer mc impl f dsts dls = Ret (f', dsts') ->
  map (@length N) dsts' = map (@length N) dsts /\ af_kind f' = af_kind f /\ af_t f' = af_t f /\
  exists b n, fi_count impl (af_buf f) = Ret (b, n) /\ skipn n dsts' = skipn n dsts.
Proof. exact (fun F mc impl => m_frame_lengths mc impl). Qed.
Print Assumptions C176_destinations.

(** A picture 2 wide is copied on 32 bits as on 64.  One whose width does not go into 32 bits when it is
    rounded up stops a build with overflow checks; without them it is one of no columns, and nothing is
    copied. *)
Example C176_example :
  let wide w := mk_video w 1 false FrameI (plain_format RGB 1 [Some (mk_chromaton 1 0 false 8 0 0 1)] 1 false true) 8 in
  let f w := mk_any (Video (wide w)) (0%nat, [1; 2; 3]) default_time in
  ma_from_slice wasm32 (liar (fun _ => 3)) (f 3) [[11; 12]] [2] = Ret (mk_any (Video (wide 3)) (1%nat, [11; 12; 3]) default_time) /\
  ma_frame_to_buffer wasm32_release (liar (fun _ => 3)) (f 3) [[0; 0; 0]; [5]] [2; 1] =
    Ret (mk_any (Video (wide 3)) (1%nat, [1; 2; 3]) default_time, [[1; 2; 0]; [5]]) /\
  ma_from_slice wasm32 (liar (fun _ => 3)) (f (2 ^ 32 - 1)) [[11; 12]] [2] = Panic /\
  ma_from_slice wasm32_release (liar (fun _ => 3)) (f (2 ^ 32 - 1)) [[11; 12]] [2] = Ret (mk_any (Video (wide (2 ^ 32 - 1))) (1%nat, [1; 2; 3]) default_time) /\
  ma_frame_to_buffer wasm32 (liar (fun _ => 3)) (f 7) [[0; 0; 0]] [3] = UB.
Proof. cbv zeta. repeat apply conj; vm_compute; reflexivity. Qed.
