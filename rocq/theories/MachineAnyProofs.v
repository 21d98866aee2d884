(** Proofs about frames with any implementation of [FrameBuffer] for any width of [usize]. *)
From Coq Require Import List Arith NArith ZArith Bool Lia.
From Coq Require Import ZifyBool ZifyNat ZifyN.
From Verif Require Import Base PixelModel FrameModel FormatModel DataSpec AnyFrameModel AnyFrameSpec AnyFrameProofs
  MachineModel MachineFrameModel MachineFrameProofs MachineFrameProofs2 MachineAnyModel MachineAnySpec.
Import ListNotations.
Local Open Scope N_scope.

Lemma m_sub_no_ub mc x k : m_sub_size mc x k <> UB.
Proof.
  unfold m_sub_size, mshl, msub, madd, mshr, ranged. destruct (checked mc);
    repeat (match goal with |- context [if ?x then _ else _] => destruct x end; cbn [obind]); discriminate.
Qed.

Section Lawful.
Context {F : Type}.
Variable mc : machine.
Variable impl : frame_impl F.
Variable planes : F -> list plane.
Hypothesis law : lawful impl planes.

Lemma m_lawful_out : forall comps w h dst dls b n i B, n = length (planes b) ->
  agrees (fun x y => snd x = y /\ planes (fst x) = planes b)
    (ma_out mc impl b w h n i dst dls comps) (m_copy_out mc (mk_fb B (planes b)) w h i dst dls comps).
Proof.
  induction comps as [|c comps IH]; intros w h dst dls b n i B Hn; (destruct dst as [|d dst]; [cbn; auto|]); (destruct dls as [|dl dls]; [cbn; auto|]); [cbn; auto|].
  cbn [ma_out m_copy_out]. unfold fb_count; cbn [fb_planes]. rewrite <- Hn.
  destruct (i <? n)%nat; [|cbn; auto].
  destruct (law_slice impl planes law b i) as (b1 & s & E1 & P1 & A1). rewrite E1; cbn [obind].
  unfold fb_slice, fb_linesize, answers in *; cbn [fb_planes]. destruct (nth_error (planes b) i) as [p|] eqn:Ep.
  2: { destruct A1 as [e ->]. exact I. }
  subst s; cbn [unwrap_ok obind]. destruct (law_linesize impl planes law b1 i) as (b2 & l & E2 & P2 & A2). rewrite E2; cbn [obind].
  unfold answers in A2. rewrite P1, Ep in A2. subst l; cbn [unwrap_ok obind].
  destruct c as [c|]; [|exact I]. cbn [unwrap obind].
  destruct (m_get_width mc c w) as [cw| |]; cbn [obind]; try exact I.
  destruct (m_get_height mc c h) as [ch| |]; cbn [obind]; try exact I.
  destruct (copy_plane _ _ _ _ _ _) as [d'| |]; cbn [obind]; try exact I.
  specialize (IH w h dst dls b2 n (S i) B). rewrite P2, P1 in IH. specialize (IH Hn).
  destruct (ma_out mc _ b2 _ _ _ _ _ _ _) as [[b3 r]| |]; destruct (m_copy_out mc _ _ _ _ _ _ _) as [r'| |]; cbn in IH |- *; try contradiction; auto.
  destruct IH as [-> ->]. auto.
Qed.

Lemma m_lawful_frame k b t B dst dls :
  agrees (fun x y => snd x = y /\ planes (af_buf (fst x)) = planes b /\ af_kind (fst x) = k /\ af_t (fst x) = t)
    (ma_frame_to_buffer mc impl (mk_any k b t) dst dls) (m_copy_frame_to_buffer mc (mk_frame k (mk_fb B (planes b)) t) dst dls).
Proof.
  unfold ma_frame_to_buffer, m_copy_frame_to_buffer; cbn. destruct k as [v|a]; [|exact I].
  destruct (proj1 (proj2 law) b) as (b1 & E & P). rewrite E; cbn [obind].
  pose proof (m_lawful_out (fo_comps (vi_format v)) (vi_width v) (vi_height v) dst dls b1 (length (planes b)) 0 B (f_equal _ (eq_sym P))) as H.
  rewrite P in H. destruct (ma_out mc _ _ _ _ _ _ _ _ _) as [[b2 r]| |]; destruct (m_copy_out mc _ _ _ _ _ _ _) as [r'| |]; cbn in H |- *; try contradiction; auto.
  destruct H. auto.
Qed.

Lemma m_lawful_in : forall n w h i src sls comps b B,
  agrees (fun x y => planes x = fb_planes y) (ma_in mc impl b w h n i src sls comps) (m_copy_in mc (mk_fb B (planes b)) w h n i src sls comps).
Proof.
  induction n as [|n IH]; intros w h i src sls comps b B; [reflexivity|]. cbn [ma_in m_copy_in].
  destruct (law_linesize impl planes law b i) as (b1 & l & E1 & P1 & A1). rewrite E1; cbn [obind].
  unfold fb_slice, fb_linesize, answers in *; cbn [fb_planes]. destruct (nth_error (planes b) i) as [p|] eqn:Ep.
  2: { destruct A1 as [e ->]. exact I. }
  subst l; cbn [unwrap_ok obind]. destruct (hd_error sls) as [sl|]; [|exact I]. cbn [unwrap obind].
  destruct (law_mut impl planes law b1 i) as (b2 & s & E2 & P2 & A2). rewrite E2; cbn [obind].
  unfold answers in A2. rewrite P1, Ep in A2. subst s; cbn [unwrap_ok obind].
  destruct (hd_error src) as [ss|]; [|exact I]. cbn [unwrap obind].
  destruct (hd_error comps) as [cc|]; [|exact I]. cbn [unwrap obind]. destruct cc as [c|]; [|exact I]. cbn [unwrap obind].
  destruct (m_get_width mc c w) as [cw| |]; cbn [obind]; try exact I.
  destruct (m_get_height mc c h) as [ch| |]; cbn [obind]; try exact I.
  destruct (copy_plane _ _ _ _ _ _) as [d'| |] eqn:Ec; cbn [obind]; try exact I.
  apply copy_plane_length in Ec. unfold fb_set; cbn [fb_planes fb_buf]. rewrite Ep.
  specialize (IH w h (S i) (tl src) (tl sls) (tl comps) (fi_put impl b2 i d') B).
  rewrite (law_put impl planes law b2 i d' p) in IH by (rewrite ?P2, ?P1; assumption). rewrite P2, P1 in IH. exact IH.
Qed.

Lemma m_lawful_from k b t B src sls :
  agrees (fun x y => planes (af_buf x) = fb_planes (fr_buf y) /\ af_kind x = fr_kind y /\ af_t x = fr_t y)
    (ma_from_slice mc impl (mk_any k b t) src sls) (m_copy_from_slice mc (mk_frame k (mk_fb B (planes b)) t) src sls).
Proof.
  unfold ma_from_slice, m_copy_from_slice; cbn [af_kind af_buf af_t fr_kind fr_buf fr_t]. destruct k as [v|a]; [|exact I].
  destruct (proj1 (proj2 law) b) as (b1 & E & P). rewrite E; cbn [obind]. unfold fb_count; cbn [fb_planes].
  pose proof (m_lawful_in (length (planes b)) (vi_width v) (vi_height v) 0 src sls (fo_comps (vi_format v)) b1 B) as H.
  rewrite P in H. destruct (ma_in mc _ _ _ _ _ _ _ _ _) as [b2| |]; destruct (m_copy_in mc _ _ _ _ _ _ _ _) as [r'| |]; cbn in H |- *; try contradiction; auto.
Qed.

End Lawful.

Section Safe.
Context {F : Type}.
Variable mc : machine.
Variable impl : frame_impl F.
Variable inv : F -> Prop.
Hypothesis safe : safe_methods impl.
Hypothesis kept : keeps impl inv.

Lemma m_safe_out w h n : forall comps dst dls b i, inv b ->
  (forall k c, nth_error comps k = Some (Some c) -> answers_fit impl inv (i + k) (m_whole_component mc w h c)) -> m_buffers_fit mc w h comps dst dls ->
  ma_out mc impl b w h n i dst dls comps <> UB.
Proof.
  induction comps as [|c comps IH]; intros dst dls b i Hb Ha Hd; (destruct dst as [|d dst]; [discriminate|]); (destruct dls as [|dl dls]; [discriminate|]); [discriminate|].
  cbn [ma_out]. destruct (i <? n)%nat; [|discriminate].
  apply not_ub_obind; [apply safe|]. intros [b1 s] E1. pose proof (kept_slice impl inv kept _ _ _ _ Hb E1) as H1. apply not_ub_obind; [apply unwrap_ok_not_ub|]. intros src Es. apply unwrap_ok_inv in Es; subst.
  apply not_ub_obind; [apply safe|]. intros [b2 l] E2. pose proof (kept_linesize impl inv kept _ _ _ _ H1 E2) as H2. apply not_ub_obind; [apply unwrap_ok_not_ub|]. intros sl Es. apply unwrap_ok_inv in Es; subst.
  apply not_ub_obind; [apply unwrap_not_ub|]. intros c' Ec. apply unwrap_inv in Ec; subst.
  apply not_ub_obind; [apply m_sub_no_ub|]. intros cw Ew. apply not_ub_obind; [apply m_sub_no_ub|]. intros ch Eh.
  apply not_ub_obind.
  - apply copy_plane_not_ub; [apply (Hd 0%nat c' d dl); auto|].
    specialize (Ha 0%nat c' eq_refl). rewrite Nat.add_0_r in Ha. eapply Ha; [ | |eassumption|first [left; eassumption|right; eassumption]| |]; eassumption.
  - intros d' _. apply not_ub_obind; [|intros [b3 r] _; discriminate]. apply IH; [exact H2| |].
    + intros k c Hk. replace (S i + k)%nat with (i + S k)%nat by lia. apply Ha. exact Hk.
    + intros k c buf l Hk Hbuf Hl. apply (Hd (S k) c buf l); assumption.
Qed.

Lemma m_safe_frame v b t dst dls : inv b ->
  m_answers_fit_all mc impl inv (vi_width v) (vi_height v) (fo_comps (vi_format v)) ->
  m_buffers_fit mc (vi_width v) (vi_height v) (fo_comps (vi_format v)) dst dls ->
  ma_frame_to_buffer mc impl (mk_any (Video v) b t) dst dls <> UB.
Proof.
  intros Hb Ha Hd. unfold ma_frame_to_buffer; cbn [af_kind af_buf af_t].
  apply not_ub_obind; [apply (safe b 0%nat)|]. intros [b1 n] E1. pose proof (kept_count impl inv kept _ _ _ Hb E1) as H1.
  apply not_ub_obind; [|intros [b2 r] _; discriminate]. apply m_safe_out; assumption.
Qed.

Lemma m_safe_in w h : forall n comps src sls b i, inv b ->
  (forall k c, nth_error comps k = Some (Some c) -> answers_fit impl inv (i + k) (m_whole_component mc w h c)) -> m_buffers_fit mc w h comps src sls ->
  ma_in mc impl b w h n i src sls comps <> UB.
Proof.
  induction n as [|n IH]; intros comps src sls b i Hb Ha Hd; [discriminate|]. cbn [ma_in].
  apply not_ub_obind; [apply safe|]. intros [b1 l] E1. pose proof (kept_linesize impl inv kept _ _ _ _ Hb E1) as H1. apply not_ub_obind; [apply unwrap_ok_not_ub|]. intros dl Es. apply unwrap_ok_inv in Es; subst.
  apply not_ub_obind; [apply unwrap_not_ub|]. intros sl Esl. apply unwrap_inv in Esl.
  apply not_ub_obind; [apply safe|]. intros [b2 s] E2. apply not_ub_obind; [apply unwrap_ok_not_ub|]. intros data Es. apply unwrap_ok_inv in Es; subst.
  apply not_ub_obind; [apply unwrap_not_ub|]. intros ss Ess. apply unwrap_inv in Ess.
  apply not_ub_obind; [apply unwrap_not_ub|]. intros cc Ecc. apply unwrap_inv in Ecc.
  apply not_ub_obind; [apply unwrap_not_ub|]. intros c Ec. apply unwrap_inv in Ec; subst cc.
  apply not_ub_obind; [apply m_sub_no_ub|]. intros cw Ew. apply not_ub_obind; [apply m_sub_no_ub|]. intros ch Eh.
  destruct sls as [|sl' sls]; [discriminate|]. destruct src as [|ss' src]; [discriminate|]. destruct comps as [|cc comps]; [discriminate|].
  cbn in Esl, Ess, Ecc. inversion Esl; inversion Ess; inversion Ecc; subst. cbn [tl].
  apply not_ub_obind.
  - apply copy_plane_not_ub; [|apply (Hd 0%nat c ss sl); auto].
    specialize (Ha 0%nat c eq_refl). rewrite Nat.add_0_r in Ha. eapply Ha; [ | |eassumption|first [left; eassumption|right; eassumption]| |]; eassumption.
  - intros d' Ed. apply copy_plane_length in Ed. apply IH; [eapply (kept_put impl inv kept); eauto| |].
    + intros k c0 Hk. replace (S i + k)%nat with (i + S k)%nat by lia. apply Ha. exact Hk.
    + intros k c0 buf l Hk Hbuf Hl. apply (Hd (S k) c0 buf l); assumption.
Qed.

Lemma m_safe_from v b t src sls : inv b ->
  m_answers_fit_all mc impl inv (vi_width v) (vi_height v) (fo_comps (vi_format v)) ->
  m_buffers_fit mc (vi_width v) (vi_height v) (fo_comps (vi_format v)) src sls ->
  ma_from_slice mc impl (mk_any (Video v) b t) src sls <> UB.
Proof.
  intros Hb Ha Hd. unfold ma_from_slice; cbn [af_kind af_buf af_t].
  apply not_ub_obind; [apply (safe b 0%nat)|]. intros [b1 n] E1. pose proof (kept_count impl inv kept _ _ _ Hb E1) as H1.
  apply not_ub_obind; [|discriminate]. apply m_safe_in; assumption.
Qed.

End Safe.

Lemma m_out_lengths {F} mc (impl : frame_impl F) w h n : forall comps dst dls b i b' dst',
  ma_out mc impl b w h n i dst dls comps = Ret (b', dst') -> map (@length N) dst' = map (@length N) dst /\ forall k, (n <= i + k)%nat -> nth_error dst' k = nth_error dst k.
Proof.
  induction comps as [|c comps IH]; intros dst dls b i b' dst' E;
    (destruct dst as [|d dst]; [inversion E; auto|]); (destruct dls as [|dl dls]; [inversion E; auto|]); [inversion E; auto|].
  cbn [ma_out] in E. destruct (i <? n)%nat eqn:Ei; [|inversion E; auto].
  destruct (fi_slice impl b i) as [[b1 s]| |]; [|discriminate|discriminate]. cbn [obind] in E.
  destruct s as [src|]; [|discriminate]. cbn [unwrap_ok obind] in E.
  destruct (fi_linesize impl b1 i) as [[b2 l]| |]; [|discriminate|discriminate]. cbn [obind] in E.
  destruct l as [sl|]; [|discriminate]. cbn [unwrap_ok obind] in E.
  destruct c as [c|]; [|discriminate]. cbn [unwrap obind] in E.
  destruct (m_get_width mc c w) as [cw| |]; [|discriminate|discriminate]. cbn [obind] in E.
  destruct (m_get_height mc c h) as [ch| |]; [|discriminate|discriminate]. cbn [obind] in E.
  destruct (copy_plane _ _ _ _ _ _) as [d'| |] eqn:Ec; [|discriminate|discriminate]. cbn [obind] in E.
  destruct (ma_out mc _ _ _ _ _ _ _ _ _) as [[b3 r]| |] eqn:Er; [|discriminate|discriminate]. cbn [obind] in E. inversion E; subst.
  apply copy_plane_length in Ec. destruct (IH _ _ _ _ _ _ Er) as [H1 H2]. split; [cbn [map]; congruence|].
  intros [|k] Hk; [lia|]. cbn [nth_error]. apply H2. lia.
Qed.

Lemma m_frame_lengths {F} mc (impl : frame_impl F) : forall f dst dls f' dst', ma_frame_to_buffer mc impl f dst dls = Ret (f', dst') ->
  map (@length N) dst' = map (@length N) dst /\ af_kind f' = af_kind f /\ af_t f' = af_t f /\
  exists b n, fi_count impl (af_buf f) = Ret (b, n) /\ skipn n dst' = skipn n dst.
Proof.
  intros f dst dls f' dst' E. unfold ma_frame_to_buffer in E. destruct (af_kind f) as [v|a] eqn:Ek; [|discriminate].
  destruct (fi_count impl (af_buf f)) as [[b n]| |]; [|discriminate|discriminate]. cbn [obind] in E.
  destruct (ma_out mc _ _ _ _ _ _ _ _ _) as [[b2 r]| |] eqn:Er; [|discriminate|discriminate]. cbn [obind] in E. inversion E; subst.
  destruct (m_out_lengths mc impl _ _ _ _ _ _ _ _ _ _ Er) as [H1 H2]. split; [exact H1|]. split; [reflexivity|]. split; [reflexivity|].
  exists b, n. split; [reflexivity|].
  assert (G : forall (n : nat) (l l' : list (list N)), length l = length l' -> (forall k, (n <= k)%nat -> nth_error l k = nth_error l' k) -> skipn n l = skipn n l').
  { clear. induction n as [|n IH]; intros l l' Hl H.
    - cbn. revert l' Hl H. induction l as [|a l IH]; intros [|a' l'] Hl H; try discriminate; [reflexivity|].
      pose proof (H 0%nat ltac:(lia)) as H0. cbn in H0. inversion H0; subst. f_equal. apply IH; [cbn in Hl; lia|].
      intros k _. apply (H (S k)). lia.
    - destruct l as [|a l]; destruct l' as [|a' l']; try discriminate; [reflexivity|]. cbn. apply IH; [cbn in Hl; lia|].
      intros k Hk. apply (H (S k)). lia. }
  apply G; [rewrite <- (map_length (@length N) dst'), H1, map_length; reflexivity|]. intros k Hk. apply H2. lia.
Qed.

Section Wider.
Context {F : Type}.
Variables m n : machine.
Hypothesis Hc : checked m = true.
Hypothesis H1 : 1 <= bits m.
Hypothesis Hbits : bits m <= bits n.
Variable impl : frame_impl F.

Lemma any_out_wider w h cnt : forall dst dls comps b i o, ma_out m impl b w h cnt i dst dls comps = o -> o <> Panic ->
  ma_out n impl b w h cnt i dst dls comps = o.
Proof.
  induction dst as [|d dst IH]; intros dls comps b i o E Ho; cbn [ma_out] in *; [exact E|].
  destruct dls as [|dl dls]; [exact E|]. destruct comps as [|c comps]; [exact E|].
  destruct (i <? cnt)%nat; [|exact E].
  revert E. apply bind_same. intros [b1 s]. apply bind_same. intros src. apply bind_same. intros [b2 l]. apply bind_same. intros sl.
  apply bind_same. intros c'.
  apply bind_wider; [exact Ho|apply m_sub_no_ub|intros a; apply width_wider; assumption|]. intros cw.
  apply bind_wider; [exact Ho|apply m_sub_no_ub|intros a; apply height_wider; assumption|]. intros ch.
  apply bind_same. intros d'. intros E.
  destruct (ma_out m impl b2 w h cnt (S i) dst dls comps) as [[b3 r]| |] eqn:Er; cbn [obind] in E; [|congruence|].
  - rewrite (IH _ _ _ _ _ Er) by discriminate. exact E.
  - rewrite (IH _ _ _ _ _ Er) by discriminate. exact E.
Qed.

Lemma any_in_wider w h : forall k b i src sls comps o, ma_in m impl b w h k i src sls comps = o -> o <> Panic ->
  ma_in n impl b w h k i src sls comps = o.
Proof.
  induction k as [|k IH]; intros b i src sls comps o E Ho; cbn [ma_in] in *; [exact E|].
  revert E. apply bind_same. intros [b1 l]. apply bind_same. intros dl. apply bind_same. intros sl. apply bind_same. intros [b2 s].
  apply bind_same. intros data. apply bind_same. intros ss. apply bind_same. intros cc. apply bind_same. intros c.
  apply bind_wider; [exact Ho|apply m_sub_no_ub|intros a; apply width_wider; assumption|]. intros cw.
  apply bind_wider; [exact Ho|apply m_sub_no_ub|intros a; apply height_wider; assumption|]. intros ch.
  apply bind_same. intros d' E. apply IH; assumption.
Qed.

Lemma any_wider :
  (forall f dst dls o, ma_frame_to_buffer m impl f dst dls = o -> o <> Panic -> ma_frame_to_buffer n impl f dst dls = o) /\
  (forall f src sls o, ma_from_slice m impl f src sls = o -> o <> Panic -> ma_from_slice n impl f src sls = o).
Proof.
  split.
  - intros f dst dls o E Ho. unfold ma_frame_to_buffer in *. destruct (af_kind f) as [v|]; [|exact E].
    revert E. apply bind_same. intros [b1 cnt] E.
    destruct (ma_out m _ _ _ _ _ _ _ _ _) as [[b2 r]| |] eqn:Er; cbn [obind] in E; [|congruence|];
      rewrite (any_out_wider _ _ _ _ _ _ _ _ _ Er) by discriminate; exact E.
  - intros f src sls o E Ho. unfold ma_from_slice in *. destruct (af_kind f) as [v|]; [|exact E].
    revert E. apply bind_same. intros [b1 cnt] E.
    destruct (ma_in m _ _ _ _ _ _ _ _ _) as [b2| |] eqn:Er; cbn [obind] in E; [|congruence|];
      rewrite (any_in_wider _ _ _ _ _ _ _ _ _ Er) by discriminate; exact E.
Qed.
End Wider.

Lemma any_out_64 {F} (impl : frame_impl F) w h cnt : forall dst dls comps b i,
  ma_out x86_64 impl b w h cnt i dst dls comps = any_out impl b w h cnt i dst dls comps.
Proof.
  induction dst as [|d dst IH]; intros dls comps b i; [reflexivity|].
  destruct dls as [|dl dls]; [reflexivity|]. destruct comps as [|c comps]; [reflexivity|]. cbn [ma_out any_out]. rewrite width_64, height_64.
  destruct (i <? cnt)%nat; [|reflexivity]. destruct (fi_slice impl b i) as [[b1 s]| |]; cbn [obind]; [|reflexivity..].
  destruct (unwrap_ok s) as [src| |]; cbn [obind]; [|reflexivity..].
  destruct (fi_linesize impl b1 i) as [[b2 l]| |]; cbn [obind]; [|reflexivity..].
  destruct (unwrap_ok l) as [sl| |]; cbn [obind]; [|reflexivity..]. destruct (unwrap c) as [c'| |]; cbn [obind]; [|reflexivity..].
  destruct (get_width c' w) as [cw| |]; cbn [obind]; [|reflexivity..]. destruct (get_height c' h) as [ch| |]; cbn [obind]; [|reflexivity..].
  rewrite IH. reflexivity.
Qed.

Lemma any_in_64 {F} (impl : frame_impl F) w h : forall k b i src sls comps,
  ma_in x86_64 impl b w h k i src sls comps = any_in impl b w h k i src sls comps.
Proof.
  induction k as [|k IH]; intros b i src sls comps; [reflexivity|]. cbn [ma_in any_in]. rewrite width_64, height_64.
  destruct (fi_linesize impl b i) as [[b1 l]| |]; cbn [obind]; [|reflexivity..]. destruct (unwrap_ok l) as [dl| |]; cbn [obind]; [|reflexivity..].
  destruct (unwrap (hd_error sls)) as [sl| |]; cbn [obind]; [|reflexivity..].
  destruct (fi_mut_slice impl b1 i) as [[b2 s]| |]; cbn [obind]; [|reflexivity..]. destruct (unwrap_ok s) as [data| |]; cbn [obind]; [|reflexivity..].
  destruct (unwrap (hd_error src)) as [ss| |]; cbn [obind]; [|reflexivity..]. destruct (unwrap (hd_error comps)) as [cc| |]; cbn [obind]; [|reflexivity..].
  destruct (unwrap cc) as [c| |]; cbn [obind]; [|reflexivity..].
  destruct (get_width c w) as [cw| |]; cbn [obind]; [|reflexivity..]. destruct (get_height c h) as [ch| |]; cbn [obind]; [|reflexivity..].
  destruct (copy_plane _ _ _ _ _ _) as [d'| |]; cbn [obind]; [|reflexivity..]. apply IH.
Qed.

Lemma any_64 {F} (impl : frame_impl F) :
  (forall f dst dls, ma_frame_to_buffer x86_64 impl f dst dls = any_frame_to_buffer impl f dst dls) /\
  (forall f src sls, ma_from_slice x86_64 impl f src sls = any_from_slice impl f src sls).
Proof.
  split.
  - intros f dst dls. unfold ma_frame_to_buffer, any_frame_to_buffer. destruct (af_kind f); [|reflexivity].
    destruct (fi_count impl (af_buf f)) as [[b1 cnt]| |]; cbn [obind]; [|reflexivity..]. rewrite any_out_64. reflexivity.
  - intros f src sls. unfold ma_from_slice, any_from_slice. destruct (af_kind f); [|reflexivity].
    destruct (fi_count impl (af_buf f)) as [[b1 cnt]| |]; cbn [obind]; [|reflexivity..]. rewrite any_in_64. reflexivity.
Qed.
