(** Proofs about frames with any implementation of [FrameBuffer]. *)
From Coq Require Import List Arith NArith ZArith Bool Lia.
From Coq Require Import ZifyBool ZifyNat ZifyN.
From Verif Require Import Base PixelModel FrameModel FormatModel DataSpec AnyFrameModel AnyFrameSpec DataProofs FrameProofs FrameProofs2 FrameMain.
Import ListNotations.
Local Open Scope N_scope.

Lemma copy_plane_not_ub : forall dst dl src sl w h, whole_rows dst dl w h -> whole_rows src sl w h -> copy_plane dst dl src sl w h <> UB.
Proof.
  intros dst dl src sl w h Hd Hs E.
  rewrite <- (N2Nat.id dl), <- (N2Nat.id sl), <- (N2Nat.id w), <- (N2Nat.id h) in E.
  apply (proj1 (proj1 (c55_copy_plane_unsafe dst (N.to_nat dl) src (N.to_nat sl) (N.to_nat w) (N.to_nat h)))) in E.
  destruct E as (P1 & P2 & y & Hy & Y1 & Y2 & Hn). apply Hn.
  destruct Hd as [Hd|Hd]; [lia|]. destruct Hs as [Hs|Hs]; [lia|]. split; [apply Hd; lia|apply Hs; lia].
Qed.

Lemma copy_rows_length : forall h ds ss w rows, copy_rows ds ss w h = Ret rows -> length (concat rows) = length (concat ds).
Proof.
  induction h as [|h IH]; intros ds ss w rows E.
  - rewrite copy_rows_0 in E. inversion E. reflexivity.
  - destruct ds as [|d ds]; [cbn in E; inversion E; reflexivity|]. destruct ss as [|s ss]; [cbn in E; inversion E; reflexivity|]. cbn in E.
    destruct ((w <=? length d)%nat && (w <=? length s)%nat) eqn:Ew; [|discriminate].
    destruct (copy_rows ds ss w h) as [r| |] eqn:Er; [|discriminate|discriminate]. cbn in E. inversion E; subst.
    cbn [concat]. rewrite !app_length, firstn_length, skipn_length, (IH _ _ _ _ Er). lia.
Qed.

Lemma copy_plane_length : forall dst dl src sl w h dst', copy_plane dst dl src sl w h = Ret dst' -> length dst' = length dst.
Proof.
  intros dst dl src sl w h dst' E. unfold copy_plane, chunks in E.
  destruct (N.to_nat dl) as [|n] eqn:En; [discriminate|]. cbn [obind] in E.
  destruct (N.to_nat sl) as [|m]; [discriminate|]. cbn [obind] in E.
  destruct (copy_rows _ _ _ _) as [rows| |] eqn:Er; [|discriminate|discriminate]. cbn [obind] in E. inversion E; subst.
  rewrite (copy_rows_length _ _ _ _ _ Er), concat_chunks; lia.
Qed.

Lemma update_middle {A} : forall (before : list A) p after v, update (before ++ p :: after) (length before) v = before ++ v :: after.
Proof. induction before as [|x l IH]; intros; cbn; [reflexivity|]. rewrite IH. reflexivity. Qed.

Lemma default_lawful : lawful default_impl fb_planes.
Proof.
  unfold lawful, default_impl, answers; cbn. repeat split.
  - intros b i. do 2 eexists. split; [reflexivity|]. split; [reflexivity|]. unfold fb_linesize. destruct (nth_error _ _); eauto.
  - intros b. eexists. split; reflexivity.
  - intros b i. do 2 eexists. split; [reflexivity|]. split; [reflexivity|]. unfold fb_slice. destruct (nth_error _ _); eauto.
  - intros b i. do 2 eexists. split; [reflexivity|]. split; [reflexivity|]. unfold fb_slice. destruct (nth_error _ _); eauto.
  - intros b before p after data E _. unfold fb_set. rewrite E, nth_error_app2, Nat.sub_diag by lia. cbn. apply update_middle.
Qed.

Section Lawful.
Context {F : Type}.
Variable impl : frame_impl F.
Variable planes : F -> list plane.
Hypothesis law : lawful impl planes.

Lemma law_linesize b i : exists b' r, fi_linesize impl b i = Ret (b', r) /\ planes b' = planes b /\ answers (planes b) i pl_linesize r.
Proof. apply law. Qed.
Lemma law_slice b i : exists b' r, fi_slice impl b i = Ret (b', r) /\ planes b' = planes b /\ answers (planes b) i pl_buf r.
Proof. apply law. Qed.
Lemma law_mut b i : exists b' r, fi_mut_slice impl b i = Ret (b', r) /\ planes b' = planes b /\ answers (planes b) i pl_buf r.
Proof. apply law. Qed.
Lemma law_put b i data p : nth_error (planes b) i = Some p -> length data = length (pl_buf p) ->
  planes (fi_put impl b i data) = update (planes b) i (mk_plane data (pl_linesize p)).
Proof.
  intros Hp Hl. destruct (nth_error_split _ _ Hp) as (before & after & E & El). rewrite <- El.
  destruct law as (_ & _ & _ & _ & P). rewrite (P b before p after data E Hl), E. symmetry. apply update_middle.
Qed.

Lemma lawful_plane k b t B i dst dl :
  agrees (fun x y => snd x = y /\ planes (af_buf (fst x)) = planes b /\ af_kind (fst x) = k /\ af_t (fst x) = t)
    (any_plane_to_buffer impl (mk_any k b t) i dst dl) (copy_plane_to_buffer (mk_frame k (mk_fb B (planes b)) t) i dst dl).
Proof.
  unfold any_plane_to_buffer, copy_plane_to_buffer; cbn. destruct k as [v|a]; [|exact I].
  destruct (law_slice b i) as (b1 & s & E1 & P1 & A1). rewrite E1; cbn.
  unfold fb_slice, fb_linesize, answers in *; cbn. destruct (nth_error (planes b) i) as [p|] eqn:Ep.
  2: { destruct A1 as [e ->]. exact I. }
  subst s; cbn. destruct (law_linesize b1 i) as (b2 & l & E2 & P2 & A2). rewrite E2; cbn.
  unfold answers in A2. rewrite P1, Ep in A2. subst l; cbn.
  destruct (copy_plane _ _ _ _ _ _) as [d| |]; cbn; try exact I. repeat split. congruence.
Qed.

Lemma lawful_out : forall comps w h dst dls b n i B, n = length (planes b) ->
  agrees (fun x y => snd x = y /\ planes (fst x) = planes b)
    (any_out impl b w h n i dst dls comps) (copy_out (mk_fb B (planes b)) w h i dst dls comps).
Proof.
  induction comps as [|c comps IH]; intros w h dst dls b n i B Hn; (destruct dst as [|d dst]; [cbn; auto|]); (destruct dls as [|dl dls]; [cbn; auto|]); [cbn; auto|].
  cbn [any_out copy_out]. unfold fb_count; cbn [fb_planes]. rewrite <- Hn.
  destruct (i <? n)%nat; [|cbn; auto].
  destruct (law_slice b i) as (b1 & s & E1 & P1 & A1). rewrite E1; cbn [obind].
  unfold fb_slice, fb_linesize, answers in *; cbn [fb_planes]. destruct (nth_error (planes b) i) as [p|] eqn:Ep.
  2: { destruct A1 as [e ->]. exact I. }
  subst s; cbn [unwrap_ok obind]. destruct (law_linesize b1 i) as (b2 & l & E2 & P2 & A2). rewrite E2; cbn [obind].
  unfold answers in A2. rewrite P1, Ep in A2. subst l; cbn [unwrap_ok obind].
  destruct c as [c|]; [|exact I]. cbn [unwrap obind].
  destruct (get_width c w) as [cw| |]; cbn [obind]; try exact I.
  destruct (get_height c h) as [ch| |]; cbn [obind]; try exact I.
  destruct (copy_plane _ _ _ _ _ _) as [d'| |]; cbn [obind]; try exact I.
  specialize (IH w h dst dls b2 n (S i) B). rewrite P2, P1 in IH. specialize (IH Hn).
  destruct (any_out _ b2 _ _ _ _ _ _ _) as [[b3 r]| |]; destruct (copy_out _ _ _ _ _ _ _) as [r'| |]; cbn in IH |- *; try contradiction; auto.
  destruct IH as [-> ->]. auto.
Qed.

Lemma lawful_frame k b t B dst dls :
  agrees (fun x y => snd x = y /\ planes (af_buf (fst x)) = planes b /\ af_kind (fst x) = k /\ af_t (fst x) = t)
    (any_frame_to_buffer impl (mk_any k b t) dst dls) (copy_frame_to_buffer (mk_frame k (mk_fb B (planes b)) t) dst dls).
Proof.
  unfold any_frame_to_buffer, copy_frame_to_buffer; cbn. destruct k as [v|a]; [|exact I].
  destruct (proj1 (proj2 law) b) as (b1 & E & P). rewrite E; cbn [obind].
  pose proof (lawful_out (fo_comps (vi_format v)) (vi_width v) (vi_height v) dst dls b1 (length (planes b)) 0 B (f_equal _ (eq_sym P))) as H.
  rewrite P in H. destruct (any_out _ _ _ _ _ _ _ _ _) as [[b2 r]| |]; destruct (copy_out _ _ _ _ _ _ _) as [r'| |]; cbn in H |- *; try contradiction; auto.
  destruct H. auto.
Qed.

Lemma lawful_in : forall n w h i src sls comps b B,
  agrees (fun x y => planes x = fb_planes y) (any_in impl b w h n i src sls comps) (copy_in (mk_fb B (planes b)) w h n i src sls comps).
Proof.
  induction n as [|n IH]; intros w h i src sls comps b B; [reflexivity|]. cbn [any_in copy_in].
  destruct (law_linesize b i) as (b1 & l & E1 & P1 & A1). rewrite E1; cbn [obind].
  unfold fb_slice, fb_linesize, answers in *; cbn [fb_planes]. destruct (nth_error (planes b) i) as [p|] eqn:Ep.
  2: { destruct A1 as [e ->]. exact I. }
  subst l; cbn [unwrap_ok obind]. destruct (hd_error sls) as [sl|]; [|exact I]. cbn [unwrap obind].
  destruct (law_mut b1 i) as (b2 & s & E2 & P2 & A2). rewrite E2; cbn [obind].
  unfold answers in A2. rewrite P1, Ep in A2. subst s; cbn [unwrap_ok obind].
  destruct (hd_error src) as [ss|]; [|exact I]. cbn [unwrap obind].
  destruct (hd_error comps) as [cc|]; [|exact I]. cbn [unwrap obind]. destruct cc as [c|]; [|exact I]. cbn [unwrap obind].
  destruct (get_width c w) as [cw| |]; cbn [obind]; try exact I.
  destruct (get_height c h) as [ch| |]; cbn [obind]; try exact I.
  destruct (copy_plane _ _ _ _ _ _) as [d'| |] eqn:Ec; cbn [obind]; try exact I.
  apply copy_plane_length in Ec. unfold fb_set; cbn [fb_planes fb_buf]. rewrite Ep.
  specialize (IH w h (S i) (tl src) (tl sls) (tl comps) (fi_put impl b2 i d') B).
  rewrite (law_put b2 i d' p) in IH by (rewrite ?P2, ?P1; assumption). rewrite P2, P1 in IH. exact IH.
Qed.

Lemma lawful_from k b t B src sls :
  agrees (fun x y => planes (af_buf x) = fb_planes (fr_buf y) /\ af_kind x = fr_kind y /\ af_t x = fr_t y)
    (any_from_slice impl (mk_any k b t) src sls) (copy_from_slice (mk_frame k (mk_fb B (planes b)) t) src sls).
Proof.
  unfold any_from_slice, copy_from_slice; cbn [af_kind af_buf af_t fr_kind fr_buf fr_t]. destruct k as [v|a]; [|exact I].
  destruct (proj1 (proj2 law) b) as (b1 & E & P). rewrite E; cbn [obind]. unfold fb_count; cbn [fb_planes].
  pose proof (lawful_in (length (planes b)) (vi_width v) (vi_height v) 0 src sls (fo_comps (vi_format v)) b1 B) as H.
  rewrite P in H. destruct (any_in _ _ _ _ _ _ _ _ _) as [b2| |]; destruct (copy_in _ _ _ _ _ _ _ _) as [r'| |]; cbn in H |- *; try contradiction; auto.
Qed.
End Lawful.

Section Safe.
Context {F : Type}.
Variable impl : frame_impl F.
Variable inv : F -> Prop.
Hypothesis safe : safe_methods impl.
Hypothesis kept : keeps impl inv.

Lemma not_ub_obind {A B} (x : outcome A) (k : A -> outcome B) : x <> UB -> (forall a, x = Ret a -> k a <> UB) -> obind x k <> UB.
Proof. destruct x; cbn; intros H K; [apply K; reflexivity|discriminate|congruence]. Qed.
Lemma unwrap_not_ub {A} (o : option A) : unwrap o <> UB. Proof. destruct o; discriminate. Qed.
Lemma unwrap_ok_not_ub {A E} (r : result A E) : unwrap_ok r <> UB. Proof. destruct r; discriminate. Qed.
Lemma unwrap_inv {A} (o : option A) a : unwrap o = Ret a -> o = Some a. Proof. destruct o; cbn; congruence. Qed.
Lemma unwrap_ok_inv {A E} (r : result A E) a : unwrap_ok r = Ret a -> r = Okay a. Proof. destruct r; cbn; congruence. Qed.

Lemma kept_linesize b i b' r : inv b -> fi_linesize impl b i = Ret (b', r) -> inv b'.
Proof. apply kept. Qed.
Lemma kept_count b b' n : inv b -> fi_count impl b = Ret (b', n) -> inv b'.
Proof. apply kept. Qed.
Lemma kept_slice b i b' r : inv b -> fi_slice impl b i = Ret (b', r) -> inv b'.
Proof. apply kept. Qed.
Lemma kept_put b i b' buf data : inv b -> fi_mut_slice impl b i = Ret (b', Okay buf) -> length data = length buf -> inv (fi_put impl b' i data).
Proof. apply kept. Qed.

Lemma safe_plane v b t i dst dl : inv b ->
  answers_fit impl inv i (fun buf l => whole_rows buf l (vi_width v) (vi_height v)) -> whole_rows dst dl (vi_width v) (vi_height v) ->
  any_plane_to_buffer impl (mk_any (Video v) b t) i dst dl <> UB.
Proof.
  intros Hb Ha Hd. unfold any_plane_to_buffer; cbn [af_kind af_buf af_t].
  apply not_ub_obind; [apply safe|]. intros [b1 s] E1. pose proof (kept_slice _ _ _ _ Hb E1) as H1. apply not_ub_obind; [apply unwrap_ok_not_ub|]. intros src Es. apply unwrap_ok_inv in Es; subst.
  apply not_ub_obind; [apply safe|]. intros [b2 l] E2. pose proof (kept_linesize _ _ _ _ H1 E2) as H2. apply not_ub_obind; [apply unwrap_ok_not_ub|]. intros sl Es. apply unwrap_ok_inv in Es; subst.
  apply not_ub_obind; [|discriminate]. apply copy_plane_not_ub; [exact Hd|]. eapply Ha; [ | |eassumption|first [left; eassumption|right; eassumption]]; eassumption.
Qed.

Lemma safe_out w h n : forall comps dst dls b i, inv b ->
  (forall k c, nth_error comps k = Some (Some c) -> answers_fit impl inv (i + k) (whole_component w h c)) -> buffers_fit w h comps dst dls ->
  any_out impl b w h n i dst dls comps <> UB.
Proof.
  induction comps as [|c comps IH]; intros dst dls b i Hb Ha Hd; (destruct dst as [|d dst]; [discriminate|]); (destruct dls as [|dl dls]; [discriminate|]); [discriminate|].
  cbn [any_out]. destruct (i <? n)%nat; [|discriminate].
  apply not_ub_obind; [apply safe|]. intros [b1 s] E1. pose proof (kept_slice _ _ _ _ Hb E1) as H1. apply not_ub_obind; [apply unwrap_ok_not_ub|]. intros src Es. apply unwrap_ok_inv in Es; subst.
  apply not_ub_obind; [apply safe|]. intros [b2 l] E2. pose proof (kept_linesize _ _ _ _ H1 E2) as H2. apply not_ub_obind; [apply unwrap_ok_not_ub|]. intros sl Es. apply unwrap_ok_inv in Es; subst.
  apply not_ub_obind; [apply unwrap_not_ub|]. intros c' Ec. apply unwrap_inv in Ec; subst.
  apply not_ub_obind; [apply sub_size_no_ub|]. intros cw Ew. apply not_ub_obind; [apply sub_size_no_ub|]. intros ch Eh.
  apply not_ub_obind.
  - apply copy_plane_not_ub; [apply (Hd 0%nat c' d dl); auto|].
    specialize (Ha 0%nat c' eq_refl). rewrite Nat.add_0_r in Ha. eapply Ha; [ | |eassumption|first [left; eassumption|right; eassumption]| |]; eassumption.
  - intros d' _. apply not_ub_obind; [|intros [b3 r] _; discriminate]. apply IH; [exact H2| |].
    + intros k c Hk. replace (S i + k)%nat with (i + S k)%nat by lia. apply Ha. exact Hk.
    + intros k c buf l Hk Hbuf Hl. apply (Hd (S k) c buf l); assumption.
Qed.

Lemma safe_frame v b t dst dls : inv b ->
  answers_fit_all impl inv (vi_width v) (vi_height v) (fo_comps (vi_format v)) ->
  buffers_fit (vi_width v) (vi_height v) (fo_comps (vi_format v)) dst dls ->
  any_frame_to_buffer impl (mk_any (Video v) b t) dst dls <> UB.
Proof.
  intros Hb Ha Hd. unfold any_frame_to_buffer; cbn [af_kind af_buf af_t].
  apply not_ub_obind; [apply (safe b 0%nat)|]. intros [b1 n] E1. pose proof (kept_count _ _ _ Hb E1) as H1.
  apply not_ub_obind; [|intros [b2 r] _; discriminate]. apply safe_out; assumption.
Qed.

Lemma safe_in w h : forall n comps src sls b i, inv b ->
  (forall k c, nth_error comps k = Some (Some c) -> answers_fit impl inv (i + k) (whole_component w h c)) -> buffers_fit w h comps src sls ->
  any_in impl b w h n i src sls comps <> UB.
Proof.
  induction n as [|n IH]; intros comps src sls b i Hb Ha Hd; [discriminate|]. cbn [any_in].
  apply not_ub_obind; [apply safe|]. intros [b1 l] E1. pose proof (kept_linesize _ _ _ _ Hb E1) as H1. apply not_ub_obind; [apply unwrap_ok_not_ub|]. intros dl Es. apply unwrap_ok_inv in Es; subst.
  apply not_ub_obind; [apply unwrap_not_ub|]. intros sl Esl. apply unwrap_inv in Esl.
  apply not_ub_obind; [apply safe|]. intros [b2 s] E2. apply not_ub_obind; [apply unwrap_ok_not_ub|]. intros data Es. apply unwrap_ok_inv in Es; subst.
  apply not_ub_obind; [apply unwrap_not_ub|]. intros ss Ess. apply unwrap_inv in Ess.
  apply not_ub_obind; [apply unwrap_not_ub|]. intros cc Ecc. apply unwrap_inv in Ecc.
  apply not_ub_obind; [apply unwrap_not_ub|]. intros c Ec. apply unwrap_inv in Ec; subst cc.
  apply not_ub_obind; [apply sub_size_no_ub|]. intros cw Ew. apply not_ub_obind; [apply sub_size_no_ub|]. intros ch Eh.
  destruct sls as [|sl' sls]; [discriminate|]. destruct src as [|ss' src]; [discriminate|]. destruct comps as [|cc comps]; [discriminate|].
  cbn in Esl, Ess, Ecc. inversion Esl; inversion Ess; inversion Ecc; subst. cbn [tl].
  apply not_ub_obind.
  - apply copy_plane_not_ub; [|apply (Hd 0%nat c ss sl); auto].
    specialize (Ha 0%nat c eq_refl). rewrite Nat.add_0_r in Ha. eapply Ha; [ | |eassumption|first [left; eassumption|right; eassumption]| |]; eassumption.
  - intros d' Ed. apply copy_plane_length in Ed. apply IH; [eapply kept_put; eauto| |].
    + intros k c0 Hk. replace (S i + k)%nat with (i + S k)%nat by lia. apply Ha. exact Hk.
    + intros k c0 buf l Hk Hbuf Hl. apply (Hd (S k) c0 buf l); assumption.
Qed.

Lemma safe_from v b t src sls : inv b ->
  answers_fit_all impl inv (vi_width v) (vi_height v) (fo_comps (vi_format v)) ->
  buffers_fit (vi_width v) (vi_height v) (fo_comps (vi_format v)) src sls ->
  any_from_slice impl (mk_any (Video v) b t) src sls <> UB.
Proof.
  intros Hb Ha Hd. unfold any_from_slice; cbn [af_kind af_buf af_t].
  apply not_ub_obind; [apply (safe b 0%nat)|]. intros [b1 n] E1. pose proof (kept_count _ _ _ Hb E1) as H1.
  apply not_ub_obind; [|discriminate]. apply safe_in; assumption.
Qed.
End Safe.

Lemma out_lengths {F} (impl : frame_impl F) w h n : forall comps dst dls b i b' dst',
  any_out impl b w h n i dst dls comps = Ret (b', dst') -> map (@length N) dst' = map (@length N) dst /\ forall k, (n <= i + k)%nat -> nth_error dst' k = nth_error dst k.
Proof.
  induction comps as [|c comps IH]; intros dst dls b i b' dst' E;
    (destruct dst as [|d dst]; [inversion E; auto|]); (destruct dls as [|dl dls]; [inversion E; auto|]); [inversion E; auto|].
  cbn [any_out] in E. destruct (i <? n)%nat eqn:Ei; [|inversion E; auto].
  destruct (fi_slice impl b i) as [[b1 s]| |]; [|discriminate|discriminate]. cbn [obind] in E.
  destruct s as [src|]; [|discriminate]. cbn [unwrap_ok obind] in E.
  destruct (fi_linesize impl b1 i) as [[b2 l]| |]; [|discriminate|discriminate]. cbn [obind] in E.
  destruct l as [sl|]; [|discriminate]. cbn [unwrap_ok obind] in E.
  destruct c as [c|]; [|discriminate]. cbn [unwrap obind] in E.
  destruct (get_width c w) as [cw| |]; [|discriminate|discriminate]. cbn [obind] in E.
  destruct (get_height c h) as [ch| |]; [|discriminate|discriminate]. cbn [obind] in E.
  destruct (copy_plane _ _ _ _ _ _) as [d'| |] eqn:Ec; [|discriminate|discriminate]. cbn [obind] in E.
  destruct (any_out _ _ _ _ _ _ _ _ _) as [[b3 r]| |] eqn:Er; [|discriminate|discriminate]. cbn [obind] in E. inversion E; subst.
  apply copy_plane_length in Ec. destruct (IH _ _ _ _ _ _ Er) as [H1 H2]. split; [cbn [map]; congruence|].
  intros [|k] Hk; [lia|]. cbn [nth_error]. apply H2. lia.
Qed.

Lemma frame_lengths {F} (impl : frame_impl F) : forall f dst dls f' dst', any_frame_to_buffer impl f dst dls = Ret (f', dst') ->
  map (@length N) dst' = map (@length N) dst /\ af_kind f' = af_kind f /\ af_t f' = af_t f /\
  exists b n, fi_count impl (af_buf f) = Ret (b, n) /\ skipn n dst' = skipn n dst.
Proof.
  intros f dst dls f' dst' E. unfold any_frame_to_buffer in E. destruct (af_kind f) as [v|a] eqn:Ek; [|discriminate].
  destruct (fi_count impl (af_buf f)) as [[b n]| |]; [|discriminate|discriminate]. cbn [obind] in E.
  destruct (any_out _ _ _ _ _ _ _ _ _) as [[b2 r]| |] eqn:Er; [|discriminate|discriminate]. cbn [obind] in E. inversion E; subst.
  destruct (out_lengths impl _ _ _ _ _ _ _ _ _ _ Er) as [H1 H2]. split; [exact H1|]. split; [reflexivity|]. split; [reflexivity|].
  exists b, n. split; [reflexivity|].
  assert (G : forall (n : nat) (l l' : list (list N)), length l = length l' -> (forall k, (n <= k)%nat -> nth_error l k = nth_error l' k) -> skipn n l = skipn n l').
  { clear. induction n as [|n IH]; intros l l' Hl H.
    - cbn. revert l' Hl H. induction l as [|a l IH]; intros [|a' l'] Hl H; try discriminate; [reflexivity|].
      pose proof (H 0%nat ltac:(lia)) as H0. cbn in H0. inversion H0; subst. f_equal. apply IH; [cbn in Hl; lia|].
      intros k _. apply (H (S k)). lia.
    - destruct l as [|a l]; destruct l' as [|a' l']; try discriminate; [reflexivity|]. cbn. apply IH; [cbn in Hl; lia|].
      intros k Hk. apply (H (S k)). lia. }
  apply G; [rewrite <- (map_length (@length N) dst'), H1, map_length; reflexivity|]. intros k Hk. apply H2. lia.
Qed.

Lemma plane_length {F} (impl : frame_impl F) : forall f i dst dl f' dst', any_plane_to_buffer impl f i dst dl = Ret (f', dst') ->
  length dst' = length dst /\ af_kind f' = af_kind f /\ af_t f' = af_t f.
Proof.
  intros f i dst dl f' dst' E. unfold any_plane_to_buffer in E. destruct (af_kind f) as [v|a] eqn:Ek; [|discriminate].
  destruct (fi_slice impl _ i) as [[b1 s]| |]; [|discriminate|discriminate]. cbn [obind] in E.
  destruct s as [src|]; [|discriminate]. cbn [unwrap_ok obind] in E.
  destruct (fi_linesize impl b1 i) as [[b2 l]| |]; [|discriminate|discriminate]. cbn [obind] in E.
  destruct l as [sl|]; [|discriminate]. cbn [unwrap_ok obind] in E.
  destruct (copy_plane _ _ _ _ _ _) as [d'| |] eqn:Ec; [|discriminate|discriminate]. cbn [obind] in E. inversion E; subst.
  apply copy_plane_length in Ec. auto.
Qed.

Lemma plane_calls {F} (impl : frame_impl F) : forall f i dst dl f' dst', any_plane_to_buffer impl f i dst dl = Ret (f', dst') ->
  exists v b1 src l, af_kind f = Video v /\ fi_slice impl (af_buf f) i = Ret (b1, Okay src) /\ fi_linesize impl b1 i = Ret (af_buf f', Okay l) /\
    copy_plane dst dl src l (vi_width v) (vi_height v) = Ret dst'.
Proof.
  intros f i dst dl f' dst' E. unfold any_plane_to_buffer in E. destruct (af_kind f) as [v|a] eqn:Ek; [|discriminate].
  destruct (fi_slice impl _ i) as [[b1 s]| |] eqn:Es; [|discriminate|discriminate]. cbn [obind] in E.
  destruct s as [src|]; [|discriminate]. cbn [unwrap_ok obind] in E.
  destruct (fi_linesize impl b1 i) as [[b2 l]| |] eqn:El; [|discriminate|discriminate]. cbn [obind] in E.
  destruct l as [sl|]; [|discriminate]. cbn [unwrap_ok obind] in E.
  destruct (copy_plane _ _ _ _ _ _) as [d'| |] eqn:Ec; [|discriminate|discriminate]. cbn [obind] in E. inversion E; subst.
  exists v, b1, src, sl. auto.
Qed.

Lemma liar_safe said : safe_methods (liar said).
Proof. intros b i. repeat split; discriminate. Qed.

Lemma any_views {F} (impl : frame_impl F) : forall b i addr size b' r, In size [1; 2; 4] -> fi_slice impl b i = Ret (b', r) ->
  exists a, any_as_slice impl b i addr size = Ret (b', a) /\
    (forall e, r = Error e -> a = Error e) /\
    (forall buf, r = Okay buf -> addr mod size = 0 -> N.of_nat (length buf) mod size = 0 ->
       exists l, a = Okay l /\ concat l = buf /\ forall e, In e l -> N.of_nat (length e) = size) /\
    (forall buf, r = Okay buf -> addr mod size <> 0 \/ N.of_nat (length buf) mod size <> 0 -> a = Error InvalidConversion).
Proof.
  intros b i addr size b' r Hs E. unfold any_as_slice. rewrite E. cbn [obind].
  assert (Ps : 0 < size) by (cbn in Hs; destruct Hs as [<-|[<-|[<-|[]]]]; reflexivity).
  destruct r as [buf|e].
  - eexists. split; [reflexivity|]. split; [discriminate|]. split.
    + intros buf' Eb A B. inversion Eb; subst buf'. rewrite A, B. cbn [N.eqb andb].
      pose proof (N.div_mod (N.of_nat (length buf)) size ltac:(lia)) as D. rewrite B in D.
      destruct (FrameProofs2.group_exact (N.to_nat size) buf ltac:(lia) (length buf) (N.to_nat (N.of_nat (length buf) / size)) (le_n _) ltac:(nia)) as [G1 G2].
      eexists. split; [reflexivity|]. split; [exact G1|]. intros x Hx. rewrite (G2 x Hx). lia.
    + intros buf' Eb H. inversion Eb; subst buf'.
      destruct (N.eqb_spec (addr mod size) 0); [|reflexivity]. destruct (N.eqb_spec (N.of_nat (length buf) mod size) 0); [|reflexivity]. tauto.
  - eexists. split; [reflexivity|]. split; [intros e' Ee; inversion Ee; reflexivity|]. split; discriminate.
Qed.

Lemma liar_lawful : lawful (liar (fun _ => 3)) (fun b => [mk_plane (snd b) 3]).
Proof.
  unfold lawful, liar, answers; cbn. split; [|split; [|split; [|split]]].
  - intros b [|i]; do 2 eexists; (split; [reflexivity|]); (split; [reflexivity|]); [reflexivity|]. destruct i; cbn; eauto.
  - intros b. eexists. split; reflexivity.
  - intros b [|i]; do 2 eexists; (split; [reflexivity|]); (split; [reflexivity|]); [reflexivity|]. destruct i; cbn; eauto.
  - intros b [|i]; do 2 eexists; (split; [reflexivity|]); (split; [reflexivity|]); [reflexivity|]. destruct i; cbn; eauto.
  - intros b before p after data E Hl. destruct before as [|x [|y before]]; cbn in E; inversion E; subst; reflexivity.
Qed.

Lemma trust_refuted : exists (F : Type) (impl : frame_impl F) v b,
  safe_methods impl /\ vi_width v = 4 /\ vi_height v = 1 /\
  any_plane_to_buffer impl (mk_any (Video v) b default_time) 0 [0; 0; 0; 0] 4 = UB /\
  any_frame_to_buffer impl (mk_any (Video v) b default_time) [[0; 0; 0; 0]] [4] = UB /\
  any_from_slice impl (mk_any (Video v) b default_time) [[0; 0; 0; 0]] [4] = UB.
Proof.
  exists (nat * list N)%type, (liar (fun _ => 4)), (mk_video 4 1 false FrameI (plain_format RGB 1 [Some (pal8 0)] 1 false true) 8), (0%nat, [1; 2; 3]).
  split; [apply liar_safe|]. repeat apply conj; vm_compute; reflexivity.
Qed.

Lemma checked_refuted : exists (F : Type) (impl : frame_impl F) v b b1 l b2 buf c,
  safe_methods impl /\ fo_comps (vi_format v) = [Some c] /\
  fi_linesize impl b 0 = Ret (b1, Okay l) /\ fi_slice impl b1 0 = Ret (b2, Okay buf) /\ room (vi_width v) (vi_height v) c buf l /\
  any_frame_to_buffer impl (mk_any (Video v) b2 default_time) [[0; 0; 0; 0]] [2] = UB /\
  any_from_slice impl (mk_any (Video v) b2 default_time) [[0; 0; 0; 0]] [2] = UB.
Proof.
  exists (nat * list N)%type, (liar (fun n => match n with O => 3 | S _ => 1 end)), (mk_video 2 1 false FrameI (plain_format RGB 1 [Some (pal8 0)] 1 false true) 8), (0%nat, [1; 2; 3]).
  exists (1%nat, [1; 2; 3]), 3, (1%nat, [1; 2; 3]), [1; 2; 3], (pal8 0).
  split; [apply liar_safe|]. split; [reflexivity|]. split; [reflexivity|]. split; [reflexivity|].
  split; [|split; vm_compute; reflexivity].
  exists 2, 1. split; [reflexivity|]. split; [reflexivity|]. unfold holds; cbn. lia.
Qed.

Lemma liar_fits :
  let inv (b : nat * list N) := length (snd b) = 3%nat in
  safe_methods (liar (fun _ => 3)) /\ keeps (liar (fun _ => 3)) inv /\ inv (0%nat, [1; 2; 3]) /\
  answers_fit_all (liar (fun _ => 3)) inv 2 1 [Some (pal8 0)] /\ buffers_fit 2 1 [Some (pal8 0)] [[11; 12]] [2].
Proof.
  cbv zeta. split; [apply liar_safe|]. split; [|split; [reflexivity|split]].
  - unfold keeps, liar; cbn. repeat split.
    + intros b i b' r H E. inversion E; subst. exact H.
    + intros b b' n H E. inversion E; subst. exact H.
    + intros b i b' r H E. inversion E; subst. exact H.
    + intros b [|i] b' buf data H E L; inversion E; subst. cbn. congruence.
  - intros [|[|k]] c Hk; cbn in Hk; [|discriminate|discriminate]. inversion Hk; subst c.
    unfold answers_fit, liar; cbn. intros b b1 l b2 b3 buf H H2 E1 E2. inversion E1; subst.
    assert (Eb : buf = snd b2) by (destruct E2 as [E2|E2]; inversion E2; reflexivity). subst buf.
    intros cw ch Ew Eh. inversion Ew; inversion Eh; subst. right. intros y Hy _. assert (y = 0%nat) as -> by (cbn in Hy; lia). unfold row_complete. rewrite H2. cbn. lia.
  - intros [|[|k]] c buf l Hk Hb Hl; cbn in Hk; [|discriminate|discriminate]. inversion Hk; inversion Hb; inversion Hl; subst.
    intros cw ch Ew Eh. inversion Ew; inversion Eh; subst. right. intros y Hy _. assert (y = 0%nat) as -> by (cbn in Hy; lia). unfold row_complete. cbn. lia.
Qed.
