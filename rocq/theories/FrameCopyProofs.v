(** When copying a picture into a default frame, or out of it, is defined. *)
From Coq Require Import List Arith NArith ZArith Bool Lia.
From Coq Require Import ZifyBool ZifyNat ZifyN.
From Verif Require Import Base AudioModel PixelModel FrameModel FormatModel DataSpec DataProofs FrameProofs FrameProofs2 FrameMain.
Import ListNotations.
Local Open Scope nat_scope.

(** The copy of a component that does not fit. *)
Lemma misfit_in w h c p src sl X o : zero_plane w h c p -> room w h c src sl -> misfit w h c X o ->
  exists cw ch, get_width c w = Ret cw /\ get_height c h = Ret ch /\
    (o = Panic /\ copy_plane (pl_buf p) (pl_linesize p) src sl cw ch = Panic /\ copy_plane src sl (pl_buf p) (pl_linesize p) cw ch = Panic \/
     o = UB /\ copy_plane (pl_buf p) (pl_linesize p) src sl cw ch = UB /\ copy_plane src sl (pl_buf p) (pl_linesize p) cw ch = UB).
Proof.
  intros (s & rows & E1 & E2 & P1 & P2) (cw & ch & R1 & R2 & R3) (s' & cw' & ch' & M1 & M2 & M3 & M4).
  assert (Es : s' = s) by congruence. assert (Ew : cw' = cw) by congruence. assert (Eh : ch' = ch) by congruence. assert (Er : rows = ch) by congruence.
  rewrite Es, Ew, Eh in M4. rewrite Er in P2. clear Es Ew Eh Er M1 M2 M3 E1 E2. rewrite P1.
  exists cw, ch. split; [exact R1|]. split; [exact R2|]. destruct M4 as [[-> ->]|(S1 & S2 & S3 & ->)].
  - left. split; [reflexivity|]. split; apply copy_plane_panic; tauto.
  - right. split; [reflexivity|]. destruct R3 as (R3 & [R4|[R4 R5]]); [lia|].
    assert (L : length (pl_buf p) = N.to_nat s * N.to_nat ch) by (rewrite P2, repeat_length; lia).
    rewrite <- (N2Nat.id sl), <- (N2Nat.id s), <- (N2Nat.id cw), <- (N2Nat.id ch).
    split; (eapply (proj1 (c55_copy_plane_unsafe _ _ _ _ _ _)); split; [lia|split; [lia|]]);
      exists 0; rewrite L; unfold row_complete; cbn [Nat.mul];
      (split; [lia|split; [nia|split; [nia|lia]]]).
Qed.

Lemma copy_in_misfit B w h cs : forall todo done srcs sls tail o,
  Forall2 (zero_plane w h) cs todo -> rooms w h cs srcs sls -> first_misfit w h cs frame_buffer o ->
  copy_in (mk_fb B (done ++ todo)) w h (length todo) (length done) srcs sls (map Some cs ++ tail) = o.
Proof.
  induction cs as [|c cs IH]; intros todo done srcs sls tail o Hp Hs (before & c' & after & Eq & HF & HM).
  - destruct before; discriminate Eq.
  - destruct todo as [|p todo]; [inversion Hp|]. inversion Hp as [|? ? ? ? Zp Zt]. subst.
    destruct srcs as [|src srcs]; [destruct Hs as [L _]; discriminate L|].
    destruct sls as [|sl sls]; [destruct Hs as [_ [L _]]; discriminate L|].
    apply rooms_cons in Hs. destruct Hs as [Rs Hs].
    cbn [length copy_in]. unfold fb_linesize, fb_slice, fb_set. cbn [fb_planes fb_buf].
    rewrite nth_error_app2, Nat.sub_diag by apply le_n. cbn [nth_error unwrap_ok obind hd_error unwrap map app tl].
    destruct before as [|c0 before]; cbn [app] in Eq; injection Eq as Ec Ecs.
    + subst c'. destruct (misfit_in w h c p src sl _ _ Zp Rs HM) as (cw & ch & E1 & E2 & Q).
      rewrite E1. cbn [obind]. rewrite E2. cbn [obind].
      destruct Q as [(-> & Q & _)|(-> & Q & _)]; rewrite Q; reflexivity.
    + subst c0. inversion HF as [|? ? Fc Fr]. subst.
      destruct (copy_component w h c (pl_buf p) (pl_linesize p) src sl (plane_room _ _ _ _ Fc Zp) Rs) as (cw & ch & data & E1 & E2 & E3 & HC).
      rewrite E1. cbn [obind]. rewrite E2. cbn [obind]. rewrite E3. cbn [obind]. rewrite update_app.
      pose proof (IH todo (done ++ [mk_plane data (pl_linesize p)]) srcs sls tail o Zt Hs) as I1.
      rewrite app_length, <- !app_assoc in I1. cbn [length app] in I1. rewrite Nat.add_1_r in I1. apply I1.
      exists before, c', after. split; [reflexivity|]. split; assumption.
Qed.

Lemma copy_out_misfit B w h cs : forall todo done dsts dls tail o,
  Forall2 (zero_plane w h) cs todo -> rooms w h cs dsts dls -> first_misfit w h cs (list (list N)) o ->
  copy_out (mk_fb B (done ++ todo)) w h (length done) dsts dls (map Some cs ++ tail) = o.
Proof.
  induction cs as [|c cs IH]; intros todo done srcs sls tail o Hp Hs (before & c' & after & Eq & HF & HM).
  - destruct before; discriminate Eq.
  - destruct todo as [|p todo]; [inversion Hp|]. inversion Hp as [|? ? ? ? Zp Zt]. subst.
    destruct srcs as [|src srcs]; [destruct Hs as [L _]; discriminate L|].
    destruct sls as [|sl sls]; [destruct Hs as [_ [L _]]; discriminate L|].
    apply rooms_cons in Hs. destruct Hs as [Rs Hs].
    cbn [map app copy_out]. unfold fb_count, fb_linesize, fb_slice. cbn [fb_planes].
    rewrite app_length. cbn [length]. rewrite (proj2 (Nat.ltb_lt _ _)) by lia.
    rewrite nth_error_app2, Nat.sub_diag by apply le_n. cbn [nth_error unwrap_ok obind unwrap].
    destruct before as [|c0 before]; cbn [app] in Eq; injection Eq as Ec Ecs.
    + subst c'. destruct (misfit_in w h c p src sl _ _ Zp Rs HM) as (cw & ch & E1 & E2 & Q).
      rewrite E1. cbn [obind]. rewrite E2. cbn [obind].
      destruct Q as [(-> & _ & Q)|(-> & _ & Q)]; rewrite Q; reflexivity.
    + subst c0. inversion HF as [|? ? Fc Fr]. subst.
      destruct (copy_component w h c src sl (pl_buf p) (pl_linesize p) Rs (plane_room _ _ _ _ Fc Zp)) as (cw & ch & data & E1 & E2 & E3 & HC).
      rewrite E1. cbn [obind]. rewrite E2. cbn [obind]. rewrite E3. cbn [obind].
      pose proof (IH todo (done ++ [p]) srcs sls tail o Zt Hs) as I1.
      rewrite app_length, <- !app_assoc in I1. cbn [length app] in I1. rewrite Nat.add_1_r in I1. rewrite I1.
      * destruct HM as (? & ? & ? & _ & _ & _ & [[_ ->]|(_ & _ & _ & ->)]); reflexivity.
      * exists before, c', after. split; [reflexivity|]. split; assumption.
Qed.

Lemma first_misfit_other w h cs X Y o : first_misfit w h cs X o -> exists o' : outcome Y, first_misfit w h cs Y o' /\ (o = Panic /\ o' = Panic \/ o = UB /\ o' = UB).
Proof.
  intros (b & c & a & E & F & s & cw & ch & M1 & M2 & M3 & [[M4 M5]|(M4 & M5 & M6 & M7)]).
  - exists Panic. split; [|left; split; [exact M5|reflexivity]]. exists b, c, a. split; [exact E|]. split; [exact F|].
    exists s, cw, ch. repeat (split; [assumption|]). left. split; [exact M4|reflexivity].
  - exists UB. split; [|right; split; [exact M7|reflexivity]]. exists b, c, a. split; [exact E|]. split; [exact F|].
    exists s, cw, ch. repeat (split; [assumption|]). right. repeat (split; [assumption|]). reflexivity.
Qed.

Lemma fits_or_not w h cs ps X : Forall2 (zero_plane w h) cs ps -> Forall (fits w h) cs \/ exists o, first_misfit w h cs X o.
Proof.
  induction 1 as [|c p cs ps Zc _ IH]; [left; constructor|].
  destruct (zero_plane_fits w h c p Zc) as [F|M].
  - destruct IH as [IH|(o & b & c' & a & -> & HF & HM)]; [left; constructor; assumption|]. right. exists o, (c :: b), c', a.
    split; [reflexivity|]. split; [constructor; assumption|exact HM].
  - right. destruct (M X) as [o Mo]. exists o, [], c, cs. split; [reflexivity|]. split; [constructor|exact Mo].
Qed.

Lemma copy_verdict : forall v t f cs n, new_default_frame (Video v) t = Ret f -> fo_comps (vi_format v) = map Some cs ++ repeat None n ->
  (Forall (fits (vi_width v) (vi_height v)) cs \/ exists o : outcome unit, first_misfit (vi_width v) (vi_height v) cs unit o) /\
  (forall srcs sls o, rooms (vi_width v) (vi_height v) cs srcs sls -> first_misfit (vi_width v) (vi_height v) cs frame o -> copy_from_slice f srcs sls = o) /\
  (forall dsts dls o, rooms (vi_width v) (vi_height v) cs dsts dls -> first_misfit (vi_width v) (vi_height v) cs (list (list N)) o -> copy_frame_to_buffer f dsts dls = o).
Proof.
  intros v t f cs n Hf Hc. destruct (default_frame_planes v t f cs n Hf Hc) as (B & ps & -> & Z).
  split; [exact (fits_or_not _ _ _ _ unit Z)|]. split.
  - intros srcs sls o Hs Ho. unfold copy_from_slice. cbn [fr_kind fr_buf fr_t]. unfold fb_count. cbn [fb_planes]. rewrite Hc.
    destruct (first_misfit_other _ _ _ _ frame_buffer _ Ho) as (o' & Ho' & Q).
    pose proof (copy_in_misfit B _ _ cs ps [] srcs sls (repeat None n) o' Z Hs Ho') as I1. cbn [app length] in I1. rewrite I1.
    destruct Q as [[-> ->]|[-> ->]]; reflexivity.
  - intros dsts dls o Hs Ho. unfold copy_frame_to_buffer. cbn [fr_kind fr_buf]. rewrite Hc.
    exact (copy_out_misfit B _ _ cs ps [] dsts dls (repeat None n) o Z Hs Ho).
Qed.

(** The predefined formats. *)
Definition fit_width (cw d : N) : Prop := let s := (((cw * d + d - 1) / 8 + 31) / 32 * 32)%N in (0 < s /\ cw <= s)%N.

Lemma fits_width w h c p : (0 < h)%N -> zero_plane w h c p -> (fits w h c <-> fit_width (ceil_pow w (h_ss c)) (depth c)).
Proof.
  intros Hh (s & rows & E1 & E2 & _). pose proof (linesize_width c w s E1) as EW.
  assert (ES : s = (((ceil_pow w (h_ss c) * depth c + depth c - 1) / 8 + 31) / 32 * 32)%N).
  { apply linesize_inv in E1; [|exact power_32]. destruct E1 as (_ & _ & _ & _ & ->). unfold aligned, line_bytes, ALIGNMENT.
    rewrite <- N.add_sub_assoc by lia. reflexivity. }
  assert (HR : (0 < rows)%N).
  { unfold get_height in E2. apply sub_size_inv in E2. destruct E2 as (_ & _ & ->). destruct (ceil_pow_spec h (v_ss c)) as [Q _].
    destruct (ceil_pow h (v_ss c)); [lia|lia]. }
  unfold fit_width. rewrite <- ES. split.
  - intros (s' & cw & ch & F1 & F2 & F3 & F4 & F5). assert (s' = s) by congruence. assert (ch = rows) by congruence.
    assert (cw = ceil_pow w (h_ss c)) by congruence. subst. lia.
  - intros [A B]. exists s, (ceil_pow w (h_ss c)), rows. repeat (split; [assumption|]). left. assumption.
Qed.

Ltac Zify.zify_post_hook ::= Z.div_mod_to_equations.
Lemma fw8 cw : fit_width cw 8 <-> (0 < cw)%N.
Proof. unfold fit_width. lia. Qed.
Lemma fw10 cw : fit_width cw 10 <-> True.
Proof. unfold fit_width. lia. Qed.
Lemma fw16 cw : fit_width cw 16 <-> True.
Proof. unfold fit_width. lia. Qed.
Lemma fw1 cw : fit_width cw 1 <-> (8 <= cw <= 32)%N.
Proof. unfold fit_width. lia. Qed.
Lemma fw2 cw : fit_width cw 2 <-> (4 <= cw <= 32)%N.
Proof. unfold fit_width. lia. Qed.
Lemma fw5 cw : fit_width cw 5 <-> (1 <= cw <= 32 \/ 52 <= cw <= 64)%N.
Proof. unfold fit_width. lia. Qed.
Lemma fw6 cw : fit_width cw 6 <-> (1 <= cw <= 32 \/ 44 <= cw <= 64 \/ 86 <= cw <= 96)%N.
Proof. unfold fit_width. lia. Qed.
Lemma cp0 w : ceil_pow w 0 = w.
Proof. unfold ceil_pow. rewrite N.shiftr_div_pow2. cbn. rewrite N.div_1_r. lia. Qed.
Lemma cp1 w : ceil_pow w 1 = ((w + 1) / 2)%N.
Proof. unfold ceil_pow. rewrite N.shiftr_div_pow2. reflexivity. Qed.
Lemma cp2 w : ceil_pow w 2 = ((w + 3) / 4)%N.
Proof. unfold ceil_pow. rewrite N.shiftr_div_pow2. reflexivity. Qed.

Lemma fits_components w h cs ps : (0 < h)%N -> Forall2 (zero_plane w h) cs ps ->
  (Forall (fits w h) cs <-> Forall (fun c => fit_width (ceil_pow w (h_ss c)) (depth c)) cs).
Proof.
  intros Hh. induction 1 as [|c p cs ps Z _ IH]; [split; constructor|].
  rewrite !Forall_cons_iff, IH, (fits_width w h c p Hh Z). reflexivity.
Qed.

Lemma copyable_sound fm ok : In (fm, ok) copyable ->
  exists cs n, fo_comps fm = map Some cs ++ repeat None n /\ forall w, (Forall (fun c => fit_width (ceil_pow w (h_ss c)) (depth c)) cs <-> ok w).
Proof.
  intros H. unfold copyable in H. cbn [In] in H.
  repeat (destruct H as [H|H]; [
    exists (present (fo_comps fm)), (5 - length (present (fo_comps fm))); injection H as <- <-; split; [reflexivity|];
    intros w; cbn [present fo_comps fmt_YUV444 fmt_YUV422 fmt_YUV420 fmt_YUV411 fmt_YUV410 fmt_PAL8 fmt_RGB24 fmt_RGBA fmt_RGB48 fmt_RGBA64
      fmt_YUV444_10 fmt_YUV422_10 fmt_YUV420_10 fmt_YUV411_10 fmt_YUV410_10 fmt_RGB565 plain_format];
    rewrite !Forall_cons_iff; cbn [yuv8 yuvhb packrgb pal8 depth h_ss]; rewrite ?fw1, ?fw2, ?fw5, ?fw6, ?fw8, ?fw10, ?fw16, ?cp0, ?cp1, ?cp2;
    assert (FN : forall P : chromaton -> Prop, Forall P [] <-> True) by (intros P; split; [intros _; exact I|constructor]);
    rewrite FN; lia|]).
  contradiction.
Qed.
