(** Copying pictures into frames and out of them. *)
From Coq Require Import List Arith NArith ZArith Bool Lia.
From Coq Require Import ZifyBool ZifyNat ZifyN.
From Verif Require Import Base AudioModel PixelModel FrameModel FormatModel DataSpec DataProofs FrameProofs.
Import ListNotations.
Local Open Scope nat_scope.

Lemma copy_component w h c dst dl src sl : room w h c dst dl -> room w h c src sl ->
  exists cw ch dst', get_width c w = Ret cw /\ get_height c h = Ret ch /\
    copy_plane dst dl src sl cw ch = Ret dst' /\ component_copied w h c dst dl src sl dst'.
Proof.
  intros (cw & ch & E1 & E2 & Hd) (cw' & ch' & E1' & E2' & Hs).
  assert (cw' = cw) by congruence. assert (ch' = ch) by congruence. subst cw' ch'.
  destruct (copy_plane_picture dst (N.to_nat dl) src (N.to_nat sl) (N.to_nat cw) (N.to_nat ch) Hd Hs) as (dst' & E & P).
  rewrite !N2Nat.id in E. exists cw, ch, dst'. repeat apply conj; try assumption. exists cw, ch. split; [assumption|]. split; assumption.
Qed.

Lemma rooms_cons w h c cs b bs l ls : rooms w h (c :: cs) (b :: bs) (l :: ls) -> room w h c b l /\ rooms w h cs bs ls.
Proof.
  intros (L1 & L2 & H). split; [exact (H 0 c b l eq_refl eq_refl eq_refl)|].
  split; [cbn in L1; lia|]. split; [cbn in L2; lia|]. intros k. exact (H (S k)).
Qed.

Lemma copy_in_spec B w h cs : forall todo done srcs sls tail,
  rooms w h cs (map pl_buf todo) (map pl_linesize todo) -> rooms w h cs srcs sls ->
  exists todo', copy_in (mk_fb B (done ++ todo)) w h (length todo) (length done) srcs sls (map Some cs ++ tail) = Ret (mk_fb B (done ++ todo')) /\
    length todo' = length todo /\
    forall k c p src sl, nth_error cs k = Some c -> nth_error todo k = Some p -> nth_error srcs k = Some src -> nth_error sls k = Some sl ->
      exists p', nth_error todo' k = Some p' /\ pl_linesize p' = pl_linesize p /\
        component_copied w h c (pl_buf p) (pl_linesize p) src sl (pl_buf p').
Proof.
  induction cs as [|c cs IH]; intros todo done srcs sls tail Hp Hs.
  - destruct todo as [|p todo]; [|destruct Hp as [L _]; discriminate L]. exists []. split; [reflexivity|]. split; [reflexivity|].
    intros [|k] c p src sl E; discriminate E.
  - destruct todo as [|p todo]; [destruct Hp as [L _]; discriminate L|].
    destruct srcs as [|src srcs]; [destruct Hs as [L _]; discriminate L|].
    destruct sls as [|sl sls]; [destruct Hs as [_ [L _]]; discriminate L|].
    cbn [map] in Hp. apply rooms_cons in Hp. destruct Hp as [Rp Hp]. apply rooms_cons in Hs. destruct Hs as [Rs Hs].
    destruct (copy_component w h c (pl_buf p) (pl_linesize p) src sl Rp Rs) as (cw & ch & data & E1 & E2 & E3 & HC).
    destruct (IH todo (done ++ [mk_plane data (pl_linesize p)]) srcs sls tail Hp Hs) as (todo' & I1 & I2 & I3).
    exists (mk_plane data (pl_linesize p) :: todo'). split; [|split].
    + cbn [length copy_in]. unfold fb_linesize, fb_slice, fb_set. cbn [fb_planes fb_buf].
      rewrite nth_error_app2, Nat.sub_diag by apply le_n. cbn [nth_error unwrap_ok obind hd_error unwrap map app tl].
      rewrite E1. cbn [obind]. rewrite E2. cbn [obind]. rewrite E3. cbn [obind]. rewrite update_app.
      rewrite app_length, <- !app_assoc in I1. cbn [length app] in I1. rewrite Nat.add_1_r in I1. exact I1.
    + cbn [length]. lia.
    + intros [|k] c' p' src' sl' Hc Hp' Hsrc Hsl; cbn [nth_error] in *.
      * injection Hc as <-. injection Hp' as <-. injection Hsrc as <-. injection Hsl as <-.
        exists (mk_plane data (pl_linesize p)). repeat apply conj; try reflexivity. exact HC.
      * exact (I3 k c' p' src' sl' Hc Hp' Hsrc Hsl).
Qed.

Lemma copy_out_spec B w h cs : forall todo done dsts dls tail,
  rooms w h cs (map pl_buf todo) (map pl_linesize todo) -> rooms w h cs dsts dls ->
  exists dsts', copy_out (mk_fb B (done ++ todo)) w h (length done) dsts dls (map Some cs ++ tail) = Ret dsts' /\
    length dsts' = length dsts /\
    forall k c p dst dl, nth_error cs k = Some c -> nth_error todo k = Some p -> nth_error dsts k = Some dst -> nth_error dls k = Some dl ->
      exists dst', nth_error dsts' k = Some dst' /\ component_copied w h c dst dl (pl_buf p) (pl_linesize p) dst'.
Proof.
  induction cs as [|c cs IH]; intros todo done dsts dls tail Hp Hs.
  - destruct dsts as [|d dsts]; [|destruct Hs as [L _]; discriminate L]. exists []. split; [reflexivity|]. split; [reflexivity|].
    intros [|k] c p src sl E; discriminate E.
  - destruct todo as [|p todo]; [destruct Hp as [L _]; discriminate L|].
    destruct dsts as [|dst dsts]; [destruct Hs as [L _]; discriminate L|].
    destruct dls as [|dl dls]; [destruct Hs as [_ [L _]]; discriminate L|].
    cbn [map] in Hp. apply rooms_cons in Hp. destruct Hp as [Rp Hp]. apply rooms_cons in Hs. destruct Hs as [Rs Hs].
    destruct (copy_component w h c dst dl (pl_buf p) (pl_linesize p) Rs Rp) as (cw & ch & data & E1 & E2 & E3 & HC).
    destruct (IH todo (done ++ [p]) dsts dls tail Hp Hs) as (dsts' & I1 & I2 & I3).
    exists (data :: dsts'). split; [|split].
    + cbn [map app copy_out]. unfold fb_count, fb_linesize, fb_slice. cbn [fb_planes].
      rewrite app_length. cbn [length]. rewrite (proj2 (Nat.ltb_lt _ _)) by lia.
      rewrite nth_error_app2, Nat.sub_diag by apply le_n. cbn [nth_error unwrap_ok obind unwrap].
      rewrite E1. cbn [obind]. rewrite E2. cbn [obind]. rewrite E3. cbn [obind].
      rewrite app_length, <- !app_assoc in I1. cbn [length app] in I1. rewrite Nat.add_1_r in I1. rewrite I1. reflexivity.
    + cbn [length]. lia.
    + intros [|k] c' p' dst' dl' Hc Hp' Hdst Hdl; cbn [nth_error] in *.
      * injection Hc as <-. injection Hp' as <-. injection Hdst as <-. injection Hdl as <-. exists data. split; [reflexivity|exact HC].
      * exact (I3 k c' p' dst' dl' Hc Hp' Hdst Hdl).
Qed.

(** A plane of a default frame has room for its component exactly when the component
    fits. *)
Lemma plane_room w h c p : fits w h c -> zero_plane w h c p -> room w h c (pl_buf p) (pl_linesize p).
Proof.
  intros (s & cw & ch & F1 & F2 & F3 & F4 & F5) (s' & rows & E1 & E2 & -> & ->).
  assert (s' = s) by congruence. assert (rows = ch) by congruence. subst s' rows.
  exists cw, ch. split; [exact F2|]. split; [exact F3|]. unfold holds. rewrite repeat_length.
  split; [lia|]. destruct (N.eq_dec ch 0) as [->|Hr]; [left; reflexivity|right]. destruct F5 as [F5|F5]; [|contradiction]. nia.
Qed.

Lemma linesize_width c w s : get_linesize c w ALIGNMENT = Ret s -> get_width c w = Ret (ceil_pow w (h_ss c)).
Proof.
  intros H. apply linesize_inv in H; [|exact power_32]. destruct H as (A & B & _). unfold get_width. apply sub_size_ret; assumption.
Qed.

Lemma zero_plane_fits w h c p : zero_plane w h c p -> fits w h c \/ forall X : Type, exists o : outcome X, misfit w h c X o.
Proof.
  intros (s & rows & E1 & E2 & _). pose proof (linesize_width c w s E1) as E3. set (cw := ceil_pow w (h_ss c)) in *.
  destruct (N.eq_dec s 0) as [->|Hs].
  { right. intros X. exists Panic. exists 0%N, cw, rows. repeat (split; [assumption|]). left. split; reflexivity. }
  destruct (N.le_gt_cases cw s) as [L|L].
  { left. exists s, cw, rows. repeat (split; [assumption|]). split; [lia|]. left. exact L. }
  destruct (N.eq_dec rows 0) as [->|Hr].
  { left. exists s, cw, 0%N. repeat (split; [assumption|]). split; [lia|]. right. reflexivity. }
  right. intros X. exists UB. exists s, cw, rows. repeat (split; [assumption|]). right. repeat split; lia.
Qed.

Lemma deep_fits w h c p : (0 < w)%N -> (8 <= depth c)%N -> zero_plane w h c p -> fits w h c.
Proof.
  intros Hw Hd (s & rows & E1 & E2 & _). pose proof (stride_sound c w ALIGNMENT s power_32 E1) as (cw & C & _ & _ & L & _).
  assert (EW : get_width c w = Ret cw).
  { rewrite (linesize_width c w s E1).
    f_equal. apply (ceil_div_unique w (2 ^ h_ss c)); [apply pow2_pos|apply ceil_pow_spec|exact C]. }
  assert (Pc : (0 < cw)%N) by (destruct C as [C _]; nia).
  assert (Ls : (cw <= s)%N) by nia.
  exists s, cw, rows. repeat (split; [assumption|]). split; [lia|]. left. exact Ls.
Qed.

Lemma forall2_nth {A B} (R : A -> B -> Prop) l m : Forall2 R l m -> forall k a b, nth_error l k = Some a -> nth_error m k = Some b -> R a b.
Proof.
  intros H. induction H as [|x y l m Hxy H IH]; intros [|k] a b E1 E2; cbn in *; try discriminate; [congruence|exact (IH k a b E1 E2)].
Qed.

Lemma Forall2_length {A B} (R : A -> B -> Prop) l m : Forall2 R l m -> length l = length m.
Proof. induction 1; cbn; congruence. Qed.

Lemma default_rooms w h cs ps : Forall (fits w h) cs -> Forall2 (zero_plane w h) cs ps ->
  rooms w h cs (map pl_buf ps) (map pl_linesize ps).
Proof.
  intros Hd H. pose proof (Forall2_length _ _ _ H) as L. split; [rewrite map_length; lia|]. split; [rewrite map_length; lia|].
  intros k c buf l Hc Hb Hl. rewrite nth_error_map in Hb, Hl. destruct (nth_error ps k) as [p|] eqn:E; [|discriminate Hb].
  injection Hb as <-. injection Hl as <-. apply plane_room; [|exact (forall2_nth _ _ _ H k c p Hc E)].
  rewrite Forall_forall in Hd. apply Hd. eapply nth_error_In. exact Hc.
Qed.

Lemma present_some {A} (cs : list A) n : present (map Some cs ++ repeat None n) = cs.
Proof.
  induction cs as [|c cs IH]; cbn; [|rewrite IH; reflexivity]. induction n as [|n IH]; cbn; [reflexivity|exact IH].
Qed.

Lemma copied_length w h c dst dl src sl dst' : component_copied w h c dst dl src sl dst' -> length dst' = length dst.
Proof. intros (cw & ch & _ & _ & L & _). exact L. Qed.

Lemma room_same_length w h c b b' l : room w h c b l -> length b' = length b -> room w h c b' l.
Proof.
  intros (cw & ch & E1 & E2 & H) L. exists cw, ch. split; [exact E1|]. split; [exact E2|]. unfold holds in *. rewrite L. exact H.
Qed.

Lemma copied_trans w h c mid ml src sl mid' dst dl dst' : room w h c mid ml ->
  component_copied w h c mid ml src sl mid' -> component_copied w h c dst dl mid' ml dst' -> component_copied w h c dst dl src sl dst'.
Proof.
  intros (cw & ch & E1 & E2 & R) (cw1 & ch1 & F1 & F2 & L1 & P1) (cw2 & ch2 & G1 & G2 & L2 & P2).
  assert (cw1 = cw) by congruence. assert (ch1 = ch) by congruence. assert (cw2 = cw) by congruence. assert (ch2 = ch) by congruence. subst.
  exists cw, ch. split; [exact E1|]. split; [exact E2|]. split; [exact L2|]. intros i Hi. rewrite (P2 i Hi).
  set (DL := N.to_nat dl) in *. set (ML := N.to_nat ml) in *. set (W := N.to_nat cw) in *. set (H := N.to_nat ch) in *.
  destruct (Nat.ltb_spec (i mod DL) W) as [Lw|]; [|reflexivity]. destruct (Nat.ltb_spec (i / DL) H) as [Lh|]; [|reflexivity].
  cbn [andb]. set (y := i / DL) in *. set (x := i mod DL) in *.
  destruct (holds_rows mid ML W H y R Lh ltac:(lia)) as [A B]. unfold row_complete in B.
  destruct R as (R1 & R2). assert (Lx : x < ML) by lia. rewrite P1 by lia.
  assert (D : (y * ML + x) / ML = y) by (rewrite Nat.div_add_l by lia; rewrite Nat.div_small by lia; lia).
  assert (M : (y * ML + x) mod ML = x) by (rewrite Nat.add_comm, Nat.mod_add by lia; apply Nat.mod_small; lia).
  rewrite D, M, (proj2 (Nat.ltb_lt x W) Lw), (proj2 (Nat.ltb_lt y H) Lh). reflexivity.
Qed.

Lemma planes_round_trip v B ps t cs tail srcs sls dsts dls :
  fo_comps (vi_format v) = map Some cs ++ tail -> rooms (vi_width v) (vi_height v) cs (map pl_buf ps) (map pl_linesize ps) ->
  rooms (vi_width v) (vi_height v) cs srcs sls -> rooms (vi_width v) (vi_height v) cs dsts dls ->
  let f := mk_frame (Video v) (mk_fb B ps) t in
  exists f' dsts', copy_from_slice f srcs sls = Ret f' /\ fr_kind f' = Video v /\ fr_t f' = fr_t f /\
    copy_frame_to_buffer f' dsts dls = Ret dsts' /\ length dsts' = length dsts /\
    forall k c src sl dst dl, nth_error cs k = Some c -> nth_error srcs k = Some src -> nth_error sls k = Some sl ->
      nth_error dsts k = Some dst -> nth_error dls k = Some dl ->
      exists dst', nth_error dsts' k = Some dst' /\ component_copied (vi_width v) (vi_height v) c dst dl src sl dst'.
Proof.
  intros Hc R Hs Ht f.
  destruct (copy_in_spec B (vi_width v) (vi_height v) cs ps [] srcs sls tail R Hs) as (ps' & I1 & I2 & I3).
  cbn [app length] in I1.
  assert (LP : length ps = length cs) by (destruct R as [L _]; rewrite map_length in L; exact L).
  assert (NS : forall k p', nth_error ps' k = Some p' -> exists c p src sl, nth_error cs k = Some c /\ nth_error ps k = Some p /\
     nth_error srcs k = Some src /\ nth_error sls k = Some sl /\ pl_linesize p' = pl_linesize p /\
     component_copied (vi_width v) (vi_height v) c (pl_buf p) (pl_linesize p) src sl (pl_buf p')).
  { intros k p' Hk. assert (Lk : k < length ps') by (apply nth_error_Some; congruence).
    destruct Hs as (S1 & S2 & _).
    destruct (nth_error cs k) as [c|] eqn:K1; [|apply nth_error_None in K1; lia].
    destruct (nth_error ps k) as [p|] eqn:K2; [|apply nth_error_None in K2; lia].
    destruct (nth_error srcs k) as [src|] eqn:K3; [|apply nth_error_None in K3; lia].
    destruct (nth_error sls k) as [sl|] eqn:K4; [|apply nth_error_None in K4; lia].
    destruct (I3 k c p src sl K1 K2 K3 K4) as (q & Q1 & Q2 & Q3). assert (q = p') by congruence. subst q.
    exists c, p, src, sl. repeat apply conj; try reflexivity; assumption. }
  assert (R' : rooms (vi_width v) (vi_height v) cs (map pl_buf ps') (map pl_linesize ps')).
  { destruct R as (R1 & R2 & R3). split; [rewrite map_length; lia|]. split; [rewrite map_length; lia|].
    intros k c buf l Kc Kb Kl. rewrite nth_error_map in Kb, Kl. destruct (nth_error ps' k) as [p'|] eqn:Kp; [|discriminate Kb].
    injection Kb as <-. injection Kl as <-. destruct (NS k p' Kp) as (c' & p & src & sl & K1 & K2 & _ & _ & K5 & K6).
    assert (c' = c) by congruence. subst c'. rewrite K5.
    apply room_same_length with (b := pl_buf p); [|exact (copied_length _ _ _ _ _ _ _ _ K6)].
    apply (R3 k c); [exact Kc| |]; rewrite nth_error_map, K2; reflexivity. }
  destruct (copy_out_spec B (vi_width v) (vi_height v) cs ps' [] dsts dls tail R' Ht) as (dsts' & O1 & O2 & O3).
  cbn [app length] in O1.
  exists (mk_frame (Video v) (mk_fb B ps') t), dsts'.
  split.
  { unfold copy_from_slice, f. cbn [fr_kind fr_buf fr_t]. unfold fb_count. cbn [fb_planes]. rewrite Hc, I1. reflexivity. }
  split; [reflexivity|]. split; [reflexivity|]. split.
  { unfold copy_frame_to_buffer. cbn [fr_kind fr_buf]. rewrite Hc. exact O1. }
  split; [exact O2|]. intros k c src sl dst dl K1 K2 K3 K4 K5.
  assert (Lk : k < length ps') by (rewrite I2, LP; apply nth_error_Some; congruence).
  destruct (nth_error ps' k) as [p'|] eqn:Kp; [|apply nth_error_None in Kp; lia].
  destruct (NS k p' Kp) as (c' & p & src' & sl' & N1 & N2 & N3 & N4 & N5 & N6).
  assert (c' = c) by congruence. assert (src' = src) by congruence. assert (sl' = sl) by congruence. subst c' src' sl'.
  destruct (O3 k c p' dst dl K1 Kp K4 K5) as (dst' & D1 & D2). exists dst'. split; [exact D1|].
  rewrite N5 in D2. apply (copied_trans _ _ c (pl_buf p) (pl_linesize p) src sl (pl_buf p') dst dl dst'); try assumption.
  destruct R as (_ & _ & R3). apply (R3 k c); [exact K1| |]; rewrite nth_error_map, N2; reflexivity.
Qed.

Lemma frame_round_trip v t f cs n srcs sls dsts dls :
  new_default_frame (Video v) t = Ret f -> fo_comps (vi_format v) = map Some cs ++ repeat None n ->
  Forall (fits (vi_width v) (vi_height v)) cs ->
  rooms (vi_width v) (vi_height v) cs srcs sls -> rooms (vi_width v) (vi_height v) cs dsts dls ->
  exists f' dsts', copy_from_slice f srcs sls = Ret f' /\ fr_kind f' = Video v /\ fr_t f' = fr_t f /\
    copy_frame_to_buffer f' dsts dls = Ret dsts' /\ length dsts' = length dsts /\
    forall k c src sl dst dl, nth_error cs k = Some c -> nth_error srcs k = Some src -> nth_error sls k = Some sl ->
      nth_error dsts k = Some dst -> nth_error dls k = Some dl ->
      exists dst', nth_error dsts' k = Some dst' /\ component_copied (vi_width v) (vi_height v) c dst dl src sl dst'.
Proof.
  intros Hf Hc Hd Hs Ht. unfold new_default_frame in Hf. step_ret Hf. injection Hf as <-.
  destruct (fb_new_video_inv v a E) as (m & M1 & M2). destruct (fb_new_video v m M1 M2) as (b & B1 & B2 & B3).
  assert (b = a) by congruence. subst b. rewrite Hc, present_some in B3.
  pose proof (default_rooms _ _ cs (fb_planes a) Hd B3) as R.
  destruct a as [B ps]. cbn [fb_buf fb_planes] in *.
  exact (planes_round_trip v B ps _ cs (repeat None n) srcs sls dsts dls Hc R Hs Ht).
Qed.

(** Default frames. *)
Lemma default_frame_planes v t f cs n : new_default_frame (Video v) t = Ret f -> fo_comps (vi_format v) = map Some cs ++ repeat None n ->
  exists B ps, f = mk_frame (Video v) (mk_fb B ps) (match t with Some t => t | None => default_time end) /\
    Forall2 (zero_plane (vi_width v) (vi_height v)) cs ps.
Proof.
  intros Hf Hc. unfold new_default_frame in Hf. step_ret Hf. injection Hf as <-.
  destruct (fb_new_video_inv v a E) as (m & M1 & M2). destruct (fb_new_video v m M1 M2) as (b & B1 & B2 & B3).
  assert (b = a) by congruence. subst b. rewrite Hc, present_some in B3. destruct a as [B ps]. exists B, ps. split; [reflexivity|exact B3].
Qed.

Lemma default_fits v t f cs n : new_default_frame (Video v) t = Ret f -> fo_comps (vi_format v) = map Some cs ++ repeat None n ->
  (0 < vi_width v)%N -> Forall (fun c => 8 <= depth c)%N cs -> Forall (fits (vi_width v) (vi_height v)) cs.
Proof.
  intros Hf Hc Hw Hd. destruct (default_frame_planes v t f cs n Hf Hc) as (B & ps & _ & Z). clear Hc Hf.
  induction Z as [|c p cs ps Zc _ IH]; [constructor|]. inversion Hd. subst. constructor; [|apply IH; assumption].
  apply (deep_fits _ _ c p); assumption.
Qed.

(** [copy_plane_to_buffer] is safe when the stride of the plane is at least the width of
    the picture. *)
Lemma plane_to_buffer v t f k c dst dl s rows :
  new_default_frame (Video v) t = Ret f -> nth_error (present (fo_comps (vi_format v))) k = Some c ->
  get_linesize c (vi_width v) ALIGNMENT = Ret s -> get_height c (vi_height v) = Ret rows ->
  (0 < s)%N -> (vi_width v <= s \/ rows = 0)%N -> holds dst (N.to_nat dl) (N.to_nat (vi_width v)) (N.to_nat rows) ->
  exists p dst', nth_error (fb_planes (fr_buf f)) k = Some p /\ copy_plane_to_buffer f k dst dl = Ret dst' /\
    picture_copied dst (N.to_nat dl) (pl_buf p) (N.to_nat s) (N.to_nat (vi_width v)) (N.to_nat rows) dst'.
Proof.
  intros Hf Hk Hs Hr Hp Hw Hd.
  assert (Hh : (rows <= vi_height v)%N).
  { unfold get_height in Hr. apply sub_size_inv in Hr. destruct Hr as (_ & _ & ->). apply ceil_pow_le. }
  unfold new_default_frame in Hf. step_ret Hf. injection Hf as <-.
  destruct (fb_new_video_inv v a E) as (m & M1 & M2). destruct (fb_new_video v m M1 M2) as (b & B1 & B2 & B3).
  assert (b = a) by congruence. subst b. cbn [fr_buf].
  destruct (nth_error (fb_planes a) k) as [p|] eqn:Kp.
  2: { apply nth_error_None in Kp. pose proof (Forall2_length _ _ _ B3). assert (k < length (present (fo_comps (vi_format v)))) by (apply nth_error_Some; congruence). lia. }
  pose proof (forall2_nth _ _ _ B3 k c p Hk Kp) as (s' & rows' & S1 & S2 & S3 & S4).
  assert (Es : s' = s) by congruence. assert (Er : rows' = rows) by congruence. rewrite Es in S3, S4. rewrite Er in S4. clear Es Er.
  unfold copy_plane_to_buffer, fb_slice, fb_linesize. cbn [fr_kind fr_buf]. rewrite Kp. cbn [unwrap_ok obind]. rewrite S3.
  set (W := N.to_nat (vi_width v)) in *. set (DL := N.to_nat dl) in *. set (S0 := N.to_nat s) in *. set (H := N.to_nat (vi_height v)).
  set (R := N.to_nat rows) in *.
  assert (PD : 0 < DL) by apply Hd. assert (PS : 0 < S0) by lia.
  replace dl with (N.of_nat DL) by lia. replace s with (N.of_nat S0) by lia.
  replace (vi_width v) with (N.of_nat W) by lia. replace (vi_height v) with (N.of_nat H) by lia.
  rewrite copy_plane_rec by assumption.
  assert (LS : length (pl_buf p) = S0 * R) by (rewrite S4, repeat_length; lia).
  pose proof (copy_rec_result DL S0 W PD PS (length dst) dst (pl_buf p) H (le_n _)) as Q.
  destruct (copy_rec (length dst) dst DL (pl_buf p) S0 W H) as [dst'| |].
  - destruct Q as (_ & Q2 & Q3). exists p, dst'. split; [reflexivity|]. split; [reflexivity|]. split; [exact Q2|].
    intros i Hi. rewrite (Q3 i Hi), <- Bool.andb_assoc, LS.
    replace ((i / DL <? H) && (i / DL * S0 <? S0 * R)) with (i / DL <? R); [reflexivity|].
    apply Bool.eq_true_iff_eq. rewrite Bool.andb_true_iff, !Nat.ltb_lt. set (y := i / DL).
    split; [intros L; split; [lia|nia]|intros [_ L]; nia].
  - destruct Q.
  - exfalso. destruct Q as [y (A & B & C & N0)]. apply N0. destruct (Nat.eq_dec W 0) as [->|Wn]; [unfold row_complete; lia|].
    assert (y < R) by nia. split.
    + apply (holds_rows dst DL W R y); try assumption. lia.
    + unfold row_complete. rewrite LS. nia.
Qed.

(** ** Typed views *)

Lemma group_exact size (l : list N) : 0 < size -> forall fuel q, length l <= fuel -> length l = q * size ->
  concat (group fuel size l) = l /\ forall e, In e (group fuel size l) -> length e = size.
Proof.
  intros Hs fuel. revert l. induction fuel as [|f IH]; intros l q Hf Hq.
  - destruct l; [|cbn in Hf; lia]. split; [reflexivity|intros e []].
  - destruct l as [|x l]; [split; [reflexivity|intros e []]|]. cbn [group concat].
    destruct q as [|q]; [cbn in Hq; lia|]. assert (L : size <= length (x :: l)) by (cbn [Nat.mul] in Hq; lia).
    destruct (IH (skipn size (x :: l)) q) as [I1 I2].
    { rewrite skipn_length. cbn [length] in *. lia. }
    { rewrite skipn_length. cbn [Nat.mul] in Hq. lia. }
    split; [rewrite I1; apply firstn_skipn|]. intros e [<-|He]; [|exact (I2 e He)]. rewrite firstn_length. lia.
Qed.

Definition by32 (p : plane) : Prop := exists m, N.of_nat (length (pl_buf p)) = (m * 32)%N.

Lemma planes_by32 kind t f : new_default_frame kind t = Ret f -> Forall by32 (fb_planes (fr_buf f)).
Proof.
  intros H. unfold new_default_frame in H. step_ret H. injection H as <-. cbn [fr_buf]. destruct kind as [v|v].
  - destruct (fb_new_video_inv v a E) as (m & M1 & M2). destruct (fb_new_video v m M1 M2) as (b & B1 & _ & B3).
    assert (b = a) by congruence. subst b. clear - B3. induction B3 as [|c p l ps H B3 IH]; constructor; [|exact IH].
    destruct H as (s & rows & E1 & _ & _ & E4). pose proof (stride_sound c _ ALIGNMENT s power_32 E1) as (_ & _ & [k ->] & _).
    exists (k * rows)%N. rewrite E4, repeat_length, N2Nat.id. unfold ALIGNMENT. lia.
  - destruct (fb_new_audio_inv v a E) as (s & S1 & S2). rewrite (fb_new_audio v s S1 S2) in E. injection E as <-. cbn [fb_planes].
    destruct (audio_size_sound _ _ _ _ power_32 S1) as (_ & _ & [[k ->] _]).
    destruct (so_planar (ai_format v)).
    + apply Forall_forall. intros p Hp. apply repeat_spec in Hp. subst p. exists k. cbn [pl_buf]. rewrite repeat_length, N2Nat.id. reflexivity.
    + constructor; [|constructor]. exists (k * N.of_nat (length (ai_map v)))%N. cbn [pl_buf]. rewrite repeat_length, N2Nat.id. unfold ALIGNMENT. lia.
Qed.

Lemma sum_by32 ps : Forall by32 ps -> exists m, fold_right (fun q n => N.of_nat (length (pl_buf q)) + n)%N 0%N ps = (m * 32)%N.
Proof.
  induction 1 as [|p ps [m Hm] _ [m' IH]]; [exists 0%N; reflexivity|]. exists (m + m')%N. cbn [fold_right]. rewrite Hm, IH. lia.
Qed.

Lemma typed_views : forall kind t f base size k p, new_default_frame kind t = Ret f ->
  In size [1; 2; 4]%N -> (base mod size = 0)%N -> nth_error (fb_planes (fr_buf f)) k = Some p ->
  let addr := (base + fold_right (fun q n => N.of_nat (length (pl_buf q)) + n) 0 (firstn k (fb_planes (fr_buf f))))%N in
  exists l, as_slice (fr_buf f) k addr size = Okay l /\ concat l = pl_buf p /\ forall e, In e l -> N.of_nat (length e) = size.
Proof.
  intros kind t f base size k p Hf Hs Hb Hk addr. pose proof (planes_by32 kind t f Hf) as P.
  assert (Q : exists z, (32 = z * size)%N /\ (0 < size)%N).
  { cbn in Hs. destruct Hs as [<-|[<-|[<-|[]]]]; [exists 32%N|exists 16%N|exists 8%N]; split; reflexivity. }
  destruct Q as (z & Ez & Ps).
  assert (Hp : by32 p) by (rewrite Forall_forall in P; apply P; eapply nth_error_In; exact Hk). destruct Hp as [m Hm].
  assert (A : (addr mod size = 0)%N).
  { unfold addr. destruct (sum_by32 (firstn k (fb_planes (fr_buf f)))) as [m' ->].
    { rewrite Forall_forall in *. intros q Hq. apply P. rewrite <- (firstn_skipn k). apply in_or_app. left. exact Hq. }
    rewrite Ez, N.mul_assoc, N.mod_add by lia. exact Hb. }
  assert (B : (N.of_nat (length (pl_buf p)) mod size = 0)%N) by (rewrite Hm, Ez, N.mul_assoc; apply N.mod_mul; lia).
  unfold as_slice, fb_slice. rewrite Hk, A, B. cbn [N.eqb andb].
  destruct (group_exact (N.to_nat size) (pl_buf p) ltac:(lia) (length (pl_buf p)) (N.to_nat (m * z)) (le_n _) ltac:(nia)) as [G1 G2].
  eexists. split; [reflexivity|]. split; [exact G1|]. intros e He. rewrite (G2 e He). lia.
Qed.
Lemma view_exact : forall b k addr size, In size [1; 2; 4]%N ->
  (nth_error (fb_planes b) k = None -> as_slice b k addr size = Error InvalidIndex) /\
  forall p, nth_error (fb_planes b) k = Some p ->
    ((addr mod size = 0)%N -> (N.of_nat (length (pl_buf p)) mod size = 0)%N ->
      exists l, as_slice b k addr size = Okay l /\ concat l = pl_buf p /\ forall e, In e l -> N.of_nat (length e) = size) /\
    ((addr mod size <> 0)%N \/ (N.of_nat (length (pl_buf p)) mod size <> 0)%N -> as_slice b k addr size = Error InvalidConversion).
Proof.
  intros b k addr size Hs. unfold as_slice, fb_slice. split; [intros ->; reflexivity|]. intros p ->.
  assert (Ps : (0 < size)%N) by (cbn in Hs; destruct Hs as [<-|[<-|[<-|[]]]]; reflexivity). split.
  - intros A B. rewrite A, B. cbn [N.eqb andb].
    pose proof (N.div_mod (N.of_nat (length (pl_buf p))) size ltac:(lia)) as D. rewrite B in D.
    destruct (group_exact (N.to_nat size) (pl_buf p) ltac:(lia) (length (pl_buf p)) (N.to_nat (N.of_nat (length (pl_buf p)) / size)) (le_n _) ltac:(nia)) as [G1 G2].
    eexists. split; [reflexivity|]. split; [exact G1|]. intros x Hx. rewrite (G2 x Hx). lia.
  - intros H. destruct (N.eqb_spec (addr mod size) 0); [|reflexivity].
    destruct (N.eqb_spec (N.of_nat (length (pl_buf p)) mod size) 0); [|reflexivity]. tauto.
Qed.

