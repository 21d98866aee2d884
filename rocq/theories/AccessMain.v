(** The proofs of the theorems of [AccessProps]. *)
From Coq Require Import String List Arith NArith ZArith Bool Lia.
From Verif Require Import Base AudioModel PixelModel FormatModel FrameModel MuxModel CodecModel CodebookModel AccessModel DataSpec DataProofs PixelMain.
Import ListNotations.
Local Open Scope N_scope.

Lemma other_error_texts :
  (forall a b, show_frame_error a = show_frame_error b -> a = b) /\ (forall a b, show_codebook_error a = show_codebook_error b -> a = b).
Proof. split; intros [|] [|]; cbn; congruence. Qed.

Lemma other_error_literals :
  map show_frame_error [FrameModel.InvalidIndex; InvalidConversion] = ["Invalid Index"; "Invalid Conversion"]%string /\
  map show_codebook_error [InvalidCodebook; InvalidCode] = ["Invalid Codebook"; "Invalid Code"]%string.
Proof. split; reflexivity. Qed.

Lemma stream_fields : forall (P : Type) (p : P) tb, let st := stream_from_params p tb in
  s_id st = (-1)%Z /\ s_index st = 0 /\ s_params st = p /\ s_timebase st = tb /\ s_start st = None /\ s_duration st = None /\ s_private st = None.
Proof. intros. repeat split. Qed.

Lemma model_components : forall m, (m = CMYK -> get_default_components m = 4) /\ (m <> CMYK -> get_default_components m = 3).
Proof. intros [t| | |]; split; intros H; try reflexivity; try discriminate; destruct (H eq_refl). Qed.

Lemma packet_default_refuted : packet_default <> packet_new.
Proof. intros H. discriminate H. Qed.

Lemma packet_default_rest : forall n,
  p_data packet_default = p_data (packet_with_capacity n) /\ p_pos packet_default = p_pos (packet_with_capacity n) /\
  p_t packet_default = p_t (packet_with_capacity n) /\ p_key packet_default = p_key (packet_with_capacity n) /\
  p_corrupted packet_default = p_corrupted (packet_with_capacity n) /\
  p_stream_index packet_default = 0%Z /\ p_stream_index (packet_with_capacity n) = (-1)%Z.
Proof. intros n. repeat (split; [reflexivity|]). reflexivity. Qed.

Lemma index_at_beyond {A} (l : list A) i : (length l <= i)%nat -> index_at l i = Panic.
Proof. intros H. unfold index_at. apply nth_error_None in H. rewrite H. reflexivity. Qed.

Lemma index_chromaton f i : length (fo_comps f) = 5%nat ->
  formaton_index f i = (if (i <? 5)%nat then get_chromaton f i else Panic).
Proof.
  intros L. unfold formaton_index, get_chromaton. rewrite L. destruct (Nat.ltb_spec i 5) as [H|H]; [reflexivity|].
  apply index_at_beyond. lia.
Qed.

Lemma format_access : forall model l e be al pal f, formaton_new model l e be al pal = Ret f ->
  get_model f = model /\ get_elem_size f = e /\ is_be f = be /\ has_alpha f = al /\ is_paletted f = pal /\
  get_primaries f = CpUnspecified /\ get_xfer f = TcUnspecified /\ get_matrix f = McUnspecified /\
  get_num_comp f = N.of_nat (length l) /\ length (formaton_iter f) = 5%nat /\ present (formaton_iter f) = l /\
  (forall i, (i < 5)%nat -> formaton_index f i = Ret (nth_error l i) /\ get_chromaton f i = Ret (nth_error l i)) /\
  (forall i, (5 <= i)%nat -> formaton_index f i = Panic /\ get_chromaton f i = Ret None).
Proof.
  intros model l e be al pal f H.
  destruct (Nat.le_gt_cases (length l) 5) as [L|L].
  2: { destruct (formaton_new_spec model l e be al pal) as [_ P]. rewrite (P L) in H. discriminate H. }
  destruct (formaton_new_spec model l e be al pal) as [S _]. destruct (S L) as (f' & E & A1 & A2 & A3 & A4 & A5 & A6 & A7 & A8 & A9 & A10 & A11 & A12 & A13 & A14).
  assert (f' = f) by congruence. subst f'.
  repeat (split; [assumption|]).
  split.
  - intros i Hi. rewrite (index_chromaton f i A5), (proj2 (Nat.ltb_lt i 5) Hi), A2. split; reflexivity.
  - intros i Hi. rewrite (index_chromaton f i A5), (proj2 (Nat.ltb_ge i 5) Hi), A2. split; [reflexivity|].
    f_equal. apply nth_error_None. lia.
Qed.

Lemma component_access : forall h v p d sh o n, let c := chromaton_new h v p d sh o n in
  get_subsampling c = (h, v) /\ is_packed c = p /\ get_depth c = d /\ get_shift c = sh /\ get_offset c = o /\ get_step c = n.
Proof. intros. repeat (split; [reflexivity|]). reflexivity. Qed.

Lemma info_access :
  (forall w h fl ty fm v, video_new w h fl ty fm = Ret v ->
     video_width v = w /\ video_height v = h /\ video_flipped v = fl /\ video_type v = ty /\ video_format v = fm /\
     get_total_depth fm = Ret (vi_bits v) /\
     (forall x, video_width (video_set_width v x) = x /\ video_height (video_set_width v x) = h /\ video_format (video_set_width v x) = fm /\
       video_flipped (video_set_width v x) = fl /\ video_type (video_set_width v x) = ty /\ vi_bits (video_set_width v x) = vi_bits v) /\
     (forall x, video_height (video_set_height v x) = x /\ video_width (video_set_height v x) = w /\ video_format (video_set_height v x) = fm /\
       video_flipped (video_set_height v x) = fl /\ video_type (video_set_height v x) = ty /\ vi_bits (video_set_height v x) = vi_bits v)) /\
  (forall s r m f b, let a := audio_new s r m f b in
     audio_samples a = s /\ audio_rate a = r /\ audio_channels a = N.of_nat (length m) /\ audio_format a = f /\ audio_block_len a = b) /\
  (forall v, get_video_info (media_from_video v) = Some v /\ get_audio_info (media_from_video v) = None /\
     is_video (media_from_video v) = true /\ is_audio (media_from_video v) = false) /\
  (forall a, get_audio_info (media_from_audio a) = Some a /\ get_video_info (media_from_audio a) = None /\
     is_video (media_from_audio a) = false /\ is_audio (media_from_audio a) = true).
Proof.
  split; [|split; [|split]].
  - intros w h fl ty fm v H. unfold video_new in H. destruct (get_total_depth fm) as [bits| |]; try discriminate H. injection H as <-.
    repeat (split; [reflexivity|]). split; intros x; repeat (split; [reflexivity|]); reflexivity.
  - intros. repeat (split; [reflexivity|]). reflexivity.
  - intros. repeat (split; [reflexivity|]). reflexivity.
  - intros. repeat (split; [reflexivity|]). reflexivity.
Qed.

Lemma predefined_counts : forall fm ok, In (fm, ok) copyable ->
  get_num_comp fm = N.of_nat (length (present (formaton_iter fm))) /\
  get_num_comp fm = get_default_components (get_model fm) + (if has_alpha fm then 1 else 0) /\
  (exists d, get_total_depth fm = Ret d) /\ length (formaton_iter fm) = 5%nat /\
  (is_paletted fm = true <-> fm = fmt_PAL8).
Proof.
  intros fm ok H. unfold copyable in H. cbn [In] in H.
  repeat (destruct H as [H|H]; [injection H as <- <-; split; [reflexivity|]; split; [reflexivity|]; split; [eexists; reflexivity|];
    split; [reflexivity|]; split; [intros E; first [discriminate E|reflexivity]|intros E; first [reflexivity|discriminate E]]|]).
  contradiction.
Qed.

Lemma default_maps : forall n m, default_map n = Ret m <-> n = 1 /\ m = [ChC] \/ n = 2 /\ m = [ChR; ChL].
Proof.
  intros n m. split.
  - intros H. destruct n as [|[p|p|]]; cbn in H; try discriminate H.
    + destruct p; try discriminate H. right. split; [reflexivity|congruence].
    + left. split; [reflexivity|congruence].
  - intros [[-> ->]|[-> ->]]; reflexivity.
Qed.

Lemma default_maps_other : forall n, n <> 1 -> n <> 2 -> default_map n = Panic.
Proof. intros [|[p|[p|p|]|]] H1 H2; try reflexivity; contradiction. Qed.

Lemma stream_extradata_access : forall p tb,
  stream_extradata (stream_from_params p tb) = cp_extradata p /\
  (forall g st, map stream_extradata (g_streams (fst (add_stream g st))) = map stream_extradata (g_streams g) ++ [stream_extradata st]).
Proof.
  intros p tb. split; [reflexivity|]. intros g st. unfold add_stream. cbn [fst g_streams]. rewrite map_app. f_equal. cbn [map]. f_equal.
  destruct (s_id st <? 0)%Z; reflexivity.
Qed.

Lemma sample_access : forall bits be packed planar float signed, let f := soniton_new bits be packed planar float signed in
  so_bits f = bits /\ so_be f = be /\ so_packed f = packed /\ so_planar f = planar /\ so_float f = float /\ so_signed f = signed.
Proof. intros. repeat split. Qed.
