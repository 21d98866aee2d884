(** Copying with too few or too many buffers. *)
From Coq Require Import List Arith NArith ZArith Bool Lia.
From Coq Require Import ZifyBool ZifyNat ZifyN.
From Verif Require Import Base AudioModel PixelModel FrameModel FormatModel DataSpec DataProofs FrameProofs FrameProofs2.
Import ListNotations.
Local Open Scope nat_scope.

Lemma copy_in_prefix B w h cs : forall todo done srcs sls,
  rooms w h cs (map pl_buf todo) (map pl_linesize todo) -> rooms w h cs srcs sls ->
  exists todo', length todo' = length todo /\ forall todo2 srcs2 sls2 rest,
    copy_in (mk_fb B (done ++ todo ++ todo2)) w h (length (todo ++ todo2)) (length done) (srcs ++ srcs2) (sls ++ sls2) (map Some cs ++ rest) =
    copy_in (mk_fb B (done ++ todo' ++ todo2)) w h (length todo2) (length done + length todo') srcs2 sls2 rest.
Proof.
  induction cs as [|c cs IH]; intros todo done srcs sls Hp Hs.
  - destruct todo as [|p todo]; [|destruct Hp as [L _]; discriminate L]. destruct srcs as [|x srcs]; [|destruct Hs as [L _]; discriminate L].
    destruct sls as [|x sls]; [|destruct Hs as [_ [L _]]; discriminate L]. exists []. split; [reflexivity|]. intros todo2 srcs2 sls2 rest. cbn [app length map].
    rewrite Nat.add_0_r. reflexivity.
  - destruct todo as [|p todo]; [destruct Hp as [L _]; discriminate L|].
    destruct srcs as [|src srcs]; [destruct Hs as [L _]; discriminate L|].
    destruct sls as [|sl sls]; [destruct Hs as [_ [L _]]; discriminate L|].
    cbn [map] in Hp. apply rooms_cons in Hp. destruct Hp as [Rp Hp]. apply rooms_cons in Hs. destruct Hs as [Rs Hs].
    destruct (copy_component w h c (pl_buf p) (pl_linesize p) src sl Rp Rs) as (cw & ch & data & E1 & E2 & E3 & HC).
    destruct (IH todo (done ++ [mk_plane data (pl_linesize p)]) srcs sls Hp Hs) as (todo' & L' & I1).
    exists (mk_plane data (pl_linesize p) :: todo'). split; [cbn [length]; lia|].
    intros todo2 srcs2 sls2 rest. specialize (I1 todo2 srcs2 sls2 rest).
    cbn [length copy_in app map]. unfold fb_linesize, fb_slice, fb_set. cbn [fb_planes fb_buf].
    rewrite nth_error_app2, Nat.sub_diag by apply le_n. cbn [nth_error unwrap_ok obind hd_error unwrap map app tl].
    rewrite E1. cbn [obind]. rewrite E2. cbn [obind]. rewrite E3. cbn [obind]. rewrite update_app.
    rewrite (app_length done), <- !app_assoc in I1. cbn [length app] in I1. rewrite Nat.add_1_r in I1. rewrite I1.
    f_equal. lia.
Qed.

Lemma copy_out_prefix B w h cs : forall todo done dsts dls,
  rooms w h cs (map pl_buf todo) (map pl_linesize todo) -> rooms w h cs dsts dls ->
  exists dsts', length dsts' = length dsts /\
    (forall k c p dst dl, nth_error cs k = Some c -> nth_error todo k = Some p -> nth_error dsts k = Some dst -> nth_error dls k = Some dl ->
      exists dst', nth_error dsts' k = Some dst' /\ component_copied w h c dst dl (pl_buf p) (pl_linesize p) dst') /\
    forall todo2 dsts2 dls2 rest,
    copy_out (mk_fb B (done ++ todo ++ todo2)) w h (length done) (dsts ++ dsts2) (dls ++ dls2) (map Some cs ++ rest) =
    let! r := copy_out (mk_fb B (done ++ todo ++ todo2)) w h (length done + length todo) dsts2 dls2 rest in Ret (dsts' ++ r).
Proof.
  induction cs as [|c cs IH]; intros todo done dsts dls Hp Hs.
  - destruct todo as [|p todo]; [|destruct Hp as [L _]; discriminate L]. destruct dsts as [|x dsts]; [|destruct Hs as [L _]; discriminate L].
    destruct dls as [|x dls]; [|destruct Hs as [_ [L _]]; discriminate L]. exists []. split; [reflexivity|]. split; [intros [|k] c p dst dl E; discriminate E|].
    intros todo2 dsts2 dls2 rest. cbn [app length map]. rewrite Nat.add_0_r. match goal with |- ?x = _ => destruct x; reflexivity end.
  - destruct todo as [|p todo]; [destruct Hp as [L _]; discriminate L|].
    destruct dsts as [|dst dsts]; [destruct Hs as [L _]; discriminate L|].
    destruct dls as [|dl dls]; [destruct Hs as [_ [L _]]; discriminate L|].
    cbn [map] in Hp. apply rooms_cons in Hp. destruct Hp as [Rp Hp]. apply rooms_cons in Hs. destruct Hs as [Rs Hs].
    destruct (copy_component w h c dst dl (pl_buf p) (pl_linesize p) Rs Rp) as (cw & ch & data & E1 & E2 & E3 & HC).
    destruct (IH todo (done ++ [p]) dsts dls Hp Hs) as (dsts' & L' & I3 & I1).
    exists (data :: dsts'). split; [cbn [length]; lia|]. split.
    + intros [|k] c' p' dst' dl' Hc Hp' Hdst Hdl; cbn [nth_error] in *.
      * injection Hc as <-. injection Hp' as <-. injection Hdst as <-. injection Hdl as <-. exists data. split; [reflexivity|exact HC].
      * exact (I3 k c' p' dst' dl' Hc Hp' Hdst Hdl).
    + intros todo2 dsts2 dls2 rest. specialize (I1 todo2 dsts2 dls2 rest).
      cbn [map app copy_out]. unfold fb_count, fb_linesize, fb_slice. cbn [fb_planes].
      rewrite app_length. cbn [length]. rewrite (proj2 (Nat.ltb_lt _ _)) by lia.
      rewrite nth_error_app2, Nat.sub_diag by apply le_n. cbn [nth_error unwrap_ok obind unwrap].
      rewrite E1. cbn [obind]. rewrite E2. cbn [obind]. rewrite E3. cbn [obind].
      rewrite (app_length done), <- !app_assoc in I1. cbn [length app] in I1. rewrite Nat.add_1_r in I1. rewrite I1.
      replace (S (length done) + length todo) with (length done + S (length todo)) by lia.
      match goal with |- context [copy_out ?a ?b ?c ?d ?e ?f ?g] => destruct (copy_out a b c d e f g); reflexivity end.
Qed.

Lemma missing_in v B ps p ps2 t cs rest srcs srcs2 sls sls2 :
  fo_comps (vi_format v) = map Some cs ++ rest -> rooms (vi_width v) (vi_height v) cs (map pl_buf ps) (map pl_linesize ps) ->
  rooms (vi_width v) (vi_height v) cs srcs sls ->
  srcs2 = [] \/ sls2 = [] \/ rest = [] \/ (exists r, rest = None :: r) ->
  copy_from_slice (mk_frame (Video v) (mk_fb B (ps ++ p :: ps2)) t) (srcs ++ srcs2) (sls ++ sls2) = Panic.
Proof.
  intros Hc R Hs M. destruct (copy_in_prefix B _ _ cs ps [] srcs sls R Hs) as (ps' & L & I). specialize (I (p :: ps2) srcs2 sls2 rest). cbn [app length Nat.add] in I.
  unfold copy_from_slice. cbn [fr_kind fr_buf]. unfold fb_count. cbn [fb_planes]. rewrite Hc, I. cbn [length copy_in]. unfold fb_linesize, fb_slice. cbn [fb_planes].
  rewrite nth_error_app2, Nat.sub_diag by apply le_n. cbn [nth_error unwrap_ok obind].
  destruct sls2 as [|sl sls2]; [reflexivity|]. cbn [hd_error unwrap obind].
  destruct srcs2 as [|s srcs2]; [reflexivity|]. cbn [hd_error unwrap obind].
  destruct rest as [|r rest]; [reflexivity|]. cbn [hd_error unwrap obind].
  destruct M as [M|[M|[M|[r' M]]]]; try discriminate M. injection M as -> _. reflexivity.
Qed.

Lemma extra_in v B ps t cs rest srcs srcs2 sls sls2 :
  fo_comps (vi_format v) = map Some cs ++ rest -> rooms (vi_width v) (vi_height v) cs (map pl_buf ps) (map pl_linesize ps) ->
  rooms (vi_width v) (vi_height v) cs srcs sls ->
  copy_from_slice (mk_frame (Video v) (mk_fb B ps) t) (srcs ++ srcs2) (sls ++ sls2) = copy_from_slice (mk_frame (Video v) (mk_fb B ps) t) srcs sls.
Proof.
  intros Hc R Hs. destruct (copy_in_prefix B _ _ cs ps [] srcs sls R Hs) as (ps' & L & I). pose proof (I [] srcs2 sls2 rest) as I1. pose proof (I [] [] [] rest) as I2.
  repeat rewrite app_nil_r in I1. repeat rewrite app_nil_r in I2. cbn [app length Nat.add] in I1, I2.
  unfold copy_from_slice. cbn [fr_kind fr_buf]. unfold fb_count. cbn [fb_planes]. rewrite Hc, I1, I2. reflexivity.
Qed.

Lemma missing_out v B ps ps2 t cs rest dsts dsts2 dls dls2 :
  fo_comps (vi_format v) = map Some cs ++ rest -> rooms (vi_width v) (vi_height v) cs (map pl_buf ps) (map pl_linesize ps) ->
  rooms (vi_width v) (vi_height v) cs dsts dls ->
  (dsts2 = [] \/ dls2 = [] \/ rest = [] \/ ps2 = [] ->
   exists dsts', copy_frame_to_buffer (mk_frame (Video v) (mk_fb B (ps ++ ps2)) t) (dsts ++ dsts2) (dls ++ dls2) = Ret (dsts' ++ dsts2) /\
     length dsts' = length dsts /\
     forall k c p dst dl, nth_error cs k = Some c -> nth_error ps k = Some p -> nth_error dsts k = Some dst -> nth_error dls k = Some dl ->
       exists dst', nth_error dsts' k = Some dst' /\ component_copied (vi_width v) (vi_height v) c dst dl (pl_buf p) (pl_linesize p) dst') /\
  (dsts2 <> [] -> dls2 <> [] -> ps2 <> [] -> (exists r, rest = None :: r) ->
   copy_frame_to_buffer (mk_frame (Video v) (mk_fb B (ps ++ ps2)) t) (dsts ++ dsts2) (dls ++ dls2) = Panic).
Proof.
  intros Hc R Hs. destruct (copy_out_prefix B _ _ cs ps [] dsts dls R Hs) as (dsts' & L & C & I). specialize (I ps2 dsts2 dls2 rest). cbn [app length Nat.add] in I.
  split.
  - intros M. exists dsts'. split; [|split; [exact L|exact C]]. unfold copy_frame_to_buffer. cbn [fr_kind fr_buf]. rewrite Hc, I.
    assert (Q : copy_out (mk_fb B (ps ++ ps2)) (vi_width v) (vi_height v) (length ps) dsts2 dls2 rest = Ret dsts2); [|rewrite Q; reflexivity].
    destruct dsts2 as [|d dsts2]; [reflexivity|]. destruct dls2 as [|dl dls2]; [reflexivity|]. destruct rest as [|r rest]; [reflexivity|].
    destruct M as [M|[M|[M|M]]]; try discriminate M. subst ps2. cbn [copy_out]. unfold fb_count. cbn [fb_planes]. rewrite app_nil_r, Nat.ltb_irrefl. reflexivity.
  - intros M1 M2 M3 [r ->]. unfold copy_frame_to_buffer. cbn [fr_kind fr_buf]. rewrite Hc, I.
    destruct dsts2 as [|d dsts2]; [contradiction|]. destruct dls2 as [|dl dls2]; [contradiction|]. destruct ps2 as [|p ps2]; [contradiction|].
    cbn [copy_out]. unfold fb_count, fb_linesize, fb_slice. cbn [fb_planes]. rewrite app_length. cbn [length]. rewrite (proj2 (Nat.ltb_lt _ _)) by lia.
    rewrite nth_error_app2, Nat.sub_diag by apply le_n. cbn [nth_error unwrap_ok obind unwrap]. reflexivity.
Qed.

Lemma no_plane : forall f k dst dl, (length (fb_planes (fr_buf f)) <= k)%nat -> copy_plane_to_buffer f k dst dl = Panic.
Proof.
  intros f k dst dl L. unfold copy_plane_to_buffer. destruct (fr_kind f) as [v|a]; [|reflexivity].
  unfold fb_slice. rewrite (proj2 (nth_error_None _ _) L). reflexivity.
Qed.

Lemma audio_copies : forall a b t k dst dl dsts dls,
  copy_plane_to_buffer (mk_frame (Audio a) b t) k dst dl = Panic /\
  copy_frame_to_buffer (mk_frame (Audio a) b t) dsts dls = Panic /\
  copy_from_slice (mk_frame (Audio a) b t) dsts dls = Panic.
Proof. intros. repeat split. Qed.
