(** Frames with 64 bits and with 32. *)
From Coq Require Import List Arith NArith Bool Lia.
From Coq Require Import ZifyBool ZifyNat ZifyN.
From Verif Require Import Base AudioModel PixelModel FormatModel FrameModel ReleaseModel DataSpec DataProofs FrameProofs FrameSizeSpec FrameSizeProofs.
From Verif Require Import MachineModel MachineFrameModel MachineFrameSpec MachineFrameProofs MachineAccProofs2.
Import ListNotations.
Local Open Scope N_scope.

(** ** 64 bits with overflow checks *)
Lemma mmul_64 : mmul x86_64 = umul.
Proof. unfold mmul, ranged, umul. change (modulus x86_64) with W64. cbn [checked x86_64]. reflexivity. Qed.
Lemma mshl_64 : mshl x86_64 = ushl.
Proof. unfold mshl, ushl. change (modulus x86_64) with W64. cbn [checked bits x86_64]. reflexivity. Qed.
Lemma mshr_64 : mshr x86_64 = ushr.
Proof. unfold mshr, ushr. cbn [checked bits x86_64]. reflexivity. Qed.
Lemma mnot_64 : mnot x86_64 = unot.
Proof. reflexivity. Qed.

Lemma align_64 : m_align x86_64 = align.
Proof. unfold m_align, align. rewrite madd_64, msub_64, mnot_64. reflexivity. Qed.
Lemma round_64 : m_round_to_byte x86_64 = round_to_byte.
Proof. unfold m_round_to_byte, round_to_byte. rewrite madd_64. reflexivity. Qed.
Lemma audio_64 : m_get_audio_size x86_64 = get_audio_size.
Proof. unfold m_get_audio_size, get_audio_size. rewrite round_64, mmul_64, align_64. reflexivity. Qed.
Lemma sub_size_64 : m_sub_size x86_64 = sub_size.
Proof. unfold m_sub_size, sub_size. rewrite madd_64, msub_64, mshl_64, mshr_64. reflexivity. Qed.
Lemma width_64 : m_get_width x86_64 = get_width.
Proof. unfold m_get_width, get_width. rewrite sub_size_64. reflexivity. Qed.
Lemma height_64 : m_get_height x86_64 = get_height.
Proof. unfold m_get_height, get_height. rewrite sub_size_64. reflexivity. Qed.
Lemma linesize_64 : m_get_linesize x86_64 = get_linesize.
Proof. unfold m_get_linesize, get_linesize. rewrite width_64, mmul_64, madd_64, msub_64, align_64. reflexivity. Qed.
Lemma data_size_64 : m_get_data_size x86_64 = get_data_size.
Proof. unfold m_get_data_size, get_data_size. rewrite sub_size_64, linesize_64, mmul_64. reflexivity. Qed.
Lemma sum_64 w h a l : forall acc, m_sum_sizes x86_64 acc w h a l = sum_sizes acc w h a l.
Proof.
  induction l as [|[c|] l IH]; intros acc; cbn [m_sum_sizes sum_sizes]; [reflexivity| |apply IH]. rewrite data_size_64.
  destruct (get_data_size c w h a) as [s| |]; cbn [obind]; [|reflexivity..]. rewrite madd_64.
  destruct (uadd acc s) as [acc'| |]; cbn [obind]; [apply IH|reflexivity..].
Qed.
Lemma zeroed_64 k : m_zeroed x86_64 k = zeroed k.
Proof. unfold m_zeroed, zeroed. rewrite room_64. reflexivity. Qed.
Lemma video_planes_64 w h l : forall b, m_video_planes x86_64 w h b l = video_planes w h b l.
Proof.
  induction l as [|[c|] l IH]; intros b; cbn [m_video_planes video_planes]; [reflexivity| |apply IH]. rewrite data_size_64, linesize_64.
  destruct (get_data_size c w h ALIGNMENT) as [s| |]; cbn [obind]; [|reflexivity..].
  destruct (get_linesize c w ALIGNMENT) as [l'| |]; cbn [obind]; [|reflexivity..].
  destruct (split_to (fb_buf b) s) as [[front rest]| |]; cbn [obind]; [apply IH|reflexivity..].
Qed.
Lemma audio_planes_64 v k : forall b, m_audio_planes x86_64 v k b = audio_planes v k b.
Proof.
  induction k as [|k IH]; intros b; cbn [m_audio_planes audio_planes]; [reflexivity|]. rewrite audio_64.
  destruct (get_audio_size (ai_format v) (ai_samples v) ALIGNMENT) as [s| |]; cbn [obind]; [|reflexivity..].
  destruct (split_to (fb_buf b) s) as [[front rest]| |]; cbn [obind]; [apply IH|reflexivity..].
Qed.
Lemma frame_64 kind t : m_new_default_frame x86_64 kind t = new_default_frame kind t.
Proof.
  unfold m_new_default_frame, new_default_frame. assert (E : m_fb_new x86_64 kind = fb_new kind); [|rewrite E; reflexivity].
  destruct kind as [v|v]; unfold m_fb_new, fb_new.
  - unfold m_video_size, video_size. rewrite sum_64. destruct (sum_sizes _ _ _ _ _) as [s| |]; cbn [obind]; [|reflexivity..].
    rewrite zeroed_64. destruct (zeroed s) as [buf| |]; cbn [obind]; [apply video_planes_64|reflexivity..].
  - unfold m_audio_size, audio_size. rewrite audio_64, mmul_64.
    destruct (get_audio_size (ai_format v) (ai_samples v) ALIGNMENT) as [s0| |]; cbn [obind]; [|reflexivity..].
    destruct (umul s0 (map_len (ai_map v))) as [s| |]; cbn [obind]; [|reflexivity..].
    rewrite zeroed_64. destruct (zeroed s) as [buf| |]; cbn [obind]; [|reflexivity..].
    destruct (so_planar (ai_format v)); [apply audio_planes_64|reflexivity].
Qed.
Lemma copy_out_64 b w h : forall dst dls comps i, m_copy_out x86_64 b w h i dst dls comps = copy_out b w h i dst dls comps.
Proof.
  induction dst as [|d dst IH]; intros dls comps i; cbn [m_copy_out copy_out]; [reflexivity|].
  destruct dls as [|dl dls]; [reflexivity|]. destruct comps as [|c comps]; [reflexivity|]. rewrite width_64, height_64, IH. reflexivity.
Qed.
Lemma copy_in_64 w h : forall k b i src sls comps, m_copy_in x86_64 b w h k i src sls comps = copy_in b w h k i src sls comps.
Proof.
  induction k as [|k IH]; intros b i src sls comps; [reflexivity|]. rewrite copy_in_S. cbn [copy_in].
  destruct (unwrap_ok (fb_linesize b i)) as [dl| |]; cbn [obind]; [|reflexivity..].
  destruct (unwrap (hd_error sls)) as [sl| |]; cbn [obind]; [|reflexivity..].
  destruct (unwrap_ok (fb_slice b i)) as [s| |]; cbn [obind]; [|reflexivity..].
  destruct (unwrap (hd_error src)) as [ss| |]; cbn [obind]; [|reflexivity..].
  destruct (unwrap (hd_error comps)) as [cc| |]; cbn [obind]; [|reflexivity..].
  destruct (unwrap cc) as [c'| |]; cbn [obind]; [|reflexivity..]. rewrite width_64, height_64.
  destruct (get_width c' w) as [cw| |]; cbn [obind]; [|reflexivity..].
  destruct (get_height c' h) as [ch| |]; cbn [obind]; [|reflexivity..].
  destruct (copy_plane s dl ss sl cw ch) as [d'| |]; cbn [obind]; [apply IH|reflexivity..].
Qed.
Lemma on_64 :
  (forall kind t, m_new_default_frame x86_64 kind t = new_default_frame kind t) /\
  (forall f dst dls, m_copy_frame_to_buffer x86_64 f dst dls = copy_frame_to_buffer f dst dls) /\
  (forall f src sls, m_copy_from_slice x86_64 f src sls = copy_from_slice f src sls).
Proof.
  split; [exact frame_64|]. split; intros f x y.
  - unfold m_copy_frame_to_buffer, copy_frame_to_buffer. destruct (fr_kind f); [apply copy_out_64|reflexivity].
  - unfold m_copy_from_slice, copy_from_slice. destruct (fr_kind f); [rewrite copy_in_64|]; reflexivity.
Qed.

(** ** 64 bits without *)
Lemma mmul_release a b : mmul x86_64_release a b = Ret (rmul a b).
Proof.
  unfold mmul, ranged, rmul. change (modulus x86_64_release) with W64. cbn [checked x86_64_release].
  destruct (N.ltb_spec (a * b) W64) as [H|H]; [rewrite (N.mod_small (a * b)) by exact H|]; reflexivity.
Qed.
Lemma mshl_release a k : mshl x86_64_release a k = Ret (rshl a k).
Proof.
  unfold mshl, rshl. change (modulus x86_64_release) with W64. cbn [checked bits x86_64_release].
  destruct (N.ltb_spec k 64) as [H|H]; [rewrite (N.mod_small k) by exact H|]; reflexivity.
Qed.
Lemma mshr_release a k : mshr x86_64_release a k = Ret (rshr a k).
Proof.
  unfold mshr, rshr. cbn [checked bits x86_64_release].
  destruct (N.ltb_spec k 64) as [H|H]; [rewrite (N.mod_small k) by exact H|]; reflexivity.
Qed.
Lemma rshr_3 a : rshr a 3 = N.shiftr a 3.
Proof. reflexivity. Qed.
Lemma radd_word a b : radd a b < W64.
Proof. apply N.mod_lt. discriminate. Qed.
Lemma rshl_word a k : rshl a k < W64.
Proof. apply N.mod_lt. discriminate. Qed.
Lemma mnot_64r : mnot x86_64_release = unot.
Proof. reflexivity. Qed.

Lemma align_64r v a : a < W64 -> m_align x86_64_release v a = Ret (r_align v a).
Proof.
  intros Ha. unfold m_align. rewrite madd_release. cbn [obind]. rewrite (msub_release _ 1 (radd_word v a)). cbn [obind].
  rewrite (msub_release _ 1 Ha). cbn [obind]. rewrite mnot_64r. reflexivity.
Qed.
Lemma round_64r v : m_round_to_byte x86_64_release v = Ret (r_round_to_byte v).
Proof. unfold m_round_to_byte, r_round_to_byte. rewrite madd_release, rshr_3. reflexivity. Qed.
Lemma audio_64r f l a : a < W64 -> m_get_audio_size x86_64_release f l a = Ret (r_get_audio_size f l a).
Proof.
  intros Ha. unfold m_get_audio_size, r_get_audio_size. destruct (so_packed f).
  - rewrite mmul_release. cbn [obind]. rewrite round_64r. cbn [obind]. apply align_64r. exact Ha.
  - rewrite round_64r. cbn [obind]. rewrite mmul_release. cbn [obind]. apply align_64r. exact Ha.
Qed.
Lemma sub_size_64r x k : m_sub_size x86_64_release x k = Ret (r_sub_size x k).
Proof.
  unfold m_sub_size, r_sub_size. rewrite mshl_release. cbn [obind]. rewrite (msub_release _ 1 (rshl_word 1 k)). cbn [obind].
  rewrite madd_release. cbn [obind]. apply mshr_release.
Qed.
Lemma linesize_64r c w a : a < W64 -> m_get_linesize x86_64_release c w a = Ret (r_get_linesize c w a).
Proof.
  intros Ha. unfold m_get_linesize, r_get_linesize, m_get_width, r_get_width. cbv zeta. rewrite sub_size_64r. cbn [obind].
  rewrite mmul_release. cbn [obind]. rewrite madd_release. cbn [obind]. rewrite (msub_release _ 1 (radd_word _ _)). cbn [obind].
  rewrite rshr_3. apply align_64r. exact Ha.
Qed.
Lemma data_size_64r c w h a : a < W64 -> m_get_data_size x86_64_release c w h a = Ret (r_get_data_size c w h a).
Proof.
  intros Ha. unfold m_get_data_size, r_get_data_size. rewrite sub_size_64r. cbn [obind]. rewrite (linesize_64r _ _ _ Ha). cbn [obind]. apply mmul_release.
Qed.
Lemma sum_64r w h a l : a < W64 -> forall acc, m_sum_sizes x86_64_release acc w h a l = Ret (r_sum_sizes acc w h a l).
Proof.
  intros Ha. induction l as [|[c|] l IH]; intros acc; cbn [m_sum_sizes r_sum_sizes]; [reflexivity| |apply IH].
  rewrite (data_size_64r _ _ _ _ Ha). cbn [obind]. rewrite madd_release. cbn [obind]. apply IH.
Qed.
Lemma align_small : ALIGNMENT < W64. Proof. reflexivity. Qed.
Lemma room_64r : MachineModel.room x86_64_release = 2 ^ 63.
Proof. reflexivity. Qed.
Lemma zeroed_64r k : m_zeroed x86_64_release k = zeroed k.
Proof. unfold m_zeroed, zeroed. rewrite room_64r. reflexivity. Qed.
Lemma video_planes_64r w h l : forall b, m_video_planes x86_64_release w h b l = r_video_planes w h b l.
Proof.
  induction l as [|[c|] l IH]; intros b; cbn [m_video_planes r_video_planes]; [reflexivity| |apply IH].
  rewrite (data_size_64r _ _ _ _ align_small). cbn [obind]. rewrite (linesize_64r _ _ _ align_small). cbn [obind].
  destruct (split_to (fb_buf b) (r_get_data_size c w h ALIGNMENT)) as [[front rest]| |]; cbn [obind]; [apply IH|reflexivity..].
Qed.
Lemma audio_planes_64r v k : forall b, m_audio_planes x86_64_release v k b = r_audio_planes v k b.
Proof.
  induction k as [|k IH]; intros b; cbn [m_audio_planes r_audio_planes]; [reflexivity|].
  rewrite (audio_64r _ _ _ align_small). cbn [obind]. cbv zeta.
  destruct (split_to (fb_buf b) (r_get_audio_size (ai_format v) (ai_samples v) ALIGNMENT)) as [[front rest]| |]; cbn [obind]; [apply IH|reflexivity..].
Qed.
Lemma frame_64r kind t : m_new_default_frame x86_64_release kind t = r_new_default_frame kind t.
Proof.
  unfold m_new_default_frame, r_new_default_frame. assert (E : m_fb_new x86_64_release kind = r_fb_new kind); [|rewrite E; reflexivity].
  destruct kind as [v|v]; unfold m_fb_new, r_fb_new.
  - unfold m_video_size, r_video_size. rewrite (sum_64r _ _ _ _ align_small). cbn [obind].
    rewrite zeroed_64r. destruct (zeroed _) as [buf| |]; cbn [obind]; [apply video_planes_64r|reflexivity..].
  - unfold m_audio_size, r_audio_size. rewrite (audio_64r _ _ _ align_small). cbn [obind]. rewrite mmul_release. cbn [obind]. cbv zeta.
    rewrite zeroed_64r. destruct (zeroed _) as [buf| |]; cbn [obind]; [|reflexivity..].
    destruct (so_planar (ai_format v)); [apply audio_planes_64r|reflexivity].
Qed.
Lemma copy_out_64r b w h : forall dst dls comps i, m_copy_out x86_64_release b w h i dst dls comps = r_copy_out b w h i dst dls comps.
Proof.
  induction dst as [|d dst IH]; intros dls comps i; cbn [m_copy_out r_copy_out]; [reflexivity|].
  destruct dls as [|dl dls]; [reflexivity|]. destruct comps as [|c comps]; [reflexivity|].
  destruct (i <? fb_count b)%nat; [|reflexivity].
  destruct (unwrap_ok (fb_slice b i)) as [s| |]; cbn [obind]; [|reflexivity..].
  destruct (unwrap_ok (fb_linesize b i)) as [sl| |]; cbn [obind]; [|reflexivity..].
  destruct (unwrap c) as [c'| |]; cbn [obind]; [|reflexivity..]. unfold m_get_width, m_get_height, r_get_width, r_get_height.
  rewrite !sub_size_64r. cbn [obind]. rewrite IH. reflexivity.
Qed.
Lemma copy_in_64r w h : forall k b i src sls comps, m_copy_in x86_64_release b w h k i src sls comps = r_copy_in b w h k i src sls comps.
Proof.
  induction k as [|k IH]; intros b i src sls comps; [reflexivity|]. rewrite copy_in_S. cbn [r_copy_in].
  destruct (unwrap_ok (fb_linesize b i)) as [dl| |]; cbn [obind]; [|reflexivity..].
  destruct (unwrap (hd_error sls)) as [sl| |]; cbn [obind]; [|reflexivity..].
  destruct (unwrap_ok (fb_slice b i)) as [s| |]; cbn [obind]; [|reflexivity..].
  destruct (unwrap (hd_error src)) as [ss| |]; cbn [obind]; [|reflexivity..].
  destruct (unwrap (hd_error comps)) as [cc| |]; cbn [obind]; [|reflexivity..].
  destruct (unwrap cc) as [c'| |]; cbn [obind]; [|reflexivity..]. unfold m_get_width, m_get_height, r_get_width, r_get_height.
  rewrite !sub_size_64r. cbn [obind].
  destruct (copy_plane s dl ss sl _ _) as [d'| |]; cbn [obind]; [apply IH|reflexivity..].
Qed.
Lemma on_64r :
  (forall kind t, m_new_default_frame x86_64_release kind t = r_new_default_frame kind t) /\
  (forall f dst dls, m_copy_frame_to_buffer x86_64_release f dst dls = r_copy_frame_to_buffer f dst dls) /\
  (forall f src sls, m_copy_from_slice x86_64_release f src sls = r_copy_from_slice f src sls).
Proof.
  split; [exact frame_64r|]. split; intros f x y.
  - unfold m_copy_frame_to_buffer, r_copy_frame_to_buffer. destruct (fr_kind f); [apply copy_out_64r|reflexivity].
  - unfold m_copy_from_slice, r_copy_from_slice. destruct (fr_kind f); [rewrite copy_in_64r|]; reflexivity.
Qed.

(** ** 32 bits *)

(** 96 x H with H * 96 = 2^32 + 32 *)
Definition tall32 : video_info := mk_video 96 44739243 false FrameI fmt_YUV444 24.
Definition tall32_frame : frame :=
  mk_frame (Video tall32) (mk_fb [] (repeat (mk_plane (repeat 0 32) 96) 3)) default_time.

Lemma tall32_copy src : (96 <= length src)%nat ->
  m_copy_from_slice wasm32_release tall32_frame [src; src; src] [96; 96; 96] = UB.
Proof.
  intros H. unfold m_copy_from_slice. change (fr_kind tall32_frame) with (Video tall32). cbn [fr_buf tall32_frame].
  set (hh := vi_height tall32).
  assert (Hh : exists k, m_get_height wasm32_release (mk_chromaton 0 0 false 8 0 0 1) hh = Ret (N.succ k)) by (exists 44739242; reflexivity).
  change (vi_width tall32) with 96.
  change (fb_count (mk_fb [] (repeat (mk_plane (repeat 0 32) 96) 3))) with 3%nat.
  change (fo_comps (vi_format tall32)) with (Some (mk_chromaton 0 0 false 8 0 0 1) :: tl (fo_comps (vi_format tall32))).
  clearbody hh. destruct Hh as [k Hk].
  cbn [m_copy_in repeat fb_linesize fb_slice fb_planes nth_error unwrap_ok unwrap hd_error obind pl_linesize pl_buf].
  rewrite Hk. change (m_get_width wasm32_release (mk_chromaton 0 0 false 8 0 0 1) 96) with (Ret 96). cbn [obind]. unfold copy_plane.
  change (N.to_nat 96) with 96%nat. rewrite N2Nat.inj_succ.
  destruct src as [|x src]; [cbn in H; lia|].
  change (chunks 96 (x :: src)) with (Ret (firstn 96 (x :: src) :: chunks_fuel (length src) 96 (skipn 96 (x :: src)))).
  set (q := chunks_fuel (length src) 96 (skipn 96 (x :: src))). clearbody q. set (u := firstn 96 (x :: src)). clearbody u.
  generalize (N.to_nat k). intros j. cbn -[Nat.leb]. destruct j; reflexivity.
Qed.

Lemma undersized32 : exists v f src, m_new_default_frame wasm32 (Video v) None = Panic /\ (exists g, m_new_default_frame x86_64 (Video v) None = Ret g) /\
  m_new_default_frame wasm32_release (Video v) None = Ret f /\
  Forall (fun p => N.of_nat (length (pl_buf p)) < pl_linesize p) (fb_planes (fr_buf f)) /\
  length src = N.to_nat (vi_width v) /\ m_copy_from_slice wasm32_release f [src; src; src] [vi_width v; vi_width v; vi_width v] = UB.
Proof.
  exists tall32, tall32_frame, (repeat 7 96). split; [vm_compute; reflexivity|]. split.
  - apply m_video_created; [reflexivity|cbn; lia|]. exists (repeat (96 * 44739243) 3). split; [|reflexivity].
    change (present (fo_comps (vi_format tall32))) with [mk_chromaton 0 0 false 8 0 0 1; yuv8 0 0 1; yuv8 0 0 2].
    change (vi_width tall32) with 96. change (vi_height tall32) with 44739243. cbn [repeat bits x86_64].
    assert (P : forall c, h_ss c = 0 -> v_ss c = 0 -> depth c = 8 -> plane_bytes_on 64 96 44739243 c (96 * 44739243)).
    { intros c C1 C2 C3. exists 96, 96, 96, 44739243. rewrite C1, C2, C3. change (2 ^ 0) with 1. change (2 ^ 64) with 18446744073709551616.
      unfold ceil_div, least_multiple. repeat (split; [lia|]). split; [split; [exists 3; reflexivity|split; [lia|intros k; lia]]|].
      repeat (split; [lia|]). reflexivity. }
    repeat (constructor; [apply P; reflexivity|]). constructor.
  - split; [vm_compute; reflexivity|]. split; [repeat constructor|]. split; [reflexivity|]. apply tall32_copy. rewrite repeat_length. lia.
Qed.

Lemma fitting_sizes m v t sizes : 9 <= bits m ->
  Forall2 (plane_bytes_on (bits m) (vi_width v) (vi_height v)) (present (fo_comps (vi_format v))) sizes -> total sizes < 2 ^ (bits m - 1) ->
  exists f, m_new_default_frame m (Video v) t = Ret f /\ map pl_buf (fb_planes (fr_buf f)) = map (fun k => repeat 0 (N.to_nat k)) sizes.
Proof.
  intros Hb F T. destruct (proj2 (m_video_created (mk_machine (bits m) true) eq_refl Hb v t)) as [f E]; [exists sizes; split; assumption|].
  exists f. split; [|exact (m_video_sizes (mk_machine (bits m) true) eq_refl Hb v t f sizes E F)].
  refine (frame_wider (mk_machine (bits m) true) m eq_refl _ _ _ _ _ E); cbn [bits]; lia.
Qed.
