(** Builds without overflow checks. *)
From Coq Require Import List Arith NArith Bool Lia.
From Coq Require Import ZifyBool ZifyNat ZifyN.
From Verif Require Import Base AudioModel PixelModel FormatModel FrameModel ReleaseModel DataSpec.
Import ListNotations.
Local Open Scope N_scope.

Lemma W64_val : W64 = 18446744073709551616. Proof. reflexivity. Qed.
Lemma obind_inv {A B : Type} (m : outcome A) (k : A -> outcome B) b : obind m k = Ret b -> exists a, m = Ret a /\ k a = Ret b.
Proof. destruct m as [a| |]; cbn [obind]; intros H; try discriminate H. exists a. split; [reflexivity|exact H]. Qed.

Lemma add_agrees a b s : uadd a b = Ret s -> radd a b = s /\ s < W64.
Proof. unfold uadd, radd. destruct (N.ltb_spec (a + b) W64); intros E; [|discriminate E]. injection E as <-. split; [apply N.mod_small|]; assumption. Qed.
Lemma mul_agrees a b s : umul a b = Ret s -> rmul a b = s /\ s < W64.
Proof. unfold umul, rmul. destruct (N.ltb_spec (a * b) W64); intros E; [|discriminate E]. injection E as <-. split; [apply N.mod_small|]; assumption. Qed.
Lemma sub_agrees a b s : a < W64 -> usub a b = Ret s -> rsub a b = s /\ s < W64.
Proof.
  intros Ha. unfold usub, rsub. destruct (N.leb_spec b a); intros E; [|discriminate E]. injection E as <-.
  rewrite (N.mod_small b) by lia. replace (a + (W64 - b)) with (a - b + 1 * W64) by lia.
  rewrite N.mod_add by discriminate. split; [apply N.mod_small; lia|lia].
Qed.
Lemma shl_agrees a n s : ushl a n = Ret s -> rshl a n = s /\ s < W64.
Proof.
  unfold ushl, rshl. destruct (N.ltb_spec n 64) as [H|H]; intros E; [|discriminate E]. injection E as <-. rewrite (N.mod_small n 64) by exact H.
  split; [reflexivity|]. apply N.mod_lt. discriminate.
Qed.
Lemma shr_agrees a n s : ushr a n = Ret s -> rshr a n = s.
Proof. unfold ushr, rshr. destruct (N.ltb_spec n 64) as [H|H]; intros E; [|discriminate E]. injection E as <-. rewrite (N.mod_small n 64) by exact H. reflexivity. Qed.

Lemma align_agrees v a s : a < W64 -> align v a = Ret s -> r_align v a = s.
Proof.
  intros Ha E. unfold align in E. apply obind_inv in E. destruct E as [x [E1 E]]. apply add_agrees in E1. destruct E1 as [E1 Hx].
  apply obind_inv in E. destruct E as [y [E2 E]]. apply (sub_agrees _ _ _ Hx) in E2. destruct E2 as [E2 _].
  apply obind_inv in E. destruct E as [m [E3 E]]. apply (sub_agrees _ _ _ Ha) in E3. destruct E3 as [E3 _].
  injection E as <-. unfold r_align. rewrite E1, E2, E3. reflexivity.
Qed.
Lemma round_agrees v s : round_to_byte v = Ret s -> r_round_to_byte v = s.
Proof.
  intros E. unfold round_to_byte in E. apply obind_inv in E. destruct E as [x [E1 E]]. apply add_agrees in E1. destruct E1 as [E1 _].
  injection E as <-. unfold r_round_to_byte. rewrite E1. reflexivity.
Qed.
Lemma audio_agrees f n a s : a < W64 -> get_audio_size f n a = Ret s -> r_get_audio_size f n a = s.
Proof.
  intros Ha E. unfold get_audio_size in E. apply obind_inv in E. destruct E as [x [E1 E]]. unfold r_get_audio_size.
  apply (align_agrees _ _ _ Ha) in E. rewrite <- E. f_equal. destruct (so_packed f); apply obind_inv in E1; destruct E1 as [b [E2 E3]].
  - apply mul_agrees in E2. destruct E2 as [-> _]. apply round_agrees in E3. exact E3.
  - apply round_agrees in E2. rewrite E2. apply mul_agrees in E3. apply E3.
Qed.
Lemma sub_size_agrees x k s : sub_size x k = Ret s -> r_sub_size x k = s.
Proof.
  intros E. unfold sub_size in E. apply obind_inv in E. destruct E as [a [E1 E]]. apply shl_agrees in E1. destruct E1 as [E1 Ha].
  apply obind_inv in E. destruct E as [b [E2 E]]. apply (sub_agrees _ _ _ Ha) in E2. destruct E2 as [E2 _].
  apply obind_inv in E. destruct E as [c [E3 E]]. apply add_agrees in E3. destruct E3 as [E3 _]. apply shr_agrees in E.
  unfold r_sub_size. rewrite E1, E2, E3. exact E.
Qed.
Lemma linesize_agrees c w a s : a < W64 -> get_linesize c w a = Ret s -> r_get_linesize c w a = s.
Proof.
  intros Ha E. unfold get_linesize in E. apply obind_inv in E. destruct E as [x [E1 E]]. apply sub_size_agrees in E1.
  apply obind_inv in E. destruct E as [b [E2 E]]. apply mul_agrees in E2. destruct E2 as [E2 _].
  apply obind_inv in E. destruct E as [d [E3 E]]. apply add_agrees in E3. destruct E3 as [E3 Hd].
  apply obind_inv in E. destruct E as [e [E4 E]]. apply (sub_agrees _ _ _ Hd) in E4. destruct E4 as [E4 _].
  apply (align_agrees _ _ _ Ha) in E. unfold r_get_linesize, r_get_width. rewrite E1, E2, E3, E4. exact E.
Qed.
Lemma data_size_agrees c w h a s : a < W64 -> get_data_size c w h a = Ret s -> r_get_data_size c w h a = s.
Proof.
  intros Ha E. unfold get_data_size in E. apply obind_inv in E. destruct E as [x [E1 E]]. apply sub_size_agrees in E1.
  apply obind_inv in E. destruct E as [l [E2 E]]. apply (linesize_agrees _ _ _ _ Ha) in E2. apply mul_agrees in E.
  unfold r_get_data_size. rewrite E1, E2. apply E.
Qed.
Lemma sum_agrees w h a l : a < W64 -> forall acc s, sum_sizes acc w h a l = Ret s -> r_sum_sizes acc w h a l = s.
Proof.
  intros Ha. induction l as [|[c|] l IH]; intros acc s E; cbn [sum_sizes r_sum_sizes] in *.
  - injection E as <-. reflexivity.
  - apply obind_inv in E. destruct E as [x [E1 E]]. apply (data_size_agrees _ _ _ _ _ Ha) in E1.
    apply obind_inv in E. destruct E as [y [E2 E]]. apply add_agrees in E2. destruct E2 as [E2 _]. rewrite E1, E2. apply IH. exact E.
  - apply IH. exact E.
Qed.
Lemma align_word : ALIGNMENT < W64. Proof. reflexivity. Qed.
Lemma video_planes_agree w h l : forall b b', video_planes w h b l = Ret b' -> r_video_planes w h b l = Ret b'.
Proof.
  induction l as [|[c|] l IH]; intros b b' E; cbn [video_planes r_video_planes] in *; [exact E| |apply IH; exact E].
  apply obind_inv in E. destruct E as [x [E1 E]]. apply (data_size_agrees _ _ _ _ _ align_word) in E1.
  apply obind_inv in E. destruct E as [y [E2 E]]. apply (linesize_agrees _ _ _ _ align_word) in E2.
  apply obind_inv in E. destruct E as [[front rest] [E3 E]]. rewrite E1, E2, E3. cbn [obind]. apply IH. exact E.
Qed.
Lemma audio_planes_agree v n : forall b b', audio_planes v n b = Ret b' -> r_audio_planes v n b = Ret b'.
Proof.
  induction n as [|n IH]; intros b b' E; cbn [audio_planes r_audio_planes] in *; [exact E|].
  apply obind_inv in E. destruct E as [x [E1 E]]. apply (audio_agrees _ _ _ _ align_word) in E1.
  apply obind_inv in E. destruct E as [[front rest] [E3 E]]. rewrite E1, E3. cbn [obind]. apply IH. exact E.
Qed.
Lemma frame_agrees kind t f : new_default_frame kind t = Ret f -> r_new_default_frame kind t = Ret f.
Proof.
  intros E. unfold new_default_frame in E. apply obind_inv in E. destruct E as [b [E1 E]]. unfold r_new_default_frame.
  assert (H : r_fb_new kind = Ret b); [|rewrite H; exact E].
  unfold fb_new in E1. unfold r_fb_new. destruct kind as [v|v].
  - apply obind_inv in E1. destruct E1 as [n [E2 E1]]. apply (sum_agrees _ _ _ _ align_word) in E2. unfold r_video_size. rewrite E2.
    apply obind_inv in E1. destruct E1 as [buf [E3 E1]]. rewrite E3. cbn [obind]. apply video_planes_agree. exact E1.
  - apply obind_inv in E1. destruct E1 as [n [E2 E1]]. unfold audio_size in E2. apply obind_inv in E2. destruct E2 as [s [E4 E2]].
    apply (audio_agrees _ _ _ _ align_word) in E4. apply mul_agrees in E2. destruct E2 as [E2 _]. unfold r_audio_size. rewrite E4, E2.
    apply obind_inv in E1. destruct E1 as [buf [E3 E1]]. rewrite E3. cbn [obind].
    destruct (so_planar (ai_format v)); [apply audio_planes_agree; exact E1|exact E1].
Qed.

Lemma copy_out_agrees b w h : forall dst dls comps i o, copy_out b w h i dst dls comps = o -> o <> Panic -> r_copy_out b w h i dst dls comps = o.
Proof.
  induction dst as [|d dst IH]; intros dls comps i o E Ho; cbn [copy_out r_copy_out] in *; [exact E|].
  destruct dls as [|dl dls]; [exact E|]. destruct comps as [|c comps]; [exact E|].
  destruct (i <? fb_count b)%nat; [|exact E].
  destruct (unwrap_ok (fb_slice b i)) as [s| |]; cbn [obind] in *; [|exact E..].
  destruct (unwrap_ok (fb_linesize b i)) as [sl| |]; cbn [obind] in *; [|exact E..].
  destruct (unwrap c) as [c'| |]; cbn [obind] in *; [|exact E..].
  destruct (get_width c' w) as [cw| |] eqn:Ew; cbn [obind] in E; [|congruence|].
  2:{ exfalso. unfold get_width, sub_size, ushl, usub, uadd, ushr in Ew. repeat match type of Ew with context [if ?x then _ else _] => destruct x; cbn [obind] in Ew end; discriminate Ew. }
  destruct (get_height c' h) as [ch| |] eqn:Eh; cbn [obind] in E; [|congruence|].
  2:{ exfalso. unfold get_height, sub_size, ushl, usub, uadd, ushr in Eh. repeat match type of Eh with context [if ?x then _ else _] => destruct x; cbn [obind] in Eh end; discriminate Eh. }
  apply sub_size_agrees in Ew, Eh. unfold r_get_width, r_get_height. rewrite Ew, Eh.
  destruct (copy_plane d dl s sl cw ch) as [d'| |]; cbn [obind] in *; [|exact E..].
  destruct (copy_out b w h (S i) dst dls comps) as [r| |] eqn:Er; cbn [obind] in E.
  - rewrite (IH _ _ _ _ Er) by discriminate. exact E.
  - congruence.
  - rewrite (IH _ _ _ _ Er) by discriminate. exact E.
Qed.
Lemma copy_in_agrees w h : forall n b i src sls comps o, copy_in b w h n i src sls comps = o -> o <> Panic -> r_copy_in b w h n i src sls comps = o.
Proof.
  induction n as [|n IH]; intros b i src sls comps o E Ho; cbn [copy_in r_copy_in] in *; [exact E|].
  destruct (unwrap_ok (fb_linesize b i)) as [dl| |]; cbn [obind] in *; [|exact E..].
  destruct (unwrap (hd_error sls)) as [sl| |]; cbn [obind] in *; [|exact E..].
  destruct (unwrap_ok (fb_slice b i)) as [s| |]; cbn [obind] in *; [|exact E..].
  destruct (unwrap (hd_error src)) as [ss| |]; cbn [obind] in *; [|exact E..].
  destruct (unwrap (hd_error comps)) as [cc| |]; cbn [obind] in *; [|exact E..].
  destruct (unwrap cc) as [c'| |]; cbn [obind] in *; [|exact E..].
  destruct (get_width c' w) as [cw| |] eqn:Ew; cbn [obind] in E; [|congruence|].
  2:{ exfalso. unfold get_width, sub_size, ushl, usub, uadd, ushr in Ew. repeat match type of Ew with context [if ?x then _ else _] => destruct x; cbn [obind] in Ew end; discriminate Ew. }
  destruct (get_height c' h) as [ch| |] eqn:Eh; cbn [obind] in E; [|congruence|].
  2:{ exfalso. unfold get_height, sub_size, ushl, usub, uadd, ushr in Eh. repeat match type of Eh with context [if ?x then _ else _] => destruct x; cbn [obind] in Eh end; discriminate Eh. }
  apply sub_size_agrees in Ew, Eh. unfold r_get_width, r_get_height. rewrite Ew, Eh.
  destruct (copy_plane s dl ss sl cw ch) as [d'| |]; cbn [obind] in *; [|exact E..].
  apply IH; assumption.
Qed.

Lemma release_agrees :
  (forall kind t f, new_default_frame kind t = Ret f -> r_new_default_frame kind t = Ret f) /\
  (forall f dst dls o, copy_frame_to_buffer f dst dls = o -> o <> Panic -> r_copy_frame_to_buffer f dst dls = o) /\
  (forall f src sls o, copy_from_slice f src sls = o -> o <> Panic -> r_copy_from_slice f src sls = o).
Proof.
  split; [exact frame_agrees|]. split.
  - intros f dst dls o E Ho. unfold copy_frame_to_buffer in E. unfold r_copy_frame_to_buffer. destruct (fr_kind f); [|exact E].
    apply copy_out_agrees; assumption.
  - intros f src sls o E Ho. unfold copy_from_slice in E. unfold r_copy_from_slice. destruct (fr_kind f) as [v|]; [|exact E].
    destruct (copy_in _ _ _ _ _ _ _ _) as [b| |] eqn:Eb; cbn [obind] in E.
    + rewrite (copy_in_agrees _ _ _ _ _ _ _ _ _ Eb) by discriminate. exact E.
    + congruence.
    + rewrite (copy_in_agrees _ _ _ _ _ _ _ _ _ Eb) by discriminate. exact E.
Qed.

(** ** What a build without checks makes of sizes that do not fit *)

(** 96 x H with H * 96 = 2^64 + 32 *)
Definition tall : video_info := mk_video 96 192153584101141163 false FrameI fmt_YUV444 24.
Definition tall_frame : frame :=
  mk_frame (Video tall) (mk_fb [] (repeat (mk_plane (repeat 0 32) 96) 3)) default_time.

Lemma tall_copy src : (96 <= length src)%nat ->
  r_copy_from_slice tall_frame [src; src; src] [96; 96; 96] = UB.
Proof.
  intros H. unfold r_copy_from_slice. change (fr_kind tall_frame) with (Video tall). cbn [fr_buf tall_frame].
  set (hh := vi_height tall). assert (Hh : exists k, r_get_height (mk_chromaton 0 0 false 8 0 0 1) hh = N.succ k) by (exists 192153584101141162; reflexivity).
  change (vi_width tall) with 96.
  change (fb_count (mk_fb [] (repeat (mk_plane (repeat 0 32) 96) 3))) with 3%nat.
  change (fo_comps (vi_format tall)) with (Some (mk_chromaton 0 0 false 8 0 0 1) :: tl (fo_comps (vi_format tall))).
  clearbody hh. destruct Hh as [k Hk].
  cbn [r_copy_in repeat fb_linesize fb_slice fb_planes nth_error unwrap_ok unwrap hd_error obind pl_linesize pl_buf].
  rewrite Hk. change (r_get_width (mk_chromaton 0 0 false 8 0 0 1) 96) with 96. unfold copy_plane.
  change (N.to_nat 96) with 96%nat. rewrite N2Nat.inj_succ.
  destruct src as [|x src]; [cbn in H; lia|].
  change (chunks 96 (x :: src)) with (Ret (firstn 96 (x :: src) :: chunks_fuel (length src) 96 (skipn 96 (x :: src)))).
  set (q := chunks_fuel (length src) 96 (skipn 96 (x :: src))). clearbody q. set (u := firstn 96 (x :: src)). clearbody u.
  generalize (N.to_nat k). intros m. cbn -[Nat.leb]. destruct m; reflexivity.
Qed.

Lemma undersized : exists v f src, new_default_frame (Video v) None = Panic /\ r_new_default_frame (Video v) None = Ret f /\
  Forall (fun p => N.of_nat (length (pl_buf p)) < pl_linesize p) (fb_planes (fr_buf f)) /\
  length src = N.to_nat (vi_width v) /\ r_copy_from_slice f [src; src; src] [vi_width v; vi_width v; vi_width v] = UB.
Proof.
  exists tall, tall_frame, (repeat 7 96). split; [vm_compute; reflexivity|]. split; [vm_compute; reflexivity|].
  split; [repeat constructor|]. split; [reflexivity|]. apply tall_copy. rewrite repeat_length. lia.
Qed.

(** Where the sizes fit, planes have them. *)
From Verif Require Import DataSpec DataProofs FrameProofs FrameSizeSpec FrameSizeProofs.

Lemma zero_plane_sizes w h cs : forall ps sizes, Forall2 (zero_plane w h) cs ps -> Forall2 (plane_bytes w h) cs sizes ->
  total sizes < W64 -> map (fun p => N.of_nat (length (pl_buf p))) ps = sizes.
Proof.
  induction cs as [|c cs IH]; intros ps sizes Z P T; inversion Z as [|? p ? ps' Hz Z']; inversion P as [|? n ? ns Hp P']; subst; [reflexivity|].
  cbn [total fold_right] in T. fold (total ns) in T. cbn [map]. f_equal; [|apply IH; [assumption..|lia]].
  assert (E : get_data_size c w h ALIGNMENT = Ret n) by (apply plane_exact; split; [exact Hp|lia]).
  destruct Hz as (s & r & E1 & E2 & _ & ->). rewrite repeat_length, N2Nat.id.
  destruct (data_size_inv _ _ _ _ _ E) as (s' & r' & E1' & E2' & ->). congruence.
Qed.

Lemma release_sizes v t sizes : Forall2 (plane_bytes (vi_width v) (vi_height v)) (present (fo_comps (vi_format v))) sizes ->
  total sizes < 2 ^ 63 -> exists f, r_new_default_frame (Video v) t = Ret f /\ new_default_frame (Video v) t = Ret f /\
    map (fun p => N.of_nat (length (pl_buf p))) (fb_planes (fr_buf f)) = sizes.
Proof.
  intros P T. assert (W : W64 = 2 * 2 ^ 63) by reflexivity.
  assert (E : video_size v ALIGNMENT = Ret (total sizes)).
  { apply sum_exact; [lia|]. exists sizes. split; [exact P|]. lia. }
  destruct (fb_new_video v _ E T) as (b & B & _ & Z).
  assert (F : new_default_frame (Video v) t = Ret (mk_frame (Video v) b (match t with Some t => t | None => default_time end))).
  { unfold new_default_frame. rewrite B. reflexivity. }
  eexists. split; [apply frame_agrees; exact F|]. split; [exact F|]. cbn [fr_buf].
  eapply zero_plane_sizes; [exact Z|exact P|lia].
Qed.
