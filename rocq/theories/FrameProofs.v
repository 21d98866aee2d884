(** Proofs about frames: creation and copying. *)
From Coq Require Import List Arith NArith ZArith Bool Lia.
From Coq Require Import ZifyBool ZifyNat ZifyN.
From Verif Require Import Base AudioModel PixelModel FrameModel DataSpec DataProofs.
Import ListNotations.
Local Open Scope N_scope.

Lemma repeat_firstn {A} (x : A) n k : firstn k (repeat x n) = repeat x (Nat.min k n).
Proof. revert n. induction k as [|k IH]; intros [|n]; cbn; try reflexivity. rewrite IH. reflexivity. Qed.
Lemma repeat_skipn {A} (x : A) n k : skipn k (repeat x n) = repeat x (n - k).
Proof. revert n. induction k as [|k IH]; intros [|n]; cbn; try reflexivity. apply IH. Qed.

Lemma split_zero n k : k <= n ->
  split_to (repeat 0 (N.to_nat n)) k = Ret (repeat 0 (N.to_nat k), repeat 0 (N.to_nat (n - k))).
Proof.
  intros H. unfold split_to. rewrite repeat_length. destruct (N.leb_spec k (N.of_nat (N.to_nat n))); [|lia].
  rewrite repeat_firstn, repeat_skipn. do 3 f_equal; f_equal; lia.
Qed.

(** ** Video *)

Lemma sum_sizes_ge w h a l : forall acc n, sum_sizes acc w h a l = Ret n -> acc <= n.
Proof.
  induction l as [|[c|] l IH]; intros acc n H; cbn [sum_sizes] in H.
  - assert (acc = n) by congruence. lia.
  - step_ret H. step_ret H. apply uadd_inv in E0. apply IH in H. lia.
  - exact (IH _ _ H).
Qed.

Lemma video_planes_spec w h l : forall acc n ps, sum_sizes acc w h ALIGNMENT l = Ret n ->
  exists qs, video_planes w h (mk_fb (repeat 0 (N.to_nat (n - acc))) ps) l = Ret (mk_fb [] (ps ++ qs)) /\
    Forall2 (zero_plane w h) (present l) qs.
Proof.
  induction l as [|[c|] l IH]; intros acc n ps H; cbn [sum_sizes video_planes present] in *.
  - exists []. assert (acc = n) by congruence. subst n. rewrite N.sub_diag, app_nil_r. split; [reflexivity|constructor].
  - step_ret H. step_ret H. apply uadd_inv in E0. destruct E0 as [-> B].
    pose proof (sum_sizes_ge _ _ _ _ _ _ H) as G. pose proof (data_size_inv _ _ _ _ _ E) as (s & ch & E1 & E2 & E3).
    rewrite E. cbn [obind]. rewrite E1. cbn [obind fb_buf]. rewrite split_zero by lia. cbn [obind fb_planes].
    replace (n - acc - a) with (n - (acc + a)) by lia.
    destruct (IH (acc + a) n (ps ++ [mk_plane (repeat 0 (N.to_nat a)) s]) H) as (qs & Q1 & Q2).
    exists (mk_plane (repeat 0 (N.to_nat a)) s :: qs). rewrite Q1, <- app_assoc. split; [reflexivity|].
    constructor; [|exact Q2]. exists s, ch. subst a. repeat apply conj; try assumption; reflexivity.
  - exact (IH acc n ps H).
Qed.

Lemma fb_new_video v n : video_size v ALIGNMENT = Ret n -> n < 2 ^ 63 ->
  exists b, fb_new (Video v) = Ret b /\ fb_buf b = [] /\
    Forall2 (zero_plane (vi_width v) (vi_height v)) (present (fo_comps (vi_format v))) (fb_planes b).
Proof.
  intros H Hn. unfold fb_new. rewrite H. cbn [obind]. unfold zeroed. destruct (N.ltb_spec n (2 ^ 63)); [|lia]. cbn [obind].
  destruct (video_planes_spec (vi_width v) (vi_height v) (fo_comps (vi_format v)) 0 n [] H) as (qs & Q1 & Q2).
  rewrite N.sub_0_r in Q1. rewrite Q1. exists (mk_fb [] qs). repeat apply conj; try reflexivity. exact Q2.
Qed.

Lemma fb_new_video_inv v b : fb_new (Video v) = Ret b -> exists n, video_size v ALIGNMENT = Ret n /\ n < 2 ^ 63.
Proof.
  intros H. unfold fb_new in H. step_ret H. exists a. split; [exact E|]. step_ret H.
  unfold zeroed in E0. destruct (N.ltb_spec a (2 ^ 63)); [assumption|discriminate E0].
Qed.

(** Sizes of pictures up to 2^24 x 2^24 are no problem. *)
Lemma ceil_pow_le x k : ceil_pow x k <= x.
Proof.
  unfold ceil_pow. rewrite N.shiftr_div_pow2. pose proof (pow2_pos k).
  destruct (N.eq_dec x 0) as [->|Hz]; [rewrite N.div_small; lia|].
  assert (x + (2 ^ k - 1) < 2 ^ k * (x + 1)) by nia.
  assert (L : (x + (2 ^ k - 1)) / 2 ^ k < x + 1) by (apply N.div_lt_upper_bound; lia). lia.
Qed.

Lemma aligned_le v a : 0 < a -> aligned v a < v + a.
Proof.
  intros Ha. unfold aligned. pose proof (N.div_mod (v + a - 1) a ltac:(lia)).
  pose proof (N.mod_lt (v + a - 1) a ltac:(lia)). lia.
Qed.

Lemma power_32 : power_of_two ALIGNMENT.
Proof. exists 5. reflexivity. Qed.

Lemma data_size_small c w h : sane_component c -> w <= 2 ^ 24 -> h <= 2 ^ 24 ->
  exists n, get_data_size c w h ALIGNMENT = Ret n /\ n < 2 ^ 60.
Proof.
  intros (Hh & Hv & Hd) Hw Hht.
  assert (P1 : 2 ^ h_ss c <= 2 ^ 63) by (apply N.pow_le_mono_r; lia).
  assert (P2 : 2 ^ v_ss c <= 2 ^ 63) by (apply N.pow_le_mono_r; lia).
  pose proof (ceil_pow_le w (h_ss c)) as L1. pose proof (ceil_pow_le h (v_ss c)) as L2.
  set (cw := ceil_pow w (h_ss c)) in *. set (ch := ceil_pow h (v_ss c)) in *.
  assert (B : cw * depth c <= 2 ^ 24 * 255) by (apply N.mul_le_mono; lia).
  assert (LB : line_bytes cw (depth c) <= 2 ^ 29).
  { unfold line_bytes. apply N.lt_succ_r. apply N.div_lt_upper_bound; lia. }
  assert (ES : get_linesize c w ALIGNMENT = Ret (aligned (line_bytes cw (depth c)) ALIGNMENT)).
  { apply linesize_ret; fold cw; try assumption; try lia; unfold W64, ALIGNMENT; try lia. exact power_32. }
  assert (EH : get_height c h = Ret ch).
  { unfold get_height. apply sub_size_ret; [assumption|]. unfold W64. lia. }
  pose proof (aligned_le (line_bytes cw (depth c)) ALIGNMENT ltac:(reflexivity)) as AL. unfold ALIGNMENT in AL at 2.
  set (s := aligned (line_bytes cw (depth c)) ALIGNMENT) in *.
  assert (SM : s * ch <= (2 ^ 29 + 32) * 2 ^ 24) by (apply N.mul_le_mono; lia).
  exists (s * ch). split; [|lia]. apply data_size_ret; try assumption. unfold W64. lia.
Qed.

Lemma sum_sizes_small w h l : w <= 2 ^ 24 -> h <= 2 ^ 24 -> Forall sane_component (present l) ->
  forall acc m, acc <= m * 2 ^ 60 -> m + N.of_nat (length (present l)) <= 7 ->
  exists n, sum_sizes acc w h ALIGNMENT l = Ret n /\ n <= (m + N.of_nat (length (present l))) * 2 ^ 60.
Proof.
  intros Hw Hh. induction l as [|[c|] l IH]; cbn [present length sum_sizes]; intros HF acc m Ha Hm.
  - exists acc. split; [reflexivity|]. lia.
  - inversion HF as [|x y Hc HF' E1]. subst x y. destruct (data_size_small c w h Hc Hw Hh) as (n & E & Ln).
    rewrite E. cbn [obind]. rewrite uadd_ret by (unfold W64; lia). cbn [obind].
    destruct (IH HF' (acc + n) (m + 1) ltac:(lia) ltac:(lia)) as (n' & E' & L').
    exists n'. split; [exact E'|]. lia.
  - destruct (IH HF acc m Ha Hm) as (n' & E' & L'). exists n'. split; assumption.
Qed.

Lemma present_length {A} (l : list (option A)) : (length (present l) <= length l)%nat.
Proof. induction l as [|[a|] l IH]; cbn [present length]; lia. Qed.

Lemma fb_new_video_usual v : vi_width v <= 2 ^ 24 -> vi_height v <= 2 ^ 24 -> length (fo_comps (vi_format v)) = 5%nat ->
  Forall sane_component (present (fo_comps (vi_format v))) -> exists b, fb_new (Video v) = Ret b.
Proof.
  intros Hw Hh Hl Hu. pose proof (present_length (fo_comps (vi_format v))) as L.
  destruct (sum_sizes_small (vi_width v) (vi_height v) (fo_comps (vi_format v)) Hw Hh Hu 0 0 ltac:(lia) ltac:(lia)) as (n & E & Ln).
  destruct (fb_new_video v n E ltac:(lia)) as (b & Hb & _). exists b. exact Hb.
Qed.

(** ** Audio *)

Lemma audio_planes_spec v s n : get_audio_size (ai_format v) (ai_samples v) ALIGNMENT = Ret s -> forall total ps,
  s * N.of_nat n = total ->
  audio_planes v n (mk_fb (repeat 0 (N.to_nat total)) ps) =
  Ret (mk_fb [] (ps ++ repeat (mk_plane (repeat 0 (N.to_nat s)) s) n)).
Proof.
  intros Hs. induction n as [|n IH]; intros total ps Ht; cbn [audio_planes].
  - rewrite N.mul_0_r in Ht. subst total. cbn [repeat N.to_nat]. rewrite app_nil_r. reflexivity.
  - rewrite Hs. cbn [obind fb_buf]. rewrite split_zero by lia. cbn [obind fb_planes].
    rewrite IH by lia. cbn [repeat]. rewrite <- app_assoc. reflexivity.
Qed.

Lemma fb_new_audio v s : get_audio_size (ai_format v) (ai_samples v) ALIGNMENT = Ret s ->
  s * N.of_nat (length (ai_map v)) < 2 ^ 63 ->
  fb_new (Audio v) = Ret (mk_fb []
    (if so_planar (ai_format v) then repeat (mk_plane (repeat 0 (N.to_nat s)) s) (length (ai_map v))
     else [mk_plane (repeat 0 (N.to_nat (s * N.of_nat (length (ai_map v))))) (s * N.of_nat (length (ai_map v)))])).
Proof.
  intros Hs Hn. unfold fb_new, audio_size, map_len. rewrite Hs. cbn [obind]. rewrite umul_ret by (unfold W64; lia). cbn [obind].
  unfold zeroed. destruct (N.ltb_spec (s * N.of_nat (length (ai_map v))) (2 ^ 63)); [|lia]. cbn [obind].
  destruct (so_planar (ai_format v)).
  - rewrite (audio_planes_spec v s (length (ai_map v)) Hs _ []) by reflexivity. reflexivity.
  - rewrite split_zero by lia. cbn [obind]. rewrite N.sub_diag. reflexivity.
Qed.

Lemma fb_new_audio_inv v b : fb_new (Audio v) = Ret b ->
  exists s, get_audio_size (ai_format v) (ai_samples v) ALIGNMENT = Ret s /\ s * N.of_nat (length (ai_map v)) < 2 ^ 63.
Proof.
  intros H. unfold fb_new, audio_size, map_len in H. step_ret H. step_ret E. exists a0. split; [exact E0|].
  apply umul_inv in E. destruct E as [-> _]. step_ret H. unfold zeroed in E.
  destruct (N.ltb_spec (a0 * N.of_nat (length (ai_map v))) (2 ^ 63)); [assumption|discriminate E].
Qed.

(** ** Copying a plane *)
Local Open Scope nat_scope.

(** [copy_plane] row by row. *)
Fixpoint copy_rec (fuel : nat) (dst : list N) (dl : nat) (src : list N) (sl w h : nat) : outcome (list N) :=
  match h, fuel, dst, src with
  | S h', S f, _ :: _, _ :: _ =>
    if (w <=? Nat.min dl (length dst)) && (w <=? Nat.min sl (length src)) then
      let! r := copy_rec f (skipn dl dst) dl (skipn sl src) sl w h' in
      Ret (firstn w src ++ skipn w (firstn dl dst) ++ r)
    else UB
  | _, _, _, _ => Ret dst
  end.

Lemma concat_chunks {A} n (l : list A) : 0 < n -> forall fuel, length l <= fuel -> concat (chunks_fuel fuel n l) = l.
Proof.
  intros Hn fuel. revert l. induction fuel as [|f IH]; intros [|x l] Hf; cbn [chunks_fuel concat length] in *; try reflexivity; try lia.
  rewrite IH; [apply firstn_skipn|]. rewrite skipn_length. cbn [length]. lia.
Qed.

Lemma firstn_firstn_le {A} w n (l : list A) : w <= n -> firstn w (firstn n l) = firstn w l.
Proof. intros H. rewrite firstn_firstn, Nat.min_l by assumption. reflexivity. Qed.

Lemma copy_rows_0 ds ss w : copy_rows ds ss w 0 = Ret ds.
Proof. destruct ds; reflexivity. Qed.
Lemma copy_rows_nil ds w h : copy_rows ds [] w h = Ret ds.
Proof. destruct ds, h; reflexivity. Qed.

Lemma copy_rec_spec dl sl w : 0 < dl -> 0 < sl -> forall fuel fs dst src h, length dst <= fuel -> length src <= fs ->
  obind (copy_rows (chunks_fuel fuel dl dst) (chunks_fuel fs sl src) w h) (fun rows => Ret (concat rows)) = copy_rec fuel dst dl src sl w h.
Proof.
  intros Hd Hs. induction fuel as [|f IH]; intros fs dst src h Hf Hfs.
  - destruct dst; [|cbn in Hf; lia]. destruct h; reflexivity.
  - destruct dst as [|x dst].
    { destruct h, src, fs; reflexivity. }
    destruct h as [|h]; [rewrite copy_rows_0; cbn [copy_rec obind]; f_equal; apply (concat_chunks dl (x :: dst) Hd (S f) Hf)|].
    destruct src as [|y src].
    { replace (chunks_fuel fs sl (@nil N)) with (@nil (list N)) by (destruct fs; reflexivity).
      rewrite copy_rows_nil. cbn [copy_rec obind]; f_equal; apply (concat_chunks dl (x :: dst) Hd (S f) Hf). }
    destruct fs as [|fs]; [cbn in Hfs; lia|].
    cbn [copy_rec]. rewrite <- (IH fs (skipn dl (x :: dst)) (skipn sl (y :: src)) h).
    2, 3: rewrite skipn_length; cbn [length] in *; lia.
    change (chunks_fuel (S f) dl (x :: dst)) with (firstn dl (x :: dst) :: chunks_fuel f dl (skipn dl (x :: dst))).
    change (chunks_fuel (S fs) sl (y :: src)) with (firstn sl (y :: src) :: chunks_fuel fs sl (skipn sl (y :: src))).
    set (D := x :: dst). set (S' := y :: src). cbn [copy_rows]. rewrite !firstn_length.
    destruct (Nat.leb_spec w (Nat.min dl (length D))) as [L1|L1]; [|reflexivity].
    destruct (Nat.leb_spec w (Nat.min sl (length S'))) as [L2|L2]; [|reflexivity].
    cbn [andb]. destruct (copy_rows _ _ w h); try reflexivity. cbn [obind concat]. rewrite firstn_firstn_le by lia.
    rewrite app_assoc. reflexivity.
Qed.

Definition bad_row (dlen dl slen sl w h y : nat) : Prop :=
  y < h /\ y * dl < dlen /\ y * sl < slen /\ ~ (row_complete dlen dl w y /\ row_complete slen sl w y).

Lemma nth_error_skipn {A} n (l : list A) i : nth_error (skipn n l) i = nth_error l (n + i).
Proof. revert l. induction n as [|n IH]; intros [|x l]; cbn; try reflexivity; [destruct i; reflexivity|apply IH]. Qed.
Lemma nth_error_firstn {A} n (l : list A) i : i < n -> nth_error (firstn n l) i = nth_error l i.
Proof. revert l i. induction n as [|n IH]; intros [|x l] [|i] H; cbn; try reflexivity; try lia. apply IH. lia. Qed.

Lemma divmod_shift i d : 0 < d -> d <= i -> i / d = S ((i - d) / d) /\ i mod d = (i - d) mod d.
Proof.
  intros Hd Hi. replace i with ((i - d) + 1 * d) at 1 3 by lia.
  rewrite Nat.div_add, Nat.mod_add by lia. split; lia.
Qed.

Lemma copy_rec_result dl sl w : 0 < dl -> 0 < sl -> forall fuel dst src h, length dst <= fuel ->
  match copy_rec fuel dst dl src sl w h with
  | Ret dst' => (forall y, ~ bad_row (length dst) dl (length src) sl w h y) /\ length dst' = length dst /\
      forall i, i < length dst -> nth_error dst' i =
        (if (i mod dl <? w) && (i / dl <? h) && (i / dl * sl <? length src) then nth_error src (i / dl * sl + i mod dl) else nth_error dst i)
  | UB => exists y, bad_row (length dst) dl (length src) sl w h y
  | Panic => False
  end.
Proof.
  intros Hd Hs. induction fuel as [|f IH]; intros dst src h Hf.
  { destruct dst; [|cbn in Hf; lia]. assert (E : copy_rec 0 [] dl src sl w h = Ret []) by (destruct h; reflexivity).
    rewrite E. split; [|split; [reflexivity|cbn; lia]]. intros y (_ & A & _). cbn in A. lia. }
  destruct h as [|h].
  { cbn [copy_rec]. split; [intros y (A & _); lia|]. split; [reflexivity|]. intros i Hi. rewrite Bool.andb_false_r. reflexivity. }
  destruct dst as [|x dst].
  { cbn [copy_rec]. split; [|split; [reflexivity|cbn; lia]]. intros y (_ & A & _). cbn in A. lia. }
  destruct src as [|z src].
  { cbn [copy_rec]. split; [intros y (_ & _ & A & _); cbn in A; lia|]. split; [reflexivity|]. intros i Hi.
    cbn [length]. rewrite (proj2 (Nat.ltb_ge (i / dl * sl) 0)) by apply Nat.le_0_l. rewrite Bool.andb_false_r. reflexivity. }
  cbn [copy_rec]. set (D := x :: dst) in *. set (S' := z :: src) in *.
  assert (PD : 0 < length D) by (cbn; lia). assert (PS : 0 < length S') by (cbn; lia).
  specialize (IH (skipn dl D) (skipn sl S') h). rewrite !skipn_length in IH. specialize (IH ltac:(lia)).
  destruct (Nat.leb_spec w (Nat.min dl (length D))) as [L1|L1].
  2: { exists 0. repeat apply conj; try lia. unfold row_complete. cbn [Nat.mul]. rewrite !Nat.sub_0_r. lia. }
  destruct (Nat.leb_spec w (Nat.min sl (length S'))) as [L2|L2].
  2: { exists 0. repeat apply conj; try lia. unfold row_complete. cbn [Nat.mul]. rewrite !Nat.sub_0_r. lia. }
  cbn [andb]. destruct (copy_rec f (skipn dl D) dl (skipn sl S') sl w h) as [r| |]; cbn [obind].
  - destruct IH as (I1 & I2 & I3). split; [|split].
    + intros [|y] (A & B & C & N0).
      * apply N0. unfold row_complete. cbn [Nat.mul]. rewrite !Nat.sub_0_r. split; assumption.
      * apply (I1 y). unfold bad_row, row_complete in *. cbn [Nat.mul] in *. repeat apply conj; try lia.
    + rewrite !app_length, firstn_length, skipn_length, firstn_length, I2, Nat.min_l by lia. lia.
    + intros i Hi. rewrite app_assoc. destruct (Nat.lt_ge_cases i dl) as [Li|Li].
      * rewrite Nat.div_small, Nat.mod_small by assumption. cbn [Nat.mul Nat.add].
        assert (LH : length (firstn w S' ++ skipn w (firstn dl D)) = Nat.min dl (length D)) by (rewrite app_length, firstn_length, skipn_length, firstn_length; lia).
        rewrite nth_error_app1 by lia.
        rewrite (proj2 (Nat.ltb_lt 0 (S h))), (proj2 (Nat.ltb_lt 0 (length S'))) by lia. rewrite !Bool.andb_true_r.
        destruct (Nat.ltb_spec i w) as [Lw|Lw].
        -- rewrite nth_error_app1 by (rewrite firstn_length; lia). apply nth_error_firstn. assumption.
        -- rewrite nth_error_app2 by (rewrite firstn_length; lia). rewrite firstn_length, Nat.min_l by lia.
           rewrite nth_error_skipn. replace (w + (i - w)) with i by lia. apply nth_error_firstn. assumption.
      * assert (LH : length (firstn w S' ++ skipn w (firstn dl D)) = dl) by (rewrite app_length, firstn_length, skipn_length, firstn_length; lia).
        rewrite nth_error_app2 by lia. rewrite LH, I3 by lia.
        destruct (divmod_shift i dl Hd Li) as [E1 E2]. rewrite E1, E2.
        rewrite !nth_error_skipn. replace (dl + (i - dl)) with i by lia.
        replace (sl + ((i - dl) / dl * sl + (i - dl) mod dl)) with (S ((i - dl) / dl) * sl + (i - dl) mod dl) by lia.
        set (q := (i - dl) / dl) in *. replace (S q <? S h) with (q <? h) by reflexivity.
        replace (S q * sl <? length S') with (q * sl <? length S' - sl); [reflexivity|].
        apply Bool.eq_true_iff_eq. rewrite !Nat.ltb_lt. cbn [Nat.mul]. lia.
  - exact IH.
  - destruct IH as [y (A & B & C & N0)]. exists (S y). unfold bad_row, row_complete in *. cbn [Nat.mul].
    repeat apply conj; try lia.
Qed.

Lemma copy_plane_rec dst dl src sl w h : 0 < dl -> 0 < sl ->
  copy_plane dst (N.of_nat dl) src (N.of_nat sl) (N.of_nat w) (N.of_nat h) = copy_rec (length dst) dst dl src sl w h.
Proof.
  intros Hd Hs. unfold copy_plane, chunks. rewrite !Nat2N.id.
  destruct dl as [|dl]; [lia|]. destruct sl as [|sl]; [lia|]. cbn [obind].
  apply copy_rec_spec; lia.
Qed.

Lemma copy_plane_panic dst dl src sl w h :
  copy_plane dst dl src sl w h = Panic <-> (dl = 0 \/ sl = 0)%N.
Proof.
  split.
  - intros H. destruct (N.eq_dec dl 0) as [|Hd]; [tauto|]. destruct (N.eq_dec sl 0) as [|Hs]; [tauto|exfalso].
    rewrite <- (N2Nat.id dl), <- (N2Nat.id sl), <- (N2Nat.id w), <- (N2Nat.id h) in H.
    rewrite copy_plane_rec in H by lia.
    pose proof (copy_rec_result (N.to_nat dl) (N.to_nat sl) (N.to_nat w) ltac:(lia) ltac:(lia) (length dst) dst src (N.to_nat h) (le_n _)) as R.
    rewrite H in R. exact R.
  - intros [-> | ->]; unfold copy_plane; cbn [N.to_nat chunks obind]; [reflexivity|].
    destruct (chunks (N.to_nat dl) dst) eqn:E; try reflexivity.
    unfold chunks in E. destruct (N.to_nat dl); discriminate E.
Qed.

(** ** A whole picture *)

Lemma holds_rows buf l w h y : holds buf l w h -> y < h -> 0 < w -> y * l < length buf /\ row_complete (length buf) l w y.
Proof.
  intros (A & [C|[B C]]) Hy Hw; [lia|]. assert (y * l <= (h - 1) * l) by (apply Nat.mul_le_mono_r; lia).
  unfold row_complete. lia.
Qed.

Lemma holds_no_bad dst dl src sl w h y : holds dst dl w h -> holds src sl w h -> ~ bad_row (length dst) dl (length src) sl w h y.
Proof.
  intros Hd Hs (A & B & C & N0). apply N0. destruct (Nat.eq_dec w 0) as [->|Hw]; [unfold row_complete; lia|].
  split; [apply (holds_rows dst dl w h y)|apply (holds_rows src sl w h y)]; try assumption; lia.
Qed.

Lemma copy_plane_picture dst dl src sl w h : holds dst dl w h -> holds src sl w h ->
  exists dst', copy_plane dst (N.of_nat dl) src (N.of_nat sl) (N.of_nat w) (N.of_nat h) = Ret dst' /\ picture_copied dst dl src sl w h dst'.
Proof.
  intros Hd Hs. assert (Pd : 0 < dl) by apply Hd. assert (Ps : 0 < sl) by apply Hs.
  rewrite copy_plane_rec by assumption.
  pose proof (copy_rec_result dl sl w Pd Ps (length dst) dst src h (le_n _)) as R.
  destruct (copy_rec (length dst) dst dl src sl w h) as [dst'| |].
  - destruct R as (_ & R2 & R3). exists dst'. split; [reflexivity|]. split; [exact R2|]. intros i Hi. rewrite (R3 i Hi).
    destruct (Nat.ltb_spec (i mod dl) w) as [Lw|]; [|reflexivity]. destruct (Nat.ltb_spec (i / dl) h) as [Lh|]; [|reflexivity].
    cbn [andb]. destruct (holds_rows src sl w h (i / dl) Hs Lh ltac:(lia)) as [C _].
    rewrite (proj2 (Nat.ltb_lt _ _) C). reflexivity.
  - destruct R.
  - destruct R as [y R]. exfalso. exact (holds_no_bad dst dl src sl w h y Hd Hs R).
Qed.
