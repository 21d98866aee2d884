(** Proofs about sample and pixel formats. *)
From Coq Require Import List Arith NArith ZArith Bool Lia.
From Coq Require Import ZifyBool ZifyNat ZifyN.
From Verif Require Import Base AudioModel PixelModel FrameModel DataSpec.
Import ListNotations.
Local Open Scope N_scope.

Lemma uadd_ret a b : a + b < W64 -> uadd a b = Ret (a + b).
Proof. intros H. unfold uadd. destruct (N.ltb_spec (a + b) W64); [reflexivity|lia]. Qed.
Lemma usub_ret a b : b <= a -> usub a b = Ret (a - b).
Proof. intros H. unfold usub. destruct (N.leb_spec b a); [reflexivity|lia]. Qed.
Lemma umul_ret a b : a * b < W64 -> umul a b = Ret (a * b).
Proof. intros H. unfold umul. destruct (N.ltb_spec (a * b) W64); [reflexivity|lia]. Qed.
Lemma uadd_inv a b r : uadd a b = Ret r -> r = a + b /\ a + b < W64.
Proof. unfold uadd. destruct (N.ltb_spec (a + b) W64); [|discriminate]. intros E. split; [congruence|assumption]. Qed.
Lemma usub_inv a b r : usub a b = Ret r -> r = a - b /\ b <= a.
Proof. unfold usub. destruct (N.leb_spec b a); [|discriminate]. intros E. split; [congruence|assumption]. Qed.
Lemma umul_inv a b r : umul a b = Ret r -> r = a * b /\ a * b < W64.
Proof. unfold umul. destruct (N.ltb_spec (a * b) W64); [|discriminate]. intros E. split; [congruence|assumption]. Qed.
Lemma obind_inv {A B} (m : outcome A) (k : A -> outcome B) r : obind m k = Ret r -> exists a, m = Ret a /\ k a = Ret r.
Proof. destruct m; cbn; intros E; try discriminate. eauto. Qed.

Ltac step_ret H :=
  let a := fresh "a" in let E := fresh "E" in
  apply obind_inv in H; destruct H as [a [E H]].

(** ** align *)

Definition aligned (v a : N) : N := (v + a - 1) / a * a.

Lemma land_not t k : t < W64 -> k < 64 -> N.land t (unot (2 ^ k - 1)) = t / 2 ^ k * 2 ^ k.
Proof.
  intros Ht Hk. unfold unot.
  assert (E : 2 ^ k - 1 = N.ones k) by (rewrite N.ones_equiv; lia).
  rewrite E, <- N.ldiff_land_low.
  - rewrite N.ldiff_ones_r, N.shiftr_div_pow2, N.shiftl_mul_pow2. reflexivity.
  - destruct (N.eq_dec t 0) as [->|Hz]; [reflexivity|]. apply N.log2_lt_pow2; [lia|exact Ht].
Qed.

Lemma pow2_pos k : 0 < 2 ^ k.
Proof. apply N.neq_0_lt_0, N.pow_nonzero. discriminate. Qed.

Lemma pow2_small k : 2 ^ k < W64 -> k < 64.
Proof. intros H. apply (N.pow_lt_mono_r_iff 2); [lia|exact H]. Qed.

Lemma align_ret v a : power_of_two a -> v + a < W64 -> align v a = Ret (aligned v a).
Proof.
  intros [k ->] H. pose proof (pow2_pos k). unfold align.
  rewrite uadd_ret by assumption. cbn [obind]. rewrite usub_ret by lia. cbn [obind].
  rewrite usub_ret by lia. cbn [obind]. rewrite land_not; [reflexivity|lia|].
  apply pow2_small. lia.
Qed.

Lemma align_inv v a s : power_of_two a -> align v a = Ret s -> v + a < W64 /\ s = aligned v a.
Proof.
  intros Ha H. assert (Hb : v + a < W64).
  { unfold align in H. step_ret H. apply uadd_inv in E. lia. }
  split; [exact Hb|]. rewrite align_ret in H by assumption. congruence.
Qed.

Lemma aligned_least v a : 0 < a -> least_multiple a v (aligned v a).
Proof.
  intros Ha. unfold aligned. pose proof (N.div_mod (v + a - 1) a ltac:(lia)) as D.
  pose proof (N.mod_lt (v + a - 1) a ltac:(lia)) as L.
  set (q := (v + a - 1) / a) in *. split; [|split].
  - exists q. reflexivity.
  - nia.
  - intros k Hk. apply N.mul_le_mono_r. destruct (N.le_gt_cases q k) as [|G]; [assumption|exfalso].
    assert (k + 1 <= q) by lia. assert ((k + 1) * a <= q * a) by (apply N.mul_le_mono_r; assumption). nia.
Qed.

Lemma align_zero v : align v 0 = Panic.
Proof.
  unfold align. unfold uadd. rewrite N.add_0_r. destruct (v <? W64); [|reflexivity]. cbn [obind].
  unfold usub. destruct (1 <=? v); reflexivity.
Qed.

(** ** C48 *)

Lemma ceil_div_shiftr x k : ceil_div x (2 ^ k) (N.shiftr (x + (2 ^ k - 1)) k).
Proof.
  pose proof (pow2_pos k). rewrite N.shiftr_div_pow2. unfold ceil_div.
  pose proof (N.div_mod (x + (2 ^ k - 1)) (2 ^ k) ltac:(lia)) as D.
  pose proof (N.mod_lt (x + (2 ^ k - 1)) (2 ^ k) ltac:(lia)) as L.
  set (q := (x + (2 ^ k - 1)) / 2 ^ k) in *. split; [nia|].
  destruct (N.eq_dec q 0); [left; assumption|right]. rewrite N.mul_sub_distr_r. nia.
Qed.

Lemma ceil_div_unique x y q q' : 0 < y -> ceil_div x y q -> ceil_div x y q' -> q = q'.
Proof.
  intros Hy [A B] [A' B'].
  assert (forall p p', x <= p * y -> (p' = 0 \/ (p' - 1) * y < x) -> p' <= p) as K.
  { intros p p' Hp [->|Hq]; [lia|]. destruct (N.le_gt_cases p' p); [assumption|].
    assert (p <= p' - 1) by lia. assert (p * y <= (p' - 1) * y) by (apply N.mul_le_mono_r; assumption). lia. }
  assert (q <= q') by (eapply K; eauto). assert (q' <= q) by (eapply K; eauto). lia.
Qed.

Lemma round_to_byte_ret v b : ceil_div v 8 b -> v + 7 < W64 -> round_to_byte v = Ret b.
Proof.
  intros H Hv. unfold round_to_byte. rewrite uadd_ret by assumption. cbn [obind].
  f_equal. apply (ceil_div_unique v 8); [lia| |assumption]. exact (ceil_div_shiftr v 3).
Qed.

Lemma round_to_byte_inv v b : round_to_byte v = Ret b -> ceil_div v 8 b /\ v + 7 < W64.
Proof.
  unfold round_to_byte. intros H. step_ret H. apply uadd_inv in E. destruct E as [-> E].
  split; [|exact E]. assert (b = N.shiftr (v + 7) 3) as -> by congruence. exact (ceil_div_shiftr v 3).
Qed.

Lemma audio_size_sound f len a s : power_of_two a -> get_audio_size f len a = Ret s ->
  exists need, bytes_needed f len need /\ least_multiple a need s.
Proof.
  intros Ha H. assert (0 < a) by (destruct Ha as [k ->]; apply pow2_pos).
  unfold get_audio_size in H. step_ret H. apply align_inv in H; [|assumption]. destruct H as [_ ->].
  exists a0. split; [|apply aligned_least; assumption]. unfold bytes_needed. destruct (so_packed f).
  - step_ret E. apply umul_inv in E0. destruct E0 as [-> _]. apply round_to_byte_inv in E. tauto.
  - step_ret E. apply round_to_byte_inv in E0. apply umul_inv in E. exists a1. split; tauto.
Qed.

Lemma audio_size_total f len a need : power_of_two a -> so_bits f < 256 -> bytes_needed f len need ->
  len * so_bits f + 7 < W64 -> need + a < W64 -> exists s, get_audio_size f len a = Ret s.
Proof.
  intros Ha Hb Hn Hl Hs. unfold get_audio_size, bytes_needed in *. destruct (so_packed f).
  - rewrite umul_ret by lia. cbn [obind]. rewrite (round_to_byte_ret _ need) by assumption. cbn [obind].
    rewrite align_ret by assumption. eauto.
  - destruct Hn as [b [Hc ->]]. rewrite (round_to_byte_ret _ b); [|assumption|unfold W64; lia]. cbn [obind].
    rewrite umul_ret by lia. cbn [obind]. rewrite align_ret by assumption. eauto.
Qed.

Lemma audio_size_exact f len a s : power_of_two a -> so_bits f < 256 ->
  get_audio_size f len a = Ret s <->
  exists need, bytes_needed f len need /\ (so_packed f = true -> len * so_bits f + 7 < W64) /\ need + a < W64 /\ least_multiple a need s.
Proof.
  intros Ha Hb. assert (Hpos : 0 < a) by (destruct Ha as [k ->]; apply pow2_pos).
  assert (LM : forall n s1 s2, least_multiple a n s1 -> least_multiple a n s2 -> s1 = s2).
  { intros n s1 s2 [[k1 ->] [A1 B1]] [[k2 ->] [A2 B2]]. apply N.le_antisymm; [apply B1|apply B2]; assumption. }
  split.
  - intros H. unfold get_audio_size in H. step_ret H. apply align_inv in H; [|assumption]. destruct H as [Hs ->].
    exists a0. assert (W : bytes_needed f len a0 /\ (so_packed f = true -> len * so_bits f + 7 < W64)).
    { unfold bytes_needed. destruct (so_packed f).
      - step_ret E. apply umul_inv in E0. destruct E0 as [-> _]. apply round_to_byte_inv in E. tauto.
      - step_ret E. apply round_to_byte_inv in E0. apply umul_inv in E. split; [exists a1; tauto|discriminate]. }
    split; [apply W|]. split; [apply W|]. split; [exact Hs|]. apply aligned_least; assumption.
  - intros [need [Hn [Hp [Hs Hl]]]].
    assert (get_audio_size f len a = align need a) as ->.
    { unfold get_audio_size, bytes_needed in *. destruct (so_packed f).
      - specialize (Hp eq_refl). rewrite umul_ret by lia. cbn [obind]. rewrite (round_to_byte_ret _ need) by assumption. reflexivity.
      - destruct Hn as [b [Hc ->]]. rewrite (round_to_byte_ret _ b); [|assumption|unfold W64; lia]. cbn [obind].
        rewrite umul_ret by lia. reflexivity. }
    rewrite align_ret by assumption. f_equal. apply (LM need); [apply aligned_least; exact Hpos|exact Hl].
Qed.

(** ** Channels *)

Lemma channel_code_inj a b : channel_code a = channel_code b -> a = b.
Proof. destruct a, b; intros H; try reflexivity; discriminate H. Qed.

Lemma find_from_spec m t i :
  match find_from m t i with
  | Some r => exists k, first_position m t k /\ r = (i + N.of_nat k) mod 256
  | None => ~ In t m
  end.
Proof.
  revert i. induction m as [|c m IH]; intros i; cbn [find_from]; [intros []|].
  destruct (N.eqb_spec (channel_code c) (channel_code t)) as [E|E].
  - apply channel_code_inj in E. subst c. exists 0%nat. split; [|f_equal; lia].
    split; [reflexivity|]. intros j Hj. lia.
  - specialize (IH (i + 1)). destruct (find_from m t (i + 1)) as [r|].
    + destruct IH as [k [[H1 H2] ->]]. exists (S k). split; [|f_equal; lia]. split; [exact H1|].
      intros [|j] Hj; cbn; [congruence|]. apply H2. lia.
    + intros [->|H]; [congruence|exact (IH H)].
Qed.

Lemma add_channels_app m cs : add_channels m cs = m ++ cs.
Proof.
  revert m. induction cs as [|c cs IH]; intros m; cbn; [symmetry; apply app_nil_r|].
  rewrite IH, <- app_assoc. reflexivity.
Qed.

(** ** Component sizes *)

Definition ceil_pow (x k : N) : N := N.shiftr (x + (2 ^ k - 1)) k.

Lemma sub_size_ret x k : k < 64 -> x + (2 ^ k - 1) < W64 -> sub_size x k = Ret (ceil_pow x k).
Proof.
  intros Hk Hx. pose proof (pow2_pos k). unfold sub_size.
  assert (Hp : 2 ^ k < W64) by (apply N.pow_lt_mono_r; lia).
  assert (E : ushl 1 k = Ret (2 ^ k)).
  { unfold ushl. destruct (N.ltb_spec k 64); [|lia]. rewrite N.shiftl_1_l, N.mod_small by exact Hp. reflexivity. }
  rewrite E. cbn [obind]. rewrite usub_ret by lia. cbn [obind]. rewrite uadd_ret by exact Hx. cbn [obind].
  unfold ushr. destruct (N.ltb_spec k 64); [reflexivity|lia].
Qed.

Lemma sub_size_inv x k r : sub_size x k = Ret r -> k < 64 /\ x + (2 ^ k - 1) < W64 /\ r = ceil_pow x k.
Proof.
  intros H. assert (Hk : k < 64).
  { unfold sub_size, ushl in H. destruct (N.ltb_spec k 64); [assumption|discriminate H]. }
  assert (Hx : x + (2 ^ k - 1) < W64).
  { destruct (N.lt_ge_cases (x + (2 ^ k - 1)) W64) as [|G]; [assumption|exfalso].
    unfold sub_size in H. assert (Hp : 2 ^ k < W64) by (apply N.pow_lt_mono_r; lia). pose proof (pow2_pos k).
    assert (E : ushl 1 k = Ret (2 ^ k)).
    { unfold ushl. destruct (N.ltb_spec k 64); [|lia]. rewrite N.shiftl_1_l, N.mod_small by exact Hp. reflexivity. }
    rewrite E in H. cbn [obind] in H. rewrite usub_ret in H by lia. cbn [obind] in H.
    step_ret H. apply uadd_inv in E0. lia. }
  rewrite sub_size_ret in H by assumption. repeat apply conj; try assumption. congruence.
Qed.

Lemma sub_size_no_ub x k : sub_size x k <> UB.
Proof.
  unfold sub_size, ushl, usub, uadd, ushr.
  destruct (k <? 64); [|discriminate]. cbn [obind].
  destruct (_ <=? _); [|discriminate]. cbn [obind].
  destruct (_ <? _); discriminate.
Qed.

Lemma ceil_pow_spec x k : ceil_div x (2 ^ k) (ceil_pow x k).
Proof. apply ceil_div_shiftr. Qed.

(** The stride in bytes before alignment. *)
Definition line_bytes (w d : N) : N := (w * d + d - 1) / 8.

Lemma linesize_ret c w a : power_of_two a -> h_ss c < 64 -> w + (2 ^ h_ss c - 1) < W64 -> 1 <= depth c ->
  ceil_pow w (h_ss c) * depth c + depth c < W64 -> line_bytes (ceil_pow w (h_ss c)) (depth c) + a < W64 ->
  get_linesize c w a = Ret (aligned (line_bytes (ceil_pow w (h_ss c)) (depth c)) a).
Proof.
  intros Ha Hh Hw Hd Hb Hs. unfold get_linesize, get_width. rewrite sub_size_ret by assumption. cbn [obind].
  rewrite umul_ret by lia. cbn [obind]. rewrite uadd_ret by assumption. cbn [obind].
  rewrite usub_ret by lia. cbn [obind]. rewrite N.shiftr_div_pow2. change (2 ^ 3) with 8.
  apply align_ret; assumption.
Qed.

Lemma linesize_inv c w a s : power_of_two a -> get_linesize c w a = Ret s ->
  h_ss c < 64 /\ w + (2 ^ h_ss c - 1) < W64 /\ 1 <= ceil_pow w (h_ss c) * depth c + depth c /\
  ceil_pow w (h_ss c) * depth c + depth c < W64 /\
  s = aligned (line_bytes (ceil_pow w (h_ss c)) (depth c)) a.
Proof.
  intros Ha H. unfold get_linesize, get_width in H. step_ret H. apply sub_size_inv in E. destruct E as (A & B & ->).
  step_ret H. apply umul_inv in E. destruct E as [-> C]. step_ret H. apply uadd_inv in E. destruct E as [-> D].
  step_ret H. apply usub_inv in E. destruct E as [-> F]. rewrite N.shiftr_div_pow2 in H. change (2 ^ 3) with 8 in H.
  apply align_inv in H; [|assumption]. destruct H as [_ ->]. repeat apply conj; try assumption; reflexivity.
Qed.

Lemma line_bytes_enough w d : 8 <= d -> w * d <= 8 * line_bytes w d.
Proof.
  intros Hd. unfold line_bytes. pose proof (N.div_mod (w * d + d - 1) 8 ltac:(lia)).
  pose proof (N.mod_lt (w * d + d - 1) 8 ltac:(lia)). lia.
Qed.

Lemma line_bytes_short w d : 1 <= d -> w * d <= 8 * line_bytes w d + (8 - d).
Proof.
  intros Hd. unfold line_bytes. pose proof (N.div_mod (w * d + d - 1) 8 ltac:(lia)).
  pose proof (N.mod_lt (w * d + d - 1) 8 ltac:(lia)). lia.
Qed.

Lemma line_bytes_8 w : line_bytes w 8 = w.
Proof.
  unfold line_bytes. replace (w * 8 + 8 - 1) with (7 + w * 8) by lia.
  rewrite N.div_add by lia. reflexivity.
Qed.

Lemma stride_sound c w a s : power_of_two a -> get_linesize c w a = Ret s ->
  exists cw, ceil_div w (2 ^ h_ss c) cw /\ (exists k, s = k * a) /\ 1 <= depth c /\
    cw * depth c <= 8 * s + (8 - depth c) /\ (depth c = 8 -> least_multiple a cw s).
Proof.
  intros Ha H. assert (0 < a) by (destruct Ha as [k ->]; apply pow2_pos).
  apply linesize_inv in H; [|assumption]. destruct H as (_ & _ & Hd & _ & ->).
  exists (ceil_pow w (h_ss c)). pose proof (aligned_least (line_bytes (ceil_pow w (h_ss c)) (depth c)) a H0) as [A [B C]].
  assert (1 <= depth c) by nia.
  split; [apply ceil_pow_spec|]. split; [exact A|]. split; [assumption|]. split.
  - pose proof (line_bytes_short (ceil_pow w (h_ss c)) (depth c) ltac:(assumption)). lia.
  - intros E. rewrite E, line_bytes_8 in *. apply aligned_least. assumption.
Qed.

Lemma data_size_inv c w h a n : get_data_size c w h a = Ret n ->
  exists s ch, get_linesize c w a = Ret s /\ get_height c h = Ret ch /\ n = s * ch.
Proof.
  intros H. unfold get_data_size in H. step_ret H. step_ret H. apply umul_inv in H. destruct H as [-> _].
  exists a1, a0. repeat apply conj; try assumption. reflexivity.
Qed.

Lemma data_size_ret c w h a s ch : get_linesize c w a = Ret s -> get_height c h = Ret ch -> s * ch < W64 ->
  get_data_size c w h a = Ret (s * ch).
Proof.
  intros H1 H2 H3. unfold get_data_size, get_height in *. rewrite H2. cbn [obind]. rewrite H1. cbn [obind].
  apply umul_ret. assumption.
Qed.

(** ** Enumerations *)

Lemma from_code_spec {A} (code : A -> N) all v :
  (forall a, In a all) -> (forall a b, code a = code b -> a = b) ->
  forall a, from_code code all v = Some a <-> code a = v.
Proof.
  intros Hall Hinj a. unfold from_code. split.
  - intros H. apply find_some in H. lia.
  - intros <-. destruct (find _ all) as [b|] eqn:E.
    + apply find_some in E. f_equal. apply Hinj. lia.
    + apply find_none with (x := a) in E; [|apply Hall]. lia.
Qed.

Lemma matrix_parse v m : matrix_from_u32 v = Some m <-> matrix_code m = v.
Proof.
  apply from_code_spec.
  - intros []; cbn; tauto.
  - intros [] []; intros H; try reflexivity; discriminate H.
Qed.
Lemma primaries_parse v m : primaries_from_u32 v = Some m <-> primaries_code m = v.
Proof.
  apply from_code_spec.
  - intros []; cbn; tauto.
  - intros [] []; intros H; try reflexivity; discriminate H.
Qed.
Lemma xfer_parse v m : xfer_from_u32 v = Some m <-> xfer_code m = v.
Proof.
  apply from_code_spec.
  - intros []; cbn; tauto.
  - intros [] []; intros H; try reflexivity; discriminate H.
Qed.

(** ** Formaton::new *)

Lemma update_app {A} (p : list A) x q v : update (p ++ x :: q) (length p) v = p ++ v :: q.
Proof. induction p as [|y p IH]; cbn; [reflexivity|]. rewrite IH. reflexivity. Qed.

Lemma fill_comps_spec l : forall p n, (length l <= n)%nat ->
  fill_comps (p ++ repeat None n) (length p) l = Ret (p ++ map Some l ++ repeat None (n - length l)).
Proof.
  induction l as [|c l IH]; intros p n Hn; cbn [fill_comps map app length].
  - rewrite Nat.sub_0_r. reflexivity.
  - destruct n as [|n]; [cbn in Hn; lia|]. cbn [repeat length] in *. unfold store.
    rewrite app_length. cbn [length]. destruct (Nat.ltb_spec (length p) (length p + S (length (repeat (@None chromaton) n)))) as [_|]; [|lia].
    cbn [obind]. rewrite update_app. specialize (IH (p ++ [Some c]) n ltac:(lia)).
    rewrite app_length, <- app_assoc in IH. cbn [length app] in IH. rewrite Nat.add_1_r in IH.
    rewrite IH, <- app_assoc. reflexivity.
Qed.

Lemma formaton_new_ret model l e be al pal : (length l <= 5)%nat ->
  formaton_new model l e be al pal =
  Ret (mk_formaton model CpUnspecified TcUnspecified McUnspecified ClUnspecified (N.of_nat (length l))
         (map Some l ++ repeat None (5 - length l)) e be al pal).
Proof.
  intros H. unfold formaton_new. destruct (Nat.ltb_spec 5 (length l)); [lia|].
  pose proof (fill_comps_spec l [] 5 H) as E. cbn [app length] in E. rewrite E. cbn [obind]. rewrite N.mod_small by lia. reflexivity.
Qed.

Lemma add_depths_none acc n : add_depths acc (repeat None n) = Ret acc.
Proof. induction n as [|n IH]; [reflexivity|exact IH]. Qed.

Definition total (l : list chromaton) : N := fold_right (fun c n => depth c + n) 0 l.

Lemma add_depths_spec l n : forall acc, acc < 256 ->
  add_depths acc (map Some l ++ repeat None n) = (if acc + total l <? 256 then Ret (acc + total l) else Panic).
Proof.
  induction l as [|c l IH]; intros acc Ha; cbn [map app total fold_right add_depths].
  - rewrite add_depths_none, N.add_0_r. destruct (N.ltb_spec acc 256); [reflexivity|lia].
  - destruct (N.ltb_spec (acc + depth c) 256) as [L|L].
    + rewrite IH by assumption. rewrite N.add_assoc. reflexivity.
    + change (fold_right (fun c n => depth c + n) 0 l) with (total l).
      destruct (N.ltb_spec (acc + (depth c + total l)) 256); [lia|reflexivity].
Qed.

Lemma from_table {A} (code : A -> N) all table v :
  (forall a, In a all) -> (forall a b, code a = code b -> a = b) ->
  (forall e, In e table -> code (snd e) = fst e) -> (forall a, In (code a, a) table) ->
  from_code code all v = lookup table v.
Proof.
  intros Hall Hinj Ht Hc. pose proof (from_code_spec code all v Hall Hinj) as P. unfold lookup.
  destruct (find (fun e => fst e =? v) table) as [[n a]|] eqn:E.
  - apply P. apply find_some in E. destruct E as [E1 E2]. apply Ht in E1. cbn [fst snd] in *. lia.
  - destruct (from_code code all v) as [a|]; [|reflexivity]. pose proof (proj1 (P a) eq_refl) as F.
    pose proof (find_none _ _ E _ (Hc a)) as G. cbn [fst] in G. lia.
Qed.

Lemma matrix_table v : matrix_from_u32 v = lookup published_matrix v.
Proof.
  apply from_table; [intros []; cbn; tauto|intros [] []; intros H; try reflexivity; discriminate H| |intros []; cbn; tauto].
  intros e H. cbn in H. repeat (destruct H as [<-|H]; [reflexivity|]). destruct H.
Qed.
Lemma primaries_table v : primaries_from_u32 v = lookup published_primaries v.
Proof.
  apply from_table; [intros []; cbn; tauto|intros [] []; intros H; try reflexivity; discriminate H| |intros []; cbn; tauto].
  intros e H. cbn in H. repeat (destruct H as [<-|H]; [reflexivity|]). destruct H.
Qed.
Lemma xfer_table v : xfer_from_u32 v = lookup published_xfer v.
Proof.
  apply from_table; [intros []; cbn; tauto|intros [] []; intros H; try reflexivity; discriminate H| |intros []; cbn; tauto].
  intros e H. cbn in H. repeat (destruct H as [<-|H]; [reflexivity|]). destruct H.
Qed.

Lemma formaton_eqb_true a b : formaton_eqb a b = true <-> a = b.
Proof. unfold formaton_eqb. destruct (formaton_eq_dec a b); split; intros; try congruence; discriminate. Qed.
Lemma channel_map_eqb_true a b : channel_map_eqb a b = true <-> a = b.
Proof. unfold channel_map_eqb. destruct (channel_map_eq_dec a b); split; intros; try congruence; discriminate. Qed.
Lemma soniton_eqb_true a b : soniton_eqb a b = true <-> a = b.
Proof. unfold soniton_eqb. destruct (soniton_eq_dec a b); split; intros; try congruence; discriminate. Qed.

Lemma video_eqb_true a b : video_eqb a b = true <-> vi_width a = vi_width b /\ vi_height a = vi_height b /\ vi_format a = vi_format b.
Proof. unfold video_eqb. rewrite !andb_true_iff, !N.eqb_eq, formaton_eqb_true. tauto. Qed.
Lemma audio_eqb_true a b : audio_eqb a b = true <-> ai_rate a = ai_rate b /\ ai_map a = ai_map b /\ ai_format a = ai_format b.
Proof. unfold audio_eqb. rewrite !andb_true_iff, N.eqb_eq, channel_map_eqb_true, soniton_eqb_true. tauto. Qed.

Lemma media_equivalence :
  (forall a, media_eqb a a = true) /\ (forall a b, media_eqb a b = media_eqb b a) /\
  (forall a b c, media_eqb a b = true -> media_eqb b c = true -> media_eqb a c = true).
Proof.
  assert (V : forall a b, media_eqb a b = true -> media_eqb b a = true).
  { intros [a|a] [b|b] H; cbn [media_eqb] in *; try discriminate; [rewrite video_eqb_true in *|rewrite audio_eqb_true in *]; intuition congruence. }
  split; [|split].
  - intros [a|a]; cbn [media_eqb]; [apply video_eqb_true|apply audio_eqb_true]; tauto.
  - intros a b. apply Bool.eq_true_iff_eq. split; apply V.
  - intros [a|a] [b|b] [c|c] H1 H2; cbn [media_eqb] in *; try discriminate; [rewrite video_eqb_true in *|rewrite audio_eqb_true in *]; intuition congruence.
Qed.

Lemma formaton_new_spec model l e be al pal :
  ((length l <= 5)%nat -> exists f, formaton_new model l e be al pal = Ret f /\
     get_num_comp f = N.of_nat (length l) /\ (forall i, get_chromaton f i = Ret (nth_error l i)) /\
     get_total_depth f = (let s := fold_right (fun c n => depth c + n) 0 l in if s <? 256 then Ret s else Panic) /\
     present (fo_comps f) = l /\ length (fo_comps f) = 5%nat /\
     fo_model f = model /\ fo_elem_size f = e /\ fo_be f = be /\ fo_alpha f = al /\ fo_palette f = pal /\
     fo_primaries f = CpUnspecified /\ fo_xfer f = TcUnspecified /\ fo_matrix f = McUnspecified /\ fo_location f = ClUnspecified) /\
  ((5 < length l)%nat -> formaton_new model l e be al pal = Panic).
Proof.
  split; intros H.
  - eexists. split; [apply formaton_new_ret; exact H|]. cbn [fo_components fo_comps fo_model fo_elem_size fo_be fo_alpha fo_palette fo_primaries fo_xfer fo_matrix fo_location].
    split; [reflexivity|]. split; [|split; [|split; [|split]]].
    + intros i. unfold get_chromaton. cbn [fo_comps]. set (C := map Some l ++ repeat None (5 - length l)).
      assert (LC : length C = 5%nat) by (unfold C; rewrite app_length, map_length, repeat_length; lia).
      rewrite LC. destruct (Nat.ltb_spec i 5) as [L|G].
      * unfold index_at, C. destruct (Nat.lt_ge_cases i (length l)) as [Li|Gi].
        -- rewrite nth_error_app1 by (rewrite map_length; assumption). rewrite nth_error_map.
           destruct (nth_error l i) eqn:E; [reflexivity|]. apply nth_error_None in E. lia.
        -- rewrite nth_error_app2, map_length by (rewrite map_length; assumption).
           rewrite (nth_error_repeat None) by lia. destruct (nth_error l i) eqn:E; [|reflexivity].
           assert (i < length l)%nat by (apply nth_error_Some; congruence). lia.
      * destruct (nth_error l i) eqn:E; [|reflexivity]. assert (i < length l)%nat by (apply nth_error_Some; congruence). lia.
    + unfold get_total_depth. cbn [fo_comps]. rewrite add_depths_spec by reflexivity. rewrite N.add_0_l. reflexivity.
    + induction l as [|c l IH]; cbn [map app present length].
      * reflexivity.
      * f_equal. replace (5 - S (length l))%nat with (4 - length l)%nat by lia. clear. generalize (4 - length l)%nat. intros n.
        induction l as [|c l IH]; cbn [map app present]; [induction n as [|n IH]; [reflexivity|exact IH]|rewrite IH; reflexivity].
    + rewrite app_length, map_length, repeat_length. lia.
    + repeat apply conj; reflexivity.
  - unfold formaton_new. destruct (Nat.ltb_spec 5 (length l)); [reflexivity|lia].
Qed.
