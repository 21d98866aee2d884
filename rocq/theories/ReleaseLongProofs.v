(** Proofs for C189: without overflow checks the tables are those of other codewords. *)
From Coq Require Import List Arith NArith ZArith Bool Lia Permutation.
From Coq Require Import ZifyBool ZifyNat ZifyN.
From Verif Require Import Base BitModel BitSpec BitProofs WordBitModel ReleaseModel ReleaseBitModel CodebookModel CodebookSpec CodebookProofs
  CodebookProofs4 ReleaseCbModel ReleaseCbProofs WideCbModel WideCbProofs ReleaseLongSpec.
Import ListNotations.
Local Open Scope nat_scope.
Ltac Zify.zify_post_hook ::= Z.div_mod_to_equations.

(** ** Codes *)

Definition okc (c : N) (b : nat) : Prop := b <= 255 /\ (c < pow2 32)%N /\ (c < pow2 (seen_limit b))%N.
Definition gnum (c : N) (b : nat) : N := value_be (seen_bits 22 c b).

Lemma seen_length : forall l c b, length (seen_bits l c b) = b.
Proof.
  induction l as [|l IH]; intros c b; cbn [seen_bits]; [apply codeword_length|].
  destruct (Nat.leb_spec b 41); [apply codeword_length|]. rewrite app_length, IH, codeword_length. lia.
Qed.

Lemma seen_enough : forall l l' c b, b <= 10 * l + 41 -> b <= 10 * l' + 41 -> seen_bits l c b = seen_bits l' c b.
Proof.
  induction l as [|l IH]; intros l' c b H H'.
  - destruct l'; cbn [seen_bits]; [reflexivity|]. destruct (Nat.leb_spec b 41); [reflexivity|lia].
  - destruct l' as [|l']; cbn [seen_bits]; destruct (Nat.leb_spec b 41); try reflexivity; try lia. f_equal. apply IH; lia.
Qed.

Lemma seen_step : forall c b, 42 <= b <= 255 ->
  seen_bits 22 c b = codeword MSB (N.shiftr c (N.of_nat (cut_at b))) 10 ++ seen_bits 22 (c mod pow2 (cut_at b)) (b - 10).
Proof.
  intros c b H. rewrite (seen_enough 22 23) by lia. cbn [seen_bits]. destruct (Nat.leb_spec b 41); [lia|].
  reflexivity.
Qed.

Lemma gnum_short : forall c b, b <= 41 -> (c < pow2 b)%N -> gnum c b = c.
Proof.
  intros c b Hb Hc. unfold gnum. cbn [seen_bits]. destruct (Nat.leb_spec b 41); [|lia]. exact (value_codeword MSB c b Hc).
Qed.

Lemma gnum_bound : forall c b, (gnum c b < pow2 b)%N.
Proof. intros. unfold gnum. rewrite <- (seen_length 22 c b) at 2. exact (value_bound BE _). Qed.

Lemma shiftr_small : forall c k n, (c < pow2 (k + n))%N -> (N.shiftr c (N.of_nat k) < pow2 n)%N.
Proof.
  intros c k n H. rewrite N.shiftr_div_pow2. apply N.div_lt_upper_bound; [apply N.pow_nonzero; discriminate|].
  rewrite <- N.pow_add_r. rewrite Nat2N.inj_add in H. exact H.
Qed.

Lemma gnum_long : forall c b, 42 <= b <= 255 -> (c < pow2 (cut_at b + 10))%N ->
  gnum c b = (N.shiftr c (N.of_nat (cut_at b)) * pow2 (b - 10) + gnum (c mod pow2 (cut_at b)) (b - 10))%N.
Proof.
  intros c b Hb Hc. unfold gnum. rewrite seen_step by exact Hb. rewrite value_be_app, seen_length. do 2 f_equal.
  apply (value_codeword MSB). apply shiftr_small. exact Hc.
Qed.

Lemma split_mod : forall a c n, (c < pow2 n)%N -> (N.shiftr (a * pow2 n + c) (N.of_nat n) = a /\ (a * pow2 n + c) mod pow2 n = c)%N.
Proof.
  intros a c n H. rewrite N.shiftr_div_pow2. split.
  - rewrite N.div_add_l by (apply N.pow_nonzero; discriminate). rewrite N.div_small by exact H. lia.
  - rewrite N.add_comm, N.mod_add by (apply N.pow_nonzero; discriminate). apply N.mod_small. exact H.
Qed.

Lemma pow2_le : forall a b, a <= b -> (pow2 a <= pow2 b)%N.
Proof. intros. apply N.pow_le_mono_r; lia. Qed.

Lemma rsub8_ten : forall b, 10 < b <= 255 -> rsub8 b MAX_LUT_BITS = b - 10.
Proof. intros b H. unfold rsub8, MAX_LUT_BITS. change (10 mod 256) with 10. lia. Qed.

Lemma rc_lut_msb : forall c b, 10 < b <= 255 -> rc_lut_part c b MAX_LUT_BITS MSB = N.shiftr c (N.of_nat (cut_at b)).
Proof.
  intros c b H. cbn [rc_lut_part]. rewrite rsub8_ten by exact H. unfold rshr32, cut_at. f_equal. lia.
Qed.

Lemma rc_esc_msb : forall c b, 10 < b <= 255 -> rc_esc_part c b MAX_LUT_BITS MSB = (c mod pow2 (cut_at b))%N.
Proof.
  intros c b H. cbn [rc_esc_part]. rewrite rsub8_ten by exact H. unfold rshl32.
  replace (N.of_nat (b - 10) mod 32)%N with (N.of_nat (cut_at b)) by (unfold cut_at; lia).
  assert (Hk : cut_at b < 32) by (unfold cut_at; lia). set (k := cut_at b) in *. clearbody k.
  rewrite N.shiftl_1_l. assert (H32 : (pow2 k < W32)%N) by (change W32 with (pow2 32); apply N.pow_lt_mono_r; lia).
  rewrite N.mod_small by exact H32. pose proof (pow2_pos k) as Hp.
  replace (rsub32 (pow2 k) 1) with (pow2 k - 1)%N; [apply land_mask|].
  unfold rsub32. change (1 mod W32)%N with 1%N. replace (pow2 k + (W32 - 1))%N with (pow2 k - 1 + 1 * W32)%N.
  - rewrite N.mod_add by discriminate. symmetry. apply N.mod_small. lia.
  - change W32 with 4294967296%N in *. lia.
Qed.

Lemma cut_step : forall c b, 10 < b -> okc c b ->
  rc_lut_part c b MAX_LUT_BITS MSB = N.shiftr (gnum c b) (N.of_nat (b - 10)) /\
  okc (rc_esc_part c b MAX_LUT_BITS MSB) (b - 10) /\
  gnum (rc_esc_part c b MAX_LUT_BITS MSB) (b - 10) = (gnum c b mod pow2 (b - 10))%N.
Proof.
  intros c b H10 [H255 [H32 Hc]]. rewrite rc_lut_msb, rc_esc_msb by lia.
  assert (Hmod : (c mod pow2 (cut_at b) < pow2 (cut_at b))%N) by (apply N.mod_upper_bound, N.pow_nonzero; discriminate).
  assert (Hm32 : (c mod pow2 (cut_at b) < pow2 32)%N) by (pose proof (pow2_le (cut_at b) 32 ltac:(unfold cut_at; lia)); lia).
  unfold seen_limit in Hc. destruct (Nat.leb_spec b 41) as [Hb|Hb].
  - assert (Ek : cut_at b = b - 10) by (unfold cut_at; lia). rewrite Ek in *. rewrite (gnum_short c b Hb Hc).
    split; [reflexivity|]. split.
    + split; [lia|]. split; [exact Hm32|]. unfold seen_limit. destruct (Nat.leb_spec (b - 10) 41); [exact Hmod|lia].
    + apply gnum_short; [lia|exact Hmod].
  - rewrite (gnum_long c b ltac:(lia) Hc). destruct (split_mod (N.shiftr c (N.of_nat (cut_at b))) _ (b - 10) (gnum_bound (c mod pow2 (cut_at b)) (b - 10))) as [-> ->].
    split; [reflexivity|]. split; [|reflexivity]. split; [lia|]. split; [exact Hm32|].
    pose proof (pow2_le (cut_at b) (seen_limit (b - 10))
      ltac:(unfold seen_limit, cut_at; destruct (Nat.leb_spec (b - 10) 41); lia)). lia.
Qed.

(** ** Buckets *)

Definition gcode (c : code) : code := mk_code (gnum (c_code c) (c_bits c)) (c_bits c) (c_idx c).
Definition gbucket (b : bucket) : bucket := mk_bucket (b_maxlen b) (b_offset b) (map gcode (b_codes b)).
Definition gmap (cc : escape_codes) : escape_codes := map (fun kb => (fst kb, gbucket (snd kb))) cc.

Definition okcode (c : code) : Prop := okc (c_code c) (c_bits c).
Definition okbucket (b : bucket) : Prop := Forall okcode (b_codes b).
Definition okmap (cc : escape_codes) : Prop := Forall (fun kb => okbucket (snd kb)) cc.

Lemma gadd_code : forall b c, add_code (gbucket b) (gcode c) = gbucket (add_code b c).
Proof. intros b c. unfold add_code, gbucket. cbn [b_maxlen b_offset b_codes]. rewrite map_app. reflexivity. Qed.

Lemma gadd_esc : forall cc k c, add_esc_code (gmap cc) k (gcode c) = gmap (add_esc_code cc k c).
Proof.
  intros cc k c. induction cc as [|[k0 b] cc IH]; cbn [add_esc_code gmap map fst snd].
  - reflexivity.
  - destruct (k0 =? k)%N; cbn [gmap map fst snd]; [rewrite gadd_code; reflexivity|]. unfold gmap in IH. rewrite IH. reflexivity.
Qed.

Lemma okadd : forall cc k c, okmap cc -> okcode c -> okmap (add_esc_code cc k c).
Proof.
  intros cc k c H Hc. induction H as [|[k0 b] cc Hb H IH]; cbn [add_esc_code].
  - constructor; [|constructor]. constructor; [exact Hc|constructor].
  - destruct (k0 =? k)%N; constructor; cbn [snd] in *; auto. unfold okbucket, add_code. cbn [b_codes]. apply Forall_app. split; [exact Hb|]. constructor; [exact Hc|constructor].
Qed.

Lemma glong : forall cc c, 10 < c_bits c -> okmap cc -> okcode c ->
  w_add_long_code (gmap cc) MSB (gcode c) = Ret (gmap (rc_add_long_code cc MSB c)) /\ okmap (rc_add_long_code cc MSB c).
Proof.
  intros cc c H10 Hcc Hc. destruct (cut_step _ _ H10 Hc) as [E1 [E2 E3]]. unfold w_add_long_code, rc_add_long_code.
  cbn [gcode c_code c_bits c_idx w_extract_lut_part w_extract_esc_part obind].
  assert (H255 : c_bits c <= 255) by apply Hc.
  unfold csub. change MAX_LUT_BITS with 10 in *. destruct (Nat.leb_spec 10 (c_bits c)); [|lia]. cbn [obind].
  pose proof (rsub8_ten (c_bits c) ltac:(lia)) as E8. change MAX_LUT_BITS with 10 in E8. rewrite E8, <- E1, <- E3. split.
  - f_equal. symmetry. rewrite <- gadd_esc. reflexivity.
  - apply okadd; [exact Hcc|]. exact E2.
Qed.

Lemma gfill : forall t off c maxlen sym t', maxlen < 256 -> c_bits c <= 10 -> okcode c ->
  fill_lut t MSB off (c_code (gcode c)) (c_bits c) maxlen sym false = Ret t' -> rc_fill_lut t MSB off (c_code c) (c_bits c) maxlen sym false = Ret t'.
Proof.
  intros t off c maxlen sym t' Hm Hb [_ [_ Hc]] E. cbn [gcode c_code] in E. unfold seen_limit in Hc.
  destruct (Nat.leb_spec (c_bits c) 41); [|lia]. rewrite gnum_short in E by (auto; lia). apply fill_lut_of; assumption.
Qed.

Lemma gpass1 : forall off maxlen codes, maxlen < 256 -> Forall okcode codes ->
  forall t cc t' wcc, okmap cc -> w_esc_pass1 t MSB off maxlen (map gcode codes) (gmap cc) = Ret (t', wcc) ->
  exists cc', rc_esc_pass1 t MSB off maxlen codes cc = Ret (t', cc') /\ wcc = gmap cc' /\ okmap cc'.
Proof.
  intros off maxlen codes Hm Hcs. induction Hcs as [|c codes Hc Hcs IH]; intros t cc t' wcc Hcc E; cbn [map w_esc_pass1 rc_esc_pass1] in *.
  - injection E as <- <-. exists cc. auto.
  - change (c_bits (gcode c)) with (c_bits c) in E. change (c_idx (gcode c)) with (c_idx c) in E.
    change MAX_LUT_BITS with 10 in *. destruct (Nat.leb_spec (c_bits c) 10) as [Hle|Hgt].
    + destruct (fill_lut _ _ _ _ _ _ _ _) as [t1| |] eqn:E1; cbn [obind] in E; try discriminate E.
      rewrite (gfill _ _ _ _ _ _ Hm Hle Hc E1). cbn [obind]. exact (IH _ _ _ _ Hcc E).
    + destruct (glong cc c Hgt Hcc Hc) as [Eg Hg]. rewrite Eg in E. cbn [obind] in E. exact (IH _ _ _ _ Hg E).
Qed.

Lemma galloc : forall t off k b t' wb, alloc_bucket t MSB off k (gbucket b) = Ret (t', wb) ->
  exists b', rc_alloc_bucket t MSB off k b = Ret (t', b') /\ wb = gbucket b' /\ b_codes b' = b_codes b.
Proof.
  intros t off k b t' wb E. unfold alloc_bucket in E. unfold rc_alloc_bucket. cbn [gbucket b_maxlen] in E.
  destruct (resize_table t _) as [[t1 o]| |] eqn:E1; cbn [obind] in E; try discriminate E. rewrite (resize_of _ _ _ E1).
  destruct (fill_lut _ _ _ _ _ _ _ _) as [t2| |] eqn:E2; cbn [obind] in E; try discriminate E.
  rewrite (fill_lut_of _ _ _ _ _ _ _ _ _ ten_small E2). cbn [obind]. injection E as <- <-. eexists. repeat split.
Qed.

Lemma gpass2 : forall off cc, okmap cc -> forall t t' wcc, esc_pass2 t MSB off (gmap cc) = Ret (t', wcc) ->
  exists cc', rc_esc_pass2 t MSB off cc = Ret (t', cc') /\ wcc = gmap cc' /\ okmap cc'.
Proof.
  intros off cc H. induction H as [|[k b] cc Hb H IH]; intros t t' wcc E; cbn [gmap map fst snd esc_pass2 rc_esc_pass2] in *.
  - injection E as <- <-. exists []. repeat constructor.
  - destruct (alloc_bucket _ _ _ _ _) as [[t1 wb]| |] eqn:E1; cbn [obind] in E; try discriminate E.
    destruct (galloc _ _ _ _ _ _ E1) as [b' [-> [-> Eb]]]. cbn [obind].
    destruct (esc_pass2 t1 _ _ _) as [[t2 wcc2]| |] eqn:E2; cbn [obind] in E; try discriminate E.
    destruct (IH _ _ _ E2) as [cc' [-> [-> Hcc']]]. cbn [obind]. injection E as <- <-. exists ((k, b') :: cc'). split; [reflexivity|]. split; [reflexivity|].
    constructor; [|exact Hcc']. unfold okbucket. cbn [snd]. rewrite Eb. exact Hb.
Qed.

(** ** The order of the hash maps *)

(** The number is found again. *)
Fixpoint unseen (levels : nat) (v : N) (b : nat) : N :=
  match levels with
  | O => v
  | S l => if b <=? 41 then v else (N.shiftr v (N.of_nat (b - 10)) * pow2 (cut_at b) + unseen l (v mod pow2 (b - 10)) (b - 10))%N
  end.

Lemma unseen_gnum : forall l c b, b <= 10 * l + 41 -> okc c b -> unseen l (gnum c b) b = c.
Proof.
  induction l as [|l IH]; intros c b Hl Hc.
  - cbn [unseen]. apply gnum_short; [lia|]. destruct Hc as [_ [_ Hc]]. unfold seen_limit in Hc. destruct (Nat.leb_spec b 41); [exact Hc|lia].
  - cbn [unseen]. destruct (Nat.leb_spec b 41) as [Hb|Hb].
    + apply gnum_short; [lia|]. destruct Hc as [_ [_ Hc]]. unfold seen_limit in Hc. destruct (Nat.leb_spec b 41); [exact Hc|lia].
    + destruct (cut_step c b ltac:(lia) Hc) as [E1 [E2 E3]]. assert (H255 : b <= 255) by apply Hc.
      rewrite <- E1, <- E3, (IH _ (b - 10) ltac:(lia) E2), rc_lut_msb, rc_esc_msb by lia.
      rewrite N.shiftr_div_pow2. rewrite N.mul_comm. symmetry. apply N.div_mod. apply N.pow_nonzero. discriminate.
Qed.

Definition ucode (c : code) : code := mk_code (unseen 22 (c_code c) (c_bits c)) (c_bits c) (c_idx c).
Definition ubucket (b : bucket) : bucket := mk_bucket (b_maxlen b) (b_offset b) (map ucode (b_codes b)).
Definition umap (cc : escape_codes) : escape_codes := map (fun kb => (fst kb, ubucket (snd kb))) cc.

Lemma umap_gmap : forall cc, okmap cc -> umap (gmap cc) = cc.
Proof.
  intros cc H. induction H as [|[k b] cc Hb H IH]; cbn [gmap umap map fst snd]; [reflexivity|]. unfold gmap, umap in IH. rewrite IH. do 2 f_equal.
  destruct b as [ml off codes]. unfold ubucket, gbucket. cbn [b_maxlen b_offset b_codes]. f_equal. unfold okbucket in Hb. cbn [snd b_codes] in Hb.
  clear IH H. induction Hb as [|c codes Hc Hb IH]; cbn [map]; [reflexivity|]. rewrite IH. f_equal. destruct c as [c b i]. unfold ucode, gcode. cbn [c_code c_bits c_idx].
  f_equal. apply unseen_gnum; [|exact Hc]. destruct Hc as [Hc _]. cbn [c_bits] in Hc. lia.
Qed.

Lemma map_eq_dec : forall a b : escape_codes, {a = b} + {a <> b}.
Proof.
  apply list_eq_dec. intros [k b] [k' b']. destruct (N.eq_dec k k') as [->|]; [|right; congruence].
  destruct b as [m o c], b' as [m' o' c']. destruct (Nat.eq_dec m m') as [->|]; [|right; congruence]. destruct (Nat.eq_dec o o') as [->|]; [|right; congruence].
  destruct (list_eq_dec (fun x y : code => ltac:(decide equality; [apply Nat.eq_dec|apply Nat.eq_dec|apply N.eq_dec])) c c') as [->|]; [left; reflexivity|right; congruence].
Qed.

Definition gorder (ord : order) : order := fun path wcc =>
  if map_eq_dec (gmap (umap wcc)) wcc then gmap (ord path (umap wcc)) else wcc.

Lemma gorder_permuting : forall ord, permuting ord -> permuting (gorder ord).
Proof.
  intros ord H path cc. unfold gorder. destruct (map_eq_dec _ _) as [E|]; [|apply Permutation_refl].
  rewrite <- E at 1. unfold gmap at 1 2. apply Permutation_map. apply H.
Qed.

Lemma gorder_gmap : forall ord path cc, okmap cc -> gorder ord path (gmap cc) = gmap (ord path cc).
Proof. intros ord path cc H. unfold gorder. rewrite (umap_gmap cc H). destruct (map_eq_dec (gmap cc) (gmap cc)); congruence. Qed.

(** ** Construction *)

Lemma gbuild_all : forall (f g : list N -> N -> bucket -> outcome (list N)),
  (forall t k b t', okbucket b -> f t k (gbucket b) = Ret t' -> g t k b = Ret t') ->
  forall cc, okmap cc -> forall t t', build_all f t (gmap cc) = Ret t' -> build_all g t cc = Ret t'.
Proof.
  intros f g H cc Hcc. induction Hcc as [|[k b] cc Hb Hcc IH]; intros t t' E; cbn [gmap map fst snd build_all] in *; [exact E|].
  destruct (f t k (gbucket b)) as [t1| |] eqn:E1; cbn [obind] in E; try discriminate E. rewrite (H _ _ _ _ Hb E1). cbn [obind]. exact (IH _ _ E).
Qed.

Lemma gbuild : forall ord fuel, permuting ord -> forall path table b t, okbucket b ->
  w_build_esc_lut fuel (gorder ord) path table MSB (gbucket b) = Ret t -> rc_build_esc_lut fuel ord path table MSB b = Ret t.
Proof.
  intros ord fuel Hord. induction fuel as [|fuel IH]; intros path table b t Hb E; cbn [w_build_esc_lut rc_build_esc_lut] in *; [discriminate E|].
  cbn [gbucket b_maxlen b_offset b_codes] in E.
  destruct (w_esc_pass1 _ _ _ _ _ _) as [[t1 wcc]| |] eqn:E1; cbn [obind] in E; try discriminate E.
  destruct (gpass1 _ _ _ (min_small (b_maxlen b)) Hb _ [] _ _ (Forall_nil _) E1) as [cc [-> [-> Hcc]]]. cbn [obind].
  rewrite (gorder_gmap ord path cc Hcc) in E.
  destruct (esc_pass2 _ _ _ _) as [[t2 wcc2]| |] eqn:E2; cbn [obind] in E; try discriminate E.
  assert (Hcc' : okmap (ord path cc)) by (eapply Permutation_Forall; [apply Hord|exact Hcc]).
  destruct (gpass2 _ _ Hcc' _ _ _ E2) as [cc2 [-> [-> Hcc2]]]. cbn [obind].
  refine (gbuild_all _ _ _ _ Hcc2 _ _ E). intros t0 k b0 t' Hb0 E0. exact (IH _ _ _ _ Hb0 E0).
Qed.

Lemma gnew1 : forall (S : Type) (ds : list (desc S)), seen_fit ds ->
  forall mb sym cc, okmap cc ->
  exists mb' cc', rc_new_pass1 MSB ds mb sym cc = (mb', cc') /\ w_new_pass1 MSB (map as_seen ds) mb sym (gmap cc) = Ret (mb', gmap cc') /\ okmap cc'.
Proof.
  intros S ds. induction ds as [|d ds IH]; intros Hf mb sym cc Hcc; cbn [map w_new_pass1 rc_new_pass1].
  - eexists _, _. repeat split; auto.
  - assert (Hf' : seen_fit ds) by (intros d' Hin; apply Hf; right; exact Hin).
    cbn [as_seen d_bits d_code]. change MAX_LUT_BITS with 10. destruct (Nat.ltb_spec 10 (d_bits d)) as [Hb|Hb].
    + assert (Hc : okcode (mk_code (d_code d) (d_bits d) sym)) by (destruct (Hf d (or_introl eq_refl) ltac:(unfold used; lia)) as [A [B C]]; split; [exact A|]; split; assumption).
      destruct (glong cc (mk_code (d_code d) (d_bits d) sym) Hb Hcc Hc) as [Eg Hg]. unfold gcode, gnum in Eg. cbn [c_code c_bits c_idx] in Eg. rewrite Eg. cbn [obind]. apply IH; assumption.
    + cbn [obind]. apply IH; assumption.
Qed.

Lemma gfind : forall cc k, find_bucket (gmap cc) k = option_map gbucket (find_bucket cc k).
Proof.
  intros cc k. induction cc as [|[k0 b] cc IH]; cbn [gmap map fst snd find_bucket]; [reflexivity|]. destruct (k0 =? k)%N; [reflexivity|exact IH].
Qed.
Lemma gset : forall cc k b, set_bucket (gmap cc) k (gbucket b) = gmap (set_bucket cc k b).
Proof.
  intros cc k b. induction cc as [|[k0 b0] cc IH]; cbn [gmap map fst snd set_bucket]; [reflexivity|]. destruct (k0 =? k)%N; [reflexivity|].
  cbn [map fst snd]. unfold gmap in IH. rewrite IH. reflexivity.
Qed.
Lemma okfind : forall cc k b, okmap cc -> find_bucket cc k = Some b -> okbucket b.
Proof.
  intros cc k b H. induction H as [|[k0 b0] cc Hb H IH]; cbn [find_bucket]; intros E; [discriminate E|].
  destruct (k0 =? k)%N; [injection E as <-; exact Hb|exact (IH E)].
Qed.
Lemma okset : forall cc k b, okmap cc -> okbucket b -> okmap (set_bucket cc k b).
Proof.
  intros cc k b H Hb. induction H as [|[k0 b0] cc Hb0 H IH]; cbn [set_bucket]; [constructor|]. destruct (k0 =? k)%N; constructor; assumption.
Qed.

Lemma gnew2 : forall (S : Type) mb (ds : list (desc S)), mb < 256 -> seen_fit ds ->
  forall t sym cc t' wcc, okmap cc -> w_new_pass2 t MSB mb (map as_seen ds) sym (gmap cc) = Ret (t', wcc) ->
  exists cc', rc_new_pass2 t MSB mb ds sym cc = Ret (t', cc') /\ wcc = gmap cc' /\ okmap cc'.
Proof.
  intros S mb ds Hm. induction ds as [|d ds IH]; intros Hf t sym cc t' wcc Hcc E; cbn [map w_new_pass2 rc_new_pass2] in *.
  - injection E as <- <-. exists cc. auto.
  - assert (Hf' : seen_fit ds) by (intros d' Hin; apply Hf; right; exact Hin).
    cbn [as_seen d_bits d_code] in E. destruct (Nat.eqb_spec (d_bits d) 0) as [H0|H0]; [exact (IH Hf' _ _ _ _ _ Hcc E)|].
    destruct (Hf d (or_introl eq_refl) ltac:(unfold used; lia)) as [A [B C]].
    assert (Hc : okc (d_code d) (d_bits d)) by (split; [exact A|]; split; assumption).
    assert (G : forall (o r : outcome (list N * escape_codes)),
      (forall y, o = Ret y -> exists c, r = Ret (fst y, c) /\ snd y = gmap c /\ okmap c) ->
      obind o (fun '(t, c) => let! s := add32 sym 1 in w_new_pass2 t MSB mb (map as_seen ds) s c) = Ret (t', wcc) ->
      exists cc', obind r (fun '(t, c) => rc_new_pass2 t MSB mb ds (radd32 sym 1) c) = Ret (t', cc') /\ wcc = gmap cc' /\ okmap cc').
    { intros o r Ho Eo. destruct o as [[t1 c1]| |]; cbn [obind] in Eo; try discriminate Eo.
      destruct (Ho _ eq_refl) as [c [-> [Ec Hok]]]. cbn [obind fst snd] in *. subst c1.
      destruct (add32 sym 1) as [s| |] eqn:Es; cbn [obind] in Eo; try discriminate Eo. rewrite (radd32_of _ _ _ Es). exact (IH Hf' _ _ _ _ _ Hok Eo). }
    revert E. apply G. clear G. intros y Ey. change MAX_LUT_BITS with 10 in *. destruct (Nat.leb_spec (d_bits d) 10) as [Hle|Hgt].
    + destruct (fill_lut _ _ _ _ _ _ _ _) as [t1| |] eqn:E1; cbn [obind] in Ey; try discriminate Ey.
      pose proof (gfill _ _ (mk_code (d_code d) (d_bits d) 0) _ _ _ Hm Hle Hc E1) as E0. cbn [c_code c_bits] in E0. rewrite E0. cbn [obind]. injection Ey as <-. exists cc. auto.
    + destruct (cut_step _ _ Hgt Hc) as [E1 _]. change MAX_LUT_BITS with 10 in E1. rewrite E1. cbn [w_extract_lut_part obind] in Ey. fold (gnum (d_code d) (d_bits d)) in Ey.
      set (k := N.shiftr _ _) in *. clearbody k.
      destruct (index_at t (N.to_nat k)) as [v| |]; cbn [obind] in *; try discriminate Ey.
      destruct (v =? TABLE_FILL_VALUE)%N; [|injection Ey as <-; exists cc; auto]. rewrite gfind in Ey.
      destruct (find_bucket cc k) as [b|] eqn:Eb; cbn [option_map] in Ey; [|injection Ey as <-; exists cc; auto].
      destruct (alloc_bucket _ _ _ _ _) as [[t1 wb]| |] eqn:E2; cbn [obind] in Ey; try discriminate Ey.
      destruct (galloc _ _ _ _ _ _ E2) as [b' [-> [-> Eb']]]. cbn [obind]. injection Ey as <-. exists (set_bucket cc k b').
      split; [reflexivity|]. split; [apply gset|]. apply okset; [exact Hcc|]. unfold okbucket. rewrite Eb'. exact (okfind _ _ _ Hcc Eb).
Qed.

Lemma seen_syms : forall (S : Type) (ds : list (desc S)), used_syms (map as_seen ds) = used_syms ds.
Proof.
  intros S ds. unfold used_syms. induction ds as [|d ds IH]; cbn [map filter]; [reflexivity|].
  change (d_bits (as_seen d)) with (d_bits d). destruct (0 <? d_bits d); cbn [map]; rewrite IH; reflexivity.
Qed.

Lemma gnew : forall (S : Type) ord (ds : list (desc S)) x, permuting ord -> seen_fit ds ->
  w_new_codebook (gorder ord) (map as_seen ds) MSB = Ret x -> rc_new_codebook ord ds MSB = Ret x.
Proof.
  intros S ord ds x Hord Hf E. unfold w_new_codebook in E. unfold rc_new_codebook. set (fuel := 26) in E |- *. clearbody fuel.
  destruct (gnew1 S ds Hf 0 0 [] (Forall_nil _)) as [mb [cc [-> [E1 Hcc]]]]. cbn [gmap map] in E1. rewrite E1 in E. cbn [obind] in E.
  destruct (mb =? 0); [exact E|]. cbv zeta in *. set (mb' := if MAX_LUT_BITS <? mb then MAX_LUT_BITS else mb) in *.
  assert (Hmb : mb' < 256) by (unfold mb'; destruct (Nat.ltb_spec MAX_LUT_BITS mb); unfold MAX_LUT_BITS in *; lia).
  destruct (shl32 1 mb') as [tl| |] eqn:E2; cbn [obind] in E; try discriminate E. rewrite (rshl32_of _ _ _ E2).
  destruct (w_new_pass2 _ _ _ _ _ _) as [[t wcc]| |] eqn:E3; cbn [obind] in E; try discriminate E.
  destruct (gnew2 _ _ _ Hmb Hf _ _ _ _ _ Hcc E3) as [cc' [-> [-> Hcc']]]. cbn [obind].
  rewrite (gorder_gmap ord [] cc' Hcc') in E.
  destruct (build_all _ _ _) as [t'| |] eqn:E4; cbn [obind] in E; try discriminate E.
  rewrite (gbuild_all (fun t key b => w_build_esc_lut fuel (gorder ord) [key] t MSB b) (fun t key b => rc_build_esc_lut fuel ord [key] t MSB b)
    ltac:(intros t0 k b t0' Hb Eb; exact (gbuild ord fuel Hord _ _ _ _ Hb Eb)) _ ltac:(eapply Permutation_Forall; [apply Hord|exact Hcc']) _ _ E4).
  cbn [obind]. rewrite seen_syms in E. exact E.
Qed.
