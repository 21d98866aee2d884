From Coq Require Import Ascii String.
From Coq Require Import List Arith NArith ZArith Bool Lia.
From Coq Require Import ZifyBool ZifyNat ZifyN.
From Verif Require Import Base AccModel AccProofs AccProofs2 PixelModel FrameModel MuxModel StreamModel DisplayModel DisplayProofs TextSpec TextProofs ReleaseModel.
From Verif Require Import WordCountModel WordCountSpec ReleaseMiscModel ReleaseMiscSpec.
Import ListNotations.
Local Open Scope N_scope.
Ltac Zify.zify_post_hook ::= Z.div_mod_to_equations.

(** ** Display *)

Lemma pow_cases : forall d, d < 32 -> (2 ^ Z.of_N d = 2 ^ 31 \/ 0 < 2 ^ Z.of_N d < 2 ^ 31)%Z.
Proof.
  intros d H. assert (D : d = 31 \/ d < 31) by lia. destruct D as [->|D]; [left; reflexivity|right].
  split; [apply Z.pow_pos_nonneg; lia|apply Z.pow_lt_mono_r; lia].
Qed.

Lemma low_mask : forall d, risub32 (rishl32 1 d) 1 = (2 ^ Z.of_N (d mod 32) - 1)%Z.
Proof.
  intros d. unfold risub32, rishl32. rewrite Z.mul_1_l. assert (H : d mod 32 < 32) by lia. destruct (pow_cases _ H) as [E|E].
  - rewrite E. reflexivity.
  - generalize dependent (2 ^ Z.of_N (d mod 32))%Z. intros x Hx. change (2 ^ 31)%Z with 2147483648%Z in Hx. unfold as_signed, as_unsigned.
    change (2 ^ (32 - 1)) with 2147483648. change (2 ^ Z.of_N 32)%Z with 4294967296%Z. change (2 ^ 32)%Z with 4294967296%Z.
    destruct (N.ltb_spec (Z.to_N (x mod 4294967296)) 2147483648); [|lia].
    destruct (N.ltb_spec (Z.to_N ((Z.of_N (Z.to_N (x mod 4294967296)) - 1) mod 4294967296)) 2147483648); lia.
Qed.

Lemma r_chromaton_text : forall c, component_text (wrapped c) (r_show_chromaton c).
Proof.
  intros c. unfold r_show_chromaton, component_text, wrapped. cbn [h_ss v_ss ch_packed depth shift comp_offs next_elem].
  exists (dec (h_ss c)), (dec (v_ss c)), (dec (comp_offs c)), (dec (next_elem c)).
  split; [apply numeral_dec|]. split; [apply numeral_dec|]. split; [apply numeral_dec|]. split; [apply numeral_dec|].
  destruct (ch_packed c).
  - exists (hex32 (rishl32 (risub32 (rishl32 1 (depth c)) 1) (shift c))). split.
    2: { repeat (cbn [append]; rewrite sapp). reflexivity. }
    rewrite low_mask. set (d := depth c mod 32). assert (Q : (0 < 2 ^ Z.of_N d)%Z) by (apply Z.pow_pos_nonneg; lia).
    replace (2 ^ d - 1) with (Z.to_N (2 ^ Z.of_N d - 1)).
    + rewrite <- mask_value by lia. apply numeral_hex.
    + rewrite Z2N.inj_sub by lia. rewrite <- (N2Z.id (2 ^ d)), N2Z.inj_pow. reflexivity.
  - repeat (cbn [append]; rewrite sapp). reflexivity.
Qed.

Lemma wrapped_same : forall c, depth c < 32 -> shift c < 32 -> wrapped c = c.
Proof. intros [h v p d s o n] D S. cbn [depth shift] in D, S. unfold wrapped. cbn [h_ss v_ss ch_packed depth shift comp_offs next_elem]. rewrite !N.mod_small by assumption. reflexivity. Qed.

Lemma r_chromaton_right : forall c, ch_packed c = false \/ depth c < 32 /\ shift c < 32 -> component_text c (r_show_chromaton c).
Proof.
  intros c [P|[D S]].
  - pose proof (r_chromaton_text c) as H. unfold component_text, wrapped in *. cbn [h_ss v_ss ch_packed depth shift comp_offs next_elem] in H. rewrite P in *. exact H.
  - pose proof (r_chromaton_text c) as H. rewrite wrapped_same in H by assumption. exact H.
Qed.

Lemma chromaton_release : forall c s, show_chromaton c = Ret s -> r_show_chromaton c = s.
Proof.
  intros c s E. destruct (ch_packed c) eqn:P.
  - destruct (N.lt_ge_cases (depth c) 31) as [D|D]; [|rewrite (show_chromaton_panic c P (or_introl D)) in E; discriminate E].
    destruct (N.lt_ge_cases (shift c) 32) as [S|S]; [|rewrite (show_chromaton_panic c P (or_intror S)) in E; discriminate E].
    unfold show_chromaton in E. unfold r_show_chromaton. rewrite P in *. rewrite ishl32_one in E by exact D. cbn [obind] in E.
    rewrite low_mask. rewrite (N.mod_small (depth c)) by lia.
    destruct (pow_cases (depth c)) as [B|B]; [lia| |].
    { apply (f_equal Z.log2) in B. rewrite !Z.log2_pow2 in B by lia. lia. }
    unfold isub32 in E. destruct (Z.leb_spec (- 2 ^ 31) (2 ^ Z.of_N (depth c) - 1)); [|lia].
    destruct (Z.ltb_spec (2 ^ Z.of_N (depth c) - 1) (2 ^ 31)); [|lia]. cbn [andb obind] in E.
    unfold ishl32 in E. destruct (N.ltb_spec (shift c) 32); [|lia]. cbn [obind] in E. unfold rishl32. rewrite (N.mod_small (shift c)) by lia.
    congruence.
  - unfold show_chromaton in E. unfold r_show_chromaton. rewrite P in *. cbn [obind] in E. congruence.
Qed.

Lemma comps_release : forall l str s, show_comps str l = Ret s -> r_show_comps str l = s.
Proof.
  induction l as [|[c|] l IH]; intros str s E; cbn [show_comps r_show_comps] in *; [congruence| |exact (IH _ _ E)].
  destruct (show_chromaton c) as [t| |] eqn:Ec; cbn [obind] in E; [|discriminate E..]. apply chromaton_release in Ec. rewrite Ec. exact (IH _ _ E).
Qed.

Lemma formaton_release : forall f s, show_formaton f = Ret s -> r_show_formaton f = s.
Proof.
  intros f s E. unfold show_formaton in E. unfold r_show_formaton. cbv zeta in *.
  destruct (show_comps _ _) as [t| |] eqn:Ec in E; cbn [obind] in E; [|discriminate E..]. apply comps_release in Ec. rewrite Ec. congruence.
Qed.

Lemma r_comps_text : forall l str,
  exists texts, r_show_comps str l = (str ++ spaced texts)%string /\
    Forall2 (fun c s => component_text (wrapped c) s) (flat_map (fun o => match o with Some c => [c] | None => [] end) l) texts.
Proof.
  induction l as [|[c|] l IH]; intros str; cbn [flat_map app r_show_comps].
  - exists []. split; [|constructor]. cbn [spaced]. assert (E : forall s : string, (s ++ "" = s)%string) by (induction s as [|a s IH]; [reflexivity|cbn [append]; rewrite IH; reflexivity]). rewrite E. reflexivity.
  - destruct (IH (str ++ " " ++ r_show_chromaton c)%string) as [texts [E F]]. exists (r_show_chromaton c :: texts). split; [|constructor; [apply r_chromaton_text|exact F]].
    rewrite E. cbn [spaced]. repeat (cbn [append]; rewrite sapp). reflexivity.
  - exact (IH str).
Qed.

Lemma forall2_map : forall (l : list chromaton) texts, Forall2 (fun c s => component_text (wrapped c) s) l texts -> Forall2 component_text (map wrapped l) texts.
Proof. induction l as [|c l IH]; intros texts H; inversion H; subst; cbn [map]; constructor; auto. Qed.

Lemma present_map : forall l, flat_map (fun o => match o with Some c => [c] | None => [] end) (map (option_map wrapped) l) =
  map wrapped (flat_map (fun o => match o with Some c => [c] | None => [] end) l).
Proof. induction l as [|[c|] l IH]; cbn [map option_map flat_map app]; [reflexivity|rewrite IH; reflexivity|exact IH]. Qed.

Lemma r_formaton_text : forall f, format_text (wrapped_format f) (r_show_formaton f).
Proof.
  intros f. unfold r_show_formaton. cbv zeta.
  destruct (r_comps_text (fo_comps f) ("Formaton for " ++ show_model (fo_model f) ++ " (" ++ (if fo_palette f then "palette " else "") ++ (if fo_alpha f then "alpha " else "") ++ "elem " ++ (if fo_be f then "BE" else "LE") ++ " size " ++ dec (fo_elem_size f) ++ "): ")%string) as [texts [-> T]].
  exists (dec (fo_elem_size f)), texts. unfold wrapped_format. cbn [fo_elem_size fo_model fo_palette fo_alpha fo_be]. split; [apply numeral_dec|]. split.
  - unfold present. cbn [fo_comps]. rewrite present_map. apply forall2_map. exact T.
  - rewrite model_text. repeat (cbn [append]; rewrite sapp). reflexivity.
Qed.

Lemma mask_lost : let c := mk_chromaton 0 0 true 32 0 0 4 in r_show_chromaton c = "(0x0, packed(+0,0, step 4))"%string /\ ~ component_text c (r_show_chromaton c).
Proof.
  split; [vm_compute; reflexivity|]. intros (h & v & offs & next & Hh & Hv & Ho & Hn & mask & Hm & E).
  cbn [ch_packed depth shift h_ss v_ss comp_offs next_elem] in *.
  assert (one : forall b s d, numeral b s d -> exists a s', s = String a s' /\ exists k, digit_value a = Some k).
  { intros b [|a s] d [V N]; [destruct N|]. exists a, s. split; [reflexivity|]. cbn [value_from] in V. destruct (digit_value a) as [k|]; [eauto|discriminate V]. }
  assert (R : r_show_chromaton (mk_chromaton 0 0 true 32 0 0 4) = "(0x0, packed(+0,0, step 4))"%string) by (vm_compute; reflexivity). rewrite R in E. clear R.
  assert (zero : forall b s, 1 < b -> numeral b s 0 -> s = "0"%string).
  { intros b [|a s] B [V Z]; [destruct Z|]. cbn [value_from] in V. destruct (digit_value a) as [k|] eqn:K; [|discriminate V].
    destruct (k <? b) eqn:L; [|discriminate V]. rewrite N.mul_0_r, N.add_0_l in V.
    assert (G : forall t acc, value_from b acc t = Some 0 -> acc = 0).
    { induction t as [|x t IH]; intros acc H; cbn [value_from] in H; [congruence|]. destruct (digit_value x) as [y|]; [|discriminate H].
      destruct (y <? b); [|discriminate H]. apply IH in H. nia. }
    pose proof (G _ _ V) as K0. subst k. unfold digit_value in K.
    assert (A : a = "0"%char).
    { rewrite <- (ascii_N_embedding a). destruct ((48 <=? N_of_ascii a) && (N_of_ascii a <=? 57)) eqn:C.
      - assert (N_of_ascii a = 48) as -> by (injection K as K; lia). reflexivity.
      - destruct ((65 <=? N_of_ascii a) && (N_of_ascii a <=? 70)) eqn:C2; [injection K as K; lia|discriminate K]. }
    rewrite A, (Z A). reflexivity. }
  apply zero in Hh; [|reflexivity]. apply zero in Hv; [|reflexivity]. apply zero in Ho; [|reflexivity]. subst h v offs.
  cbn [append] in E. injection E as E. destruct mask as [|a [|b mask]]; cbn [append] in E.
  - discriminate E.
  - injection E as <- _. destruct Hm as [V _]. vm_compute in V. discriminate V.
  - injection E as <- <- _. destruct Hm as [V _]. cbn [value_from] in V. vm_compute in V. discriminate V.
Qed.

(** ** Total depth *)

Lemma add_depths_release : forall l acc, r_add_depths acc l mod 256 = (acc + fold_right (fun c n => depth c + n) 0 (flat_map (fun o => match o with Some c => [c] | None => [] end) l)) mod 256.
Proof.
  induction l as [|[c|] l IH]; intros acc; cbn [r_add_depths flat_map app fold_right].
  - rewrite N.add_0_r. reflexivity.
  - rewrite IH. rewrite N.add_mod_idemp_l by discriminate. f_equal. lia.
  - apply IH.
Qed.

Lemma add_depths_range : forall l acc, acc < 256 -> r_add_depths acc l < 256.
Proof. induction l as [|[c|] l IH]; intros acc H; cbn [r_add_depths]; [exact H| |]; apply IH; lia. Qed.

Lemma total_depth_release : forall f, r_get_total_depth f = fold_right (fun c n => depth c + n) 0 (present f) mod 256.
Proof.
  intros f. pose proof (add_depths_release (fo_comps f) 0) as H. pose proof (add_depths_range (fo_comps f) 0 eq_refl) as R.
  unfold r_get_total_depth, present. rewrite N.add_0_l in H. rewrite <- H. symmetry. apply N.mod_small. exact R.
Qed.

(** ** Writer *)
Section Writer.
Context {W : Type}.
Variable s : sink W.

Lemma write_wrapped : forall w buf, rww_write s (wrapped_writer w) buf = let '(w1, res) := writer_write s w buf in (wrapped_writer w1, res).
Proof.
  intros w buf. unfold rww_write, writer_write. cbn [wrapped_writer ww_inner ww_written].
  destruct (sk_write s (w_inner w) buf) as [w' [n|e]]; [|reflexivity]. unfold wrapped_writer, radd. cbn [w_inner w_written].
  rewrite Nat2N.inj_add, N.add_mod_idemp_l by discriminate. reflexivity.
Qed.

Lemma all_wrapped : forall fuel w buf, rww_write_all s fuel (wrapped_writer w) buf =
  match write_all (writer_sink s) fuel w buf with Ret (w', res) => Ret (wrapped_writer w', res) | Panic => Panic | UB => UB end.
Proof.
  induction fuel as [|fuel IH]; intros w [|x buf]; cbn [write_all rww_write_all]; try reflexivity.
  set (b := x :: buf) in *. unfold writer_sink at 1. cbn [sk_write]. rewrite write_wrapped.
  destruct (writer_write s w b) as [w1 [[|n]|e]]; [reflexivity| |].
  - destruct (slice b (S n) (List.length b)) as [rest| |]; cbn [obind]; [apply IH|reflexivity..].
  - destruct e; try reflexivity. apply IH.
Qed.

Lemma step_wrapped : seeks_words s -> forall w op, rww_step s (wrapped_writer w) op =
  match writer_step s w op with Ret (w', o) => Ret (wrapped_writer w', o) | Panic => Panic | UB => UB end.
Proof.
  intros Hs w [buf|fuel buf| |sk]; cbn [rww_step writer_step].
  - rewrite write_wrapped. destruct (writer_write s w buf). reflexivity.
  - rewrite all_wrapped. destruct (write_all (writer_sink s) fuel w buf) as [[w' res]| |]; reflexivity.
  - unfold ww_flush, writer_flush. cbn [wrapped_writer ww_inner ww_written]. destruct (sk_flush s (w_inner w)). reflexivity.
  - unfold ww_seek, writer_seek. cbn [wrapped_writer ww_inner ww_written]. destruct (sk_seek s (w_inner w) sk) as [w' [p|e]] eqn:E; [|reflexivity].
    apply Hs in E. unfold wrapped_writer. cbn [w_inner w_written]. rewrite N.mod_small by exact E. reflexivity.
Qed.

Lemma run_wrapped : seeks_words s -> forall ops w, rww_run s (wrapped_writer w) ops =
  match writer_run s w ops with Ret (w', outs) => Ret (wrapped_writer w', outs) | Panic => Panic | UB => UB end.
Proof.
  intros Hs. induction ops as [|op ops IH]; intros w; cbn [rww_run writer_run]; [reflexivity|].
  rewrite step_wrapped by exact Hs. destruct (writer_step s w op) as [[w1 o]| |]; cbn [obind]; [|reflexivity..].
  rewrite IH. destruct (writer_run s w1 ops) as [[w2 os]| |]; reflexivity.
Qed.
End Writer.

Lemma buffer_release : forall (R : Type) (rd : reader R), honest_reader rd -> forall fuel r buf nread,
  (N.of_nat (List.length buf) < W64)%N -> (nread <= List.length buf)%nat ->
  rget_buffer rd fuel r buf (N.of_nat nread) = get_buffer rd fuel r buf nread.
Proof.
  intros R rd Hh. induction fuel as [|fuel IH]; intros r buf nread L Hn; cbn [rget_buffer get_buffer].
  - replace (N.of_nat nread <? N.of_nat (List.length buf))%N with (nread <? List.length buf)%nat by lia. reflexivity.
  - replace (N.of_nat nread <? N.of_nat (List.length buf))%N with (nread <? List.length buf)%nat by lia.
    destruct (Nat.ltb_spec nread (List.length buf)); [|reflexivity]. rewrite Nat2N.id.
    rewrite slice_ok by lia. cbn [obind]. set (tail := firstn _ _).
    assert (Lt : (List.length tail = List.length buf - nread)%nat) by (unfold tail; rewrite firstn_length, skipn_length; lia).
    destruct (rd r tail) as [[[r' t'] [[|n]|e]]| |] eqn:E; try reflexivity. cbn [obind].
    destruct (Hh _ _ _ _ _ E) as [Lt' Ln].
    assert (Lb : List.length (with_tail buf nread t') = List.length buf) by (unfold with_tail; rewrite app_length, firstn_length; lia).
    unfold radd. rewrite <- Nat2N.inj_add. rewrite N.mod_small by lia. apply IH; lia.
Qed.

Lemma end_wraps : forall p, (N.of_nat p + 1 = W64)%N ->
  seeks_words (end_sink p) /\
  exists w outs, rww_run (end_sink p) (ww_new 0%nat) [WSeek (End 0); WWrite [7]] = Ret (w, outs) /\ ww_written w = 0.
Proof.
  intros p Hp. split.
  - intros w [n|d|d] w' q H; cbn in H; try discriminate H. destruct d; try discriminate H. injection H as _ <-. lia.
  - cbn [rww_run rww_step]. unfold ww_seek, ww_new. cbn [end_sink sk_seek ww_inner obind]. unfold rww_write.
    cbn [end_sink sk_write ww_inner ww_written List.length]. unfold radd. change (N.of_nat 1) with 1%N. rewrite Hp. cbn [obind].
    eexists. eexists. split; [reflexivity|]. reflexivity.
Qed.
