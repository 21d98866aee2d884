(** The tables of [WideCbModel]; the proofs are those of [CodebookProofs3] and [CodebookProofs4]. *)
From Coq Require Import List Arith NArith ZArith Bool Lia Permutation.
From Coq Require Import ZifyBool ZifyNat ZifyN.
From Verif Require Import Base ByteModel BitModel BitSpec BitProofs BitProofs2 CodebookModel CodebookSpec
  CodebookProofs CodebookProofs2 CodebookSizeProofs CodebookProofs3 CodebookProofs4 CbLevelSpec WideCbModel.
Import ListNotations.
Local Open Scope nat_scope.
Ltac Zify.zify_post_hook ::= Z.div_mod_to_equations.

Definition w_codes_fit {S : Type} (m : mode) (ds : list (desc S)) : Prop :=
  forall d, In d ds -> used d -> d_bits d <= 255 /\ (d_code d < 2 ^ N.of_nat (d_bits d))%N.
Definition w_code_ok (m : mode) (c : code) : Prop := 1 <= c_bits c <= 255 /\ (c_code c < pow2 (c_bits c))%N.

Lemma w_extract_lut_spec : forall m c bits, 10 < bits <= 255 -> (c < pow2 bits)%N ->
  w_extract_lut_part c bits 10 m = Ret (value (reader_for m) (firstn 10 (codeword m c bits))).
Proof.
  intros m c bits Hb Hc. pose proof (value_codeword m c bits Hc) as Hv.
  pose proof (codeword_length m c bits) as Hl. set (w := codeword m c bits) in *. clearbody w.
  destruct m; cbn [reader_for value] in *; unfold w_extract_lut_part; f_equal.
  - rewrite value_firstn_be by lia. rewrite Hv, Hl, N.shiftr_div_pow2. reflexivity.
  - rewrite value_firstn_le by lia. rewrite Hv. reflexivity.
Qed.

Lemma w_extract_esc_spec : forall m c bits, 10 < bits <= 255 -> (c < pow2 bits)%N ->
  exists c', w_extract_esc_part c bits 10 m = Ret c' /\ (c' < pow2 (bits - 10))%N /\
    codeword m c' (bits - 10) = skipn 10 (codeword m c bits).
Proof.
  intros m c bits Hb Hc. pose proof (value_codeword m c bits Hc) as Hv.
  pose proof (codeword_length m c bits) as Hl. set (w := codeword m c bits) in *. clearbody w.
  assert (Hs : length (skipn 10 w) = bits - 10) by (rewrite skipn_length; lia).
  exists (value (reader_for m) (skipn 10 w)). split; [|split].
  - destruct m; cbn [reader_for value] in *; unfold w_extract_esc_part; f_equal.
    + rewrite value_skipn_be by lia. rewrite Hv, Hl. reflexivity.
    + rewrite value_skipn_le by lia. rewrite Hv, N.shiftr_div_pow2. reflexivity.
  - rewrite <- Hs. apply value_bound.
  - rewrite <- Hs. apply codeword_value.
Qed.

Record w_esc_ok (m : mode) (B : list item) (cc : escape_codes) : Prop := {
  eo_nodup : NoDup (map fst cc);
  eo_sound : forall k b, In (k, b) cc -> exists u, length u = 10 /\ value (reader_for m) u = k /\
      items_of m (b_codes b) = sub u B /\ sub u B <> [] /\ b_maxlen b = maxl (sub u B) /\
      Forall (w_code_ok m) (b_codes b);
  eo_complete : forall u, length u = 10 -> sub u B <> [] -> exists b, In (value (reader_for m) u, b) cc
}.

Lemma w_esc_ok_nil : forall m, w_esc_ok m [] [].
Proof.
  intros m. constructor; cbn; try lia; try constructor; try (intros; contradiction); congruence.
Qed.

Lemma w_esc_ok_short : forall m B cc w i, w_esc_ok m B cc -> length w <= 10 -> w_esc_ok m (B ++ [(w, i)]) cc.
Proof.
  intros m B cc w i H Hl.
  assert (Hs : forall u, sub u (B ++ [(w, i)]) = sub u B).
  { intros u. rewrite sub_app, sub_short by exact Hl. apply app_nil_r. }
  constructor.
  - apply H.
  - intros k b Hin. rewrite <- (app_nil_r B). destruct (eo_sound _ _ _ H k b Hin) as [u Hu].
    exists u. rewrite app_nil_r, Hs. exact Hu.
  - intros u Hu. rewrite Hs. apply (eo_complete _ _ _ H u Hu).
Qed.

Lemma w_esc_ok_long : forall m B cc c, w_esc_ok m B cc -> w_code_ok m c -> 10 < c_bits c ->
  exists cc', w_add_long_code cc m c = Ret cc' /\ w_esc_ok m (B ++ items_of m [c]) cc'.
Proof.
  intros m B cc c H [Hb Hc] Hl. unfold w_add_long_code. change MAX_LUT_BITS with 10.
  rewrite (w_extract_lut_spec m (c_code c) (c_bits c) ltac:(lia) Hc). cbn [obind].
  destruct (w_extract_esc_spec m (c_code c) (c_bits c) ltac:(lia) Hc) as [c' [Ec [Hc' Ew]]]. rewrite Ec. cbn [obind].
  unfold csub. destruct (Nat.leb_spec 10 (c_bits c)); [|lia]. cbn [obind].
  eexists. split; [reflexivity|].
  rewrite items_one. set (w := codeword m (c_code c) (c_bits c)) in *.
  assert (Lw : length w = c_bits c) by apply codeword_length.
  set (u0 := firstn 10 w) in *. assert (Lu0 : length u0 = 10) by (unfold u0; rewrite firstn_length; lia).
  set (key := value (reader_for m) u0) in *. set (c2 := mk_code c' (c_bits c - 10) (c_idx c)).
  assert (Hc2 : w_code_ok m c2) by (split; [cbn; lia|exact Hc']).
  assert (Hi2 : items_of m [c2] = [(skipn 10 w, c_idx c)]) by (cbn; rewrite Ew; reflexivity).
  assert (Hs : forall u, sub u (B ++ [(w, c_idx c)]) = sub u B ++ (if bits_eqb u0 u then items_of m [c2] else [])).
  { intros u. rewrite sub_app, sub_long by lia. fold u0. rewrite Hi2. reflexivity. }
  assert (Hs0 : sub u0 (B ++ [(w, c_idx c)]) = sub u0 B ++ items_of m [c2]).
  { rewrite Hs, (proj2 (bits_eqb_true u0 u0) eq_refl). reflexivity. }
  assert (Hs1 : forall u, u <> u0 -> sub u (B ++ [(w, c_idx c)]) = sub u B).
  { intros u Hne. rewrite Hs. destruct (bits_eqb u0 u) eqn:E; [apply bits_eqb_true in E; congruence|apply app_nil_r]. }
  assert (Hkey : forall u, length u = 10 -> value (reader_for m) u = key -> u = u0).
  { intros u Lu E. apply (value_inj (reader_for m)); [lia|exact E]. }
  assert (Hmc : maxl (items_of m [c2]) = c_bits c2).
  { rewrite items_one. cbn [maxl]. rewrite codeword_length. lia. }
  destruct (add_esc_cases cc key c2) as [[l1 [b [l2 [E1 E2]]]]|[Hn E2]].
  - (* an existing bucket *)
    assert (Hb0 : In (key, b) cc) by (rewrite E1; apply in_or_app; right; left; reflexivity).
    destruct (eo_sound _ _ _ H key b Hb0) as [u [Lu [Ek [Hi [Hne [Hm Hok]]]]]].
    apply (Hkey u Lu) in Ek. subst u. clear Lu.
    pose proof (eo_nodup _ _ _ H) as ND. rewrite E1, map_app in ND. cbn [map fst] in ND.
    rewrite E2. constructor.
    + rewrite map_app. exact ND.
    + intros k b' Hin. apply in_app_or in Hin. cbn [In] in Hin.
      assert (Hcase : (k = key /\ b' = add_code b c2) \/ (k <> key /\ In (k, b') cc)).
      { apply NoDup_remove_2 in ND. rewrite E1. destruct Hin as [Hin|[Hin|Hin]].
        - right. split; [|apply in_or_app; left; exact Hin]. intros ->. apply ND. apply in_or_app. left.
          apply (in_map fst) in Hin. exact Hin.
        - left. injection Hin as <- <-. split; reflexivity.
        - right. split; [|apply in_or_app; right; right; exact Hin]. intros ->. apply ND. apply in_or_app. right.
          apply (in_map fst) in Hin. exact Hin. }
      destruct Hcase as [[-> ->]|[Hne' Hin']].
      * exists u0. split; [exact Lu0|]. split; [reflexivity|]. cbn [add_code b_codes b_maxlen].
        rewrite Hs0, items_app, Hi. split; [reflexivity|]. split; [destruct (sub u0 B); [congruence|discriminate]|].
        split; [rewrite maxlen_max, maxl_app, Hmc, Hm; reflexivity|].
        apply Forall_app. split; [exact Hok|constructor; [exact Hc2|constructor]].
      * destruct (eo_sound _ _ _ H k b' Hin') as [u [Lu [Ek R]]]. exists u.
        rewrite Hs1; [split; [exact Lu|split; [exact Ek|exact R]]|]. intros ->. apply Hne'. symmetry. exact Ek.
    + intros u Lu Hsu. destruct (list_eq_dec bool_dec u u0) as [->|Hne'].
      * exists (add_code b c2). apply in_or_app. right. left. reflexivity.
      * rewrite Hs1 in Hsu by exact Hne'. destruct (eo_complete _ _ _ H u Lu Hsu) as [b' Hin'].
        exists b'. rewrite E1 in Hin'. apply in_app_or in Hin'. apply in_or_app.
        destruct Hin' as [?|[Hx|?]]; [left; assumption| |right; right; assumption].
        injection Hx as Hx _. symmetry in Hx. apply (Hkey u Lu) in Hx. congruence.
  - (* a new bucket *)
    assert (Hempty : sub u0 B = []).
    { destruct (sub u0 B) eqn:Es; [reflexivity|]. exfalso.
      destruct (eo_complete _ _ _ H u0 Lu0) as [b Hin]; [rewrite Es; discriminate|].
      apply Hn. apply (in_map fst) in Hin. exact Hin. }
    rewrite E2. constructor.
    + rewrite map_app. cbn [map fst]. 
      apply Permutation_NoDup with (l := key :: map fst cc).
      * apply Permutation_cons_append.
      * constructor; [exact Hn|apply H].
    + intros k b' Hin. apply in_app_or in Hin. destruct Hin as [Hin|[Hin|[]]].
      * assert (Hne' : k <> key) by (intros ->; apply Hn; apply (in_map fst) in Hin; exact Hin).
        destruct (eo_sound _ _ _ H k b' Hin) as [u [Lu [Ek R]]]. exists u.
        rewrite Hs1; [split; [exact Lu|split; [exact Ek|exact R]]|]. intros ->. apply Hne'. symmetry. exact Ek.
      * injection Hin as <- <-. exists u0. split; [exact Lu0|]. split; [reflexivity|].
        cbn [add_code new_bucket b_codes b_maxlen app]. rewrite Hs0, Hempty. cbn [app].
        split; [reflexivity|]. split; [discriminate|]. split; [rewrite maxlen_max, Hmc; reflexivity|].
        constructor; [exact Hc2|constructor].
    + intros u Lu Hsu. destruct (list_eq_dec bool_dec u u0) as [->|Hne'].
      * eexists. apply in_or_app. right. left. reflexivity.
      * rewrite Hs1 in Hsu by exact Hne'. destruct (eo_complete _ _ _ H u Lu Hsu) as [b' Hin'].
        exists b'. apply in_or_app. left. exact Hin'.
Qed.

Lemma w_short_filled_step : forall m t0 t off L D c idx, short_filled (reader_for m) t0 t off L D ->
  w_code_ok m c -> c_bits c <= L -> L <= 10 -> off + N.to_nat (pow2 L) <= length t0 -> idx = N.of_nat (c_idx c) ->
  exists t', fill_lut t m off (c_code c) (c_bits c) L idx false = Ret t' /\
    short_filled (reader_for m) t0 t' off L (D ++ items_of m [c]).
Proof.
  intros m t0 t off L D c idx [Hlen [Hout Hin]] [Hb Hc] Hl HL Ht ->.
  destruct (fill_short_spec m t off (c_code c) (c_bits c) L (N.of_nat (c_idx c)) Hl HL Hc ltac:(lia))
    as [t' [E [L' [Hyes [Hno Hrest]]]]].
  exists t'. split; [exact E|]. rewrite items_one. set (w := codeword m (c_code c) (c_bits c)) in *.
  assert (Lw : length w = c_bits c) by apply codeword_length.
  split; [lia|]. split.
  - intros q Hq. rewrite Hrest by exact Hq. apply Hout. exact Hq.
  - intros u Lu. destruct (prefix_dec w u) as [Hp|Hp].
    + left. exists w, (c_idx c). split; [apply lastin_end|]. split; [lia|].
      split; [exact Hp|]. rewrite Lw. apply Hyes; assumption.
    + rewrite Hno by assumption. destruct (Hin u Lu) as [[w' [i' [Hi [Hl' [Hp' En]]]]]|[Hn En]].
      * left. exists w', i'. split; [apply lastin_more; [exact Hi|intros _; exact Hp]|]. split; [exact Hl'|]. split; assumption.
      * right. split; [|exact En]. intros w' i' Hi. apply in_app_or in Hi. destruct Hi as [Hi|[Hi|[]]].
        -- apply (Hn w' i' Hi).
        -- injection Hi as <- <-. intros _. exact Hp.
Qed.

Lemma w_esc_pass1_spec : forall m off L t0 cs t D cc, Forall (w_code_ok m) cs -> small_idx cs ->
  Forall (fun c => c_bits c <= 10 -> c_bits c <= L) cs -> L <= 10 -> off + N.to_nat (pow2 L) <= length t0 ->
  short_filled (reader_for m) t0 t off L D -> w_esc_ok m D cc ->
  exists t' cc', w_esc_pass1 t m off L cs cc = Ret (t', cc') /\
    short_filled (reader_for m) t0 t' off L (D ++ items_of m cs) /\ w_esc_ok m (D ++ items_of m cs) cc'.
Proof.
  intros m off L t0. induction cs as [|c cs IH]; intros t D cc Hok Hsm Hlen HL Ht Hf He.
  - exists t, cc. cbn [items_of map]. rewrite app_nil_r. split; [reflexivity|]. split; assumption.
  - inversion_clear Hok as [|? ? Hc Hok']. inversion_clear Hsm as [|? ? Hs Hsm'].
    inversion_clear Hlen as [|? ? Hl Hlen'].
    assert (Happ : D ++ items_of m (c :: cs) = (D ++ items_of m [c]) ++ items_of m cs).
    { rewrite <- app_assoc. reflexivity. }
    rewrite Happ. cbn [w_esc_pass1]. change MAX_LUT_BITS with 10.
    destruct (Nat.leb_spec (c_bits c) 10) as [Hle|Hgt].
    + destruct (w_short_filled_step m t0 t off L D c (N.of_nat (c_idx c) mod W32) Hf Hc (Hl Hle) HL Ht
                  (idx_mod _ Hs)) as [t' [E Hf']].
      rewrite E. cbn [obind]. apply IH; try assumption.
      rewrite items_one. apply w_esc_ok_short; [exact He|]. rewrite codeword_length. exact Hle.
    + destruct (w_esc_ok_long m D cc c He Hc Hgt) as [cc' [E He']]. rewrite E. cbn [obind].
      apply IH; try assumption. rewrite items_one. apply short_filled_long; [exact Hf|].
      rewrite codeword_length. exact Hgt.
Qed.

Lemma w_esc_cost : forall m B cc, w_esc_ok m B cc -> (csize cc + ccost m cc = cost B)%N.
Proof.
  intros m B cc H.
  assert (G : exists us, Forall2 (fun x u => length u = 10 /\ value (reader_for m) u = fst x /\
      items_of m (b_codes (snd x)) = sub u B /\ sub u B <> [] /\ b_maxlen (snd x) = maxl (sub u B)) cc us).
  { assert (S : forall l, (forall x, In x l -> In x cc) -> exists us, Forall2 (fun x u => length u = 10 /\
      value (reader_for m) u = fst x /\ items_of m (b_codes (snd x)) = sub u B /\ sub u B <> [] /\
      b_maxlen (snd x) = maxl (sub u B)) l us).
    { induction l as [|[k b] l IH]; intros Hl; [exists []; constructor|].
      destruct IH as [us Hus]; [intros x Hx; apply Hl; right; exact Hx|].
      destruct (eo_sound _ _ _ H k b (Hl _ (or_introl eq_refl))) as [u [L [V [I [N [M _]]]]]].
      exists (u :: us). constructor; [|exact Hus]. cbn [fst snd]. repeat split; assumption. }
    apply S. intros x Hx. exact Hx. }
  destruct G as [us G].
  assert (Hus : forall u, In u us -> exists x, In x cc /\ length u = 10 /\ value (reader_for m) u = fst x /\ sub u B <> []).
  { clear -G. induction G as [|x u l us Hx G IH]; intros v Hv; [destruct Hv|]. destruct Hv as [->|Hv].
    - exists x. split; [left; reflexivity|]. destruct Hx as [H1 [H2 [_ [H3 _]]]]. repeat split; assumption.
    - destruct (IH v Hv) as [y [Hy R]]. exists y. split; [right; exact Hy|exact R]. }
  assert (ND : NoDup us).
  { pose proof (eo_nodup _ _ _ H) as ND. clear -G ND. induction G as [|x u l us Hx G IH]; constructor.
    - cbn [map] in ND. inversion_clear ND as [|? ? Hn ND']. intros Hu. apply Hn.
      destruct Hx as [_ [V _]]. rewrite <- V. clear -G Hu. induction G as [|y v l us Hy G IH]; [destruct Hu|].
      destruct Hu as [->|Hu]; [left; symmetry; apply Hy|right; apply IH; exact Hu].
    - apply IH. cbn [map] in ND. inversion_clear ND. assumption. }
  rewrite (cost_split B us ND).
  - clear -G. induction G as [|[k b] u l us Hx G IH]; [reflexivity|]. cbn [map csize ccost]. rewrite nsum_cons, <- IH.
    cbn [fst snd] in Hx. destruct Hx as [_ [_ [I [_ M]]]]. rewrite <- I. unfold bbits. rewrite M.
    unfold lbits. rewrite I. lia.
  - intros u. split.
    + intros Hu. destruct (Hus u Hu) as [x [_ [L [_ N]]]]. split; assumption.
    + intros [L N]. destruct (eo_complete _ _ _ H u L N) as [b Hb].
      clear Hus ND. induction G as [|x v l us Hx G IH]; [destruct Hb|]. destruct Hb as [->|Hb].
      * left. cbn [fst] in Hx. destruct Hx as [Lv [V _]]. apply (value_inj (reader_for m)); [lia|exact V].
      * right. revert Hb. clear -G L. induction G as [|y w l us Hy G IH]; intros Hb; [destruct Hb|].
        destruct Hb as [->|Hb]; [|right; apply IH; exact Hb].
        left. cbn [fst] in Hy. destruct Hy as [Lv [V _]]. apply (value_inj (reader_for m)); [lia|exact V].
Qed.

Definition w_bucket_ok (m : mode) (d : nat) (b : bucket) : Prop :=
  Forall (w_code_ok m) (b_codes b) /\ small_idx (b_codes b) /\
  b_maxlen b = maxl (items_of m (b_codes b)) /\ b_maxlen b <= 10 * d.

Definition w_build_ok (m : mode) (d : nat) (build : list N -> N -> bucket -> outcome (list N)) : Prop :=
  forall t key b, w_bucket_ok m d b -> b_codes b <> [] -> b_offset b + bsize b <= length t -> blank t b ->
    (N.of_nat (length t) + cost (items_of m (b_codes b)) <= 2 ^ 24)%N ->
    exists t', build t key b = Ret t' /\
      N.of_nat (length t') = (N.of_nat (length t) + cost (items_of m (b_codes b)))%N /\
      (forall q, q < length t -> ~ in_region b q -> nth_error t' q = nth_error t q) /\
      decides d false (reader_for m) t' (length t) (length t') (b_offset b) (items_of m (b_codes b)).

Definition w_build_gen (m : mode) (d : nat) (build : list N -> N -> bucket -> outcome (list N)) : Prop :=
  forall t key b, w_bucket_ok m d b -> b_codes b <> [] -> b_offset b + bsize b <= length t ->
    (N.of_nat (length t) + cost (items_of m (b_codes b)) <= 2 ^ 24)%N ->
    exists t', build t key b = Ret t' /\
      N.of_nat (length t') = (N.of_nat (length t) + cost (items_of m (b_codes b)))%N /\
      (forall q, q < length t -> ~ in_region b q -> nth_error t' q = nth_error t q) /\
      covers d false (reader_for m) t t' (length t) (length t') (b_offset b) (items_of m (b_codes b)).

Lemma w_region_items : forall m d b, w_bucket_ok m d b -> bsize b = lsize (items_of m (b_codes b)).
Proof. intros m d b [_ [_ [E _]]]. unfold bsize, bbits, lsize, lbits. rewrite E. reflexivity. Qed.

Lemma w_gen_build : forall m d build, w_build_gen m d build -> w_build_ok m d build.
Proof.
  intros m d build H t key b Hok Hne Ht Hbl H24. destruct (H t key b Hok Hne Ht H24) as [t' [E [L [F C]]]].
  exists t'. split; [exact E|]. split; [exact L|]. split; [exact F|]. apply (covers_decides _ _ _ t); [exact C|].
  intros u Lu. apply Hbl. unfold in_region. rewrite (w_region_items m d b Hok). unfold lsize. rewrite <- Lu. apply slot_bound.
Qed.

Lemma w_build_all_spec : forall m d build, w_build_ok m d build -> forall cc t lo, placed t lo cc ->
  (forall k b, In (k, b) cc -> w_bucket_ok m d b /\ b_codes b <> []) ->
  (N.of_nat (length t) + ccost m cc <= 2 ^ 24)%N ->
  exists t', build_all build t cc = Ret t' /\
    N.of_nat (length t') = (N.of_nat (length t) + ccost m cc)%N /\
    (forall q, q < length t -> (forall k b, In (k, b) cc -> ~ in_region b q) -> nth_error t' q = nth_error t q) /\
    (forall k b, In (k, b) cc ->
       decides d false (reader_for m) t' (length t) (length t') (b_offset b) (items_of m (b_codes b))).
Proof.
  intros m d build Hb. induction cc as [|[k b] cc IH]; intros t lo [ND [PR PD]] Hok H24.
  - exists t. split; [reflexivity|]. cbn [ccost]. split; [lia|]. split; [reflexivity|]. intros; contradiction.
  - cbn [ccost] in H24. cbn [build_all].
    destruct (Hok k b (or_introl eq_refl)) as [Hbo Hne]. destruct (PR k b (or_introl eq_refl)) as [Q1 [Q2 Q3]].
    destruct (Hb t k b Hbo Hne Q2 Q3 ltac:(lia)) as [t1 [E1 [L1 [F1 S1]]]]. rewrite E1. cbn [obind].
    inversion_clear ND as [|? ? Hk ND'].
    assert (Hneq : forall k' b', In (k', b') cc -> k <> k').
    { intros k' b' Hin ->. apply Hk. apply (in_map fst) in Hin. exact Hin. }
    assert (P1 : placed t1 lo cc).
    { split; [exact ND'|]. split.
      - intros k' b' Hin. destruct (PR k' b' (or_intror Hin)) as [R1 [R2 R3]]. split; [exact R1|]. split; [lia|].
        intros q Hq. rewrite F1; [apply R3; exact Hq| |].
        + unfold in_region in Hq. lia.
        + intros Hq'. exact (PD _ _ _ _ (or_introl eq_refl) (or_intror Hin) (Hneq _ _ Hin) q Hq' Hq).
      - intros k1 b1 k2 b2 I1 I2. apply (PD k1 b1 k2 b2); right; assumption. }
    destruct (IH t1 lo P1) as [t2 [E2 [L2 [F2 S2]]]].
    { intros k' b' Hin. apply (Hok k' b'). right. exact Hin. }
    { lia. }
    exists t2. split; [exact E2|]. cbn [ccost]. split; [lia|]. split.
    + intros q Hq Hnr. rewrite F2; [|lia|].
      * apply F1; [exact Hq|]. apply (Hnr k b). left. reflexivity.
      * intros k' b' Hin. apply (Hnr k' b'). right. exact Hin.
    + intros k' b' [Hin|Hin].
      * injection Hin as <- <-.
        apply (decides_frame d false (reader_for m) t1 t2 (length t) (length t1)); [exact S1| | |lia|lia].
        -- intros q Hq. rewrite <- (w_region_items m d b Hbo) in Hq. apply F2; [lia|].
           intros k' b' Hin Hr. exact (PD _ _ _ _ (or_introl eq_refl) (or_intror Hin) (Hneq _ _ Hin) q Hq Hr).
        -- intros q Hq. apply F2; [lia|]. intros k' b' Hin Hr.
           destruct (PR k' b' (or_intror Hin)) as [_ [R2 _]]. unfold in_region in Hr. lia.
      * apply (decides_frame d false (reader_for m) t2 t2 (length t1) (length t2)); [exact (S2 k' b' Hin)|reflexivity|reflexivity|lia|lia].
Qed.

Lemma w_assemble : forall top m d build, w_build_ok m d build -> forall t0 t off B cc lo,
  placed t lo cc -> prepared top m t0 t off B cc -> off + lsize B <= lo -> lo <= length t ->
  (forall k b, In (k, b) cc -> w_bucket_ok m d b /\ b_codes b <> []) ->
  (N.of_nat (length t) + ccost m cc <= 2 ^ 24)%N ->
  exists t', build_all build t cc = Ret t' /\
    N.of_nat (length t') = (N.of_nat (length t) + ccost m cc)%N /\
    (forall q, q < lo -> nth_error t' q = nth_error t q) /\
    covers (S d) top (reader_for m) t0 t' lo (length t') off B.
Proof.
  intros top m d build Hb t0 t off B cc lo HP Hpre Hoff Hlo Hok H24.
  destruct (w_build_all_spec m d build Hb cc t lo HP Hok H24) as [t' [E [L [F Sv]]]].
  assert (Hlow : forall q, q < lo -> nth_error t' q = nth_error t q).
  { intros q Hq. apply F; [lia|]. intros k b Hin Hr. destruct HP as [_ [PR _]].
    destruct (PR k b Hin) as [R1 _]. unfold in_region in Hr. lia. }
  exists t'. split; [exact E|]. split; [exact L|]. split; [exact Hlow|].
  cbn [covers]. intros u Lu.
  assert (Hsl : slot (reader_for m) off u < lo).
  { pose proof (slot_bound (reader_for m) off u) as Hsb. unfold lsize in Hoff. rewrite Lu in Hsb. lia. }
  rewrite Hlow by exact Hsl.
  destruct (Hpre u Lu) as [[Ht [w [i [Hin [Hl [Hp En]]]]]]|[[Hs [Ht [k [b [Hin [En [Hi Hm]]]]]]]|[Hs [Hn En]]]].
  - eexists. split; [exact En|]. left. split; [exact Ht|]. exists w, i. repeat split; assumption.
  - eexists. split; [exact En|]. right. left. split; [exact Hs|]. split; [exact Ht|]. exists (b_offset b).
    destruct HP as [_ [PR _]]. destruct (PR k b Hin) as [R1 [R2 _]].
    assert (Hbs : bsize b = lsize (sub u B)) by (unfold bsize, bbits, lsize, lbits; rewrite Hm; reflexivity).
    split; [exact R1|]. split; [rewrite <- Hbs; lia|].
    assert (0 < bsize b) by (unfold bsize; pose proof (pow2_pos (bbits b)); lia).
    split; [lia|]. split; [unfold bbits, lbits; rewrite Hm; reflexivity|].
    rewrite <- Hi. apply (decides_frame d false (reader_for m) t' t' (length t) (length t')); [exact (Sv k b Hin)|reflexivity|reflexivity|lia|lia].
  - destruct (nth_error t (slot (reader_for m) off u)) as [x|] eqn:Ex.
    + exists x. split; [reflexivity|]. right. right. split; [symmetry; exact En|]. split; assumption.
    + apply nth_error_None in Ex. lia.
Qed.

Lemma w_sub_bucket_ok : forall m d B cc k b b', w_esc_ok m B cc ->
  (forall w i, In (w, i) B -> (N.of_nat i < 2 ^ 24)%N) -> maxl B <= 10 * S d ->
  In (k, b) cc -> b_maxlen b' = b_maxlen b -> b_codes b' = b_codes b -> w_bucket_ok m d b' /\ b_codes b' <> [].
Proof.
  intros m d B cc k b b' He Hidx Hmax Hin Hm Hc.
  destruct (eo_sound _ _ _ He k b Hin) as [u [Lu [Ek [Hi [Hne [Hml Hok]]]]]]. unfold w_bucket_ok.
  rewrite Hc, Hm. rewrite Hi, Hml. split.
  - split; [exact Hok|]. split.
    + unfold small_idx. apply Forall_forall. intros c Hcin.
      assert (Hx : In (codeword m (c_code c) (c_bits c), c_idx c) (items_of m (b_codes b))).
      { unfold items_of. apply in_map_iff. exists c. split; [reflexivity|exact Hcin]. }
      rewrite Hi in Hx. apply sub_in in Hx. destruct Hx as [_ [_ Hx]]. apply (Hidx _ _ Hx).
    + split; [reflexivity|]. pose proof (maxl_sub u B). lia.
  - intros E. apply Hne. rewrite <- Hi, E. reflexivity.
Qed.

Lemma w_build_esc_ok : forall m ord, permuting ord -> forall d path,
  w_build_gen m d (fun t key b => w_build_esc_lut d ord path t m b) /\
  w_build_gen m d (fun t key b => w_build_esc_lut d ord (key :: path) t m b).
Proof.
  intros m ord Hord. 
  assert (G : forall d path t b, w_bucket_ok m d b -> b_codes b <> [] -> b_offset b + bsize b <= length t ->
    (N.of_nat (length t) + cost (items_of m (b_codes b)) <= 2 ^ 24)%N ->
    exists t', w_build_esc_lut d ord path t m b = Ret t' /\
      N.of_nat (length t') = (N.of_nat (length t) + cost (items_of m (b_codes b)))%N /\
      (forall q, q < length t -> ~ in_region b q -> nth_error t' q = nth_error t q) /\
      covers d false (reader_for m) t t' (length t) (length t') (b_offset b) (items_of m (b_codes b))).
  2:{ intros d path. split; intros t key b; apply G. }
  induction d as [|d IH]; intros path t b Hok Hne Ht H24.
  - exfalso. destruct Hok as [Hco [_ [Hm Hd]]]. destruct (b_codes b) as [|c cs]; [congruence|].
    inversion_clear Hco as [|? ? [Hc _] _]. cbn [items_of map maxl] in Hm. rewrite codeword_length in Hm. lia.
  - cbn [w_build_esc_lut]. pose proof Hok as Hok0. destruct Hok as [Hco [Hsm [Hm Hd]]].
    set (B := items_of m (b_codes b)) in *. change MAX_LUT_BITS with 10. fold (bbits b).
    assert (HbL : bbits b = lbits B) by (unfold bbits, lbits; rewrite Hm; reflexivity).
    assert (Hsz : bsize b = lsize B) by (unfold bsize, lsize; rewrite HbL; reflexivity).
    assert (Hidx : forall w i, In (w, i) B -> (N.of_nat i < 2 ^ 24)%N) by (apply items_idx; exact Hsm).
    destruct (w_esc_pass1_spec m (b_offset b) (bbits b) t (b_codes b) t [] [] Hco Hsm) as [t1 [cc [E1 [Hf He]]]].
    + apply Forall_forall. intros c Hin Hle. rewrite HbL. unfold lbits.
      assert (In (codeword m (c_code c) (c_bits c), c_idx c) B).
      { unfold B, items_of. apply in_map_iff. exists c. split; [reflexivity|exact Hin]. }
      apply maxl_in in H. rewrite codeword_length in H. lia.
    + unfold bbits. lia.
    + exact Ht.
    + split; [reflexivity|]. split; [reflexivity|]. intros u Lu. right. split; [intros; contradiction|reflexivity].
    + apply w_esc_ok_nil.
    + rewrite E1. cbn [obind app] in *. fold B in Hf, He. clear E1.
      destruct Hf as [Lt1 [Hout Hent]]. change (N.to_nat (pow2 (bbits b))) with (bsize b) in Hout.
      pose proof (w_esc_cost _ _ _ He) as HC.
      pose proof (csize_perm _ _ (Hord path cc)) as Hlen.
      assert (Hmax10 : cc <> [] -> 10 < maxl B).
      { intros Hcc. destruct cc as [|[k0 b0] cc0]; [congruence|].
        destruct (eo_sound _ _ _ He k0 b0 (or_introl eq_refl)) as [u [_ [_ [_ [Hs _]]]]].
        apply in_sub_long in Hs. apply Hs. }
      destruct (esc_pass2_spec m (b_offset b) (ord path cc) t1) as [t2 [cc2 [E2 [L2 [_ [P2 [K2 [S2 F2]]]]]]]].
      * apply (Permutation_NoDup (Permutation_map fst (Hord path cc))). apply He.
      * apply Forall_forall. intros [k0 b0] Hin. apply (Permutation_in _ (Permutation_sym (Hord path cc))) in Hin.
        destruct (eo_sound _ _ _ He k0 b0 Hin) as [u [Lu [Ek _]]]. exists u. split; [exact Lu|exact Ek].
      * intros Hcc. assert (Hcc' : cc <> []).
        { intros ->. apply Hcc. apply Permutation_nil. apply Hord. }
        specialize (Hmax10 Hcc'). rewrite (pow2_lsize B Hmax10) in Hsz. lia.
      * lia.
      * rewrite E2. cbn [obind]. clear E2.
        assert (Hback : forall k b', In (k, b') cc2 -> exists b0, In (k, b0) cc /\ b_maxlen b' = b_maxlen b0 /\ b_codes b' = b_codes b0).
        { intros k b' Hin. destruct (S2 k b' Hin) as [[b0 [I0 R0]] _]. exists b0. split; [|exact R0].
          apply (Permutation_in _ (Permutation_sym (Hord path cc)) I0). }
        assert (Hcc2 : ccost m cc2 = ccost m cc).
        { rewrite (ccost_perm m _ _ (Hord path cc)). clear -K2 S2 P2.
          assert (Hc : forall k b', In (k, b') cc2 -> exists b0, In (k, b0) (ord path cc) /\ b_codes b' = b_codes b0).
          { intros k b' Hin. destruct (S2 k b' Hin) as [[b0 [I0 [_ R0]]] _]. exists b0. split; assumption. }
          destruct P2 as [ND _]. rewrite K2 in ND. clear S2. revert K2 Hc ND. generalize (ord path cc) as l.
          induction cc2 as [|[k b'] cc2 IH]; intros [|[k0 b0] l] HK Hc ND; try discriminate; [reflexivity|].
          cbn [map fst] in HK, ND. injection HK as <- HK. cbn [ccost]. inversion_clear ND as [|? ? Hn ND'].
          f_equal.
          - destruct (Hc k b' (or_introl eq_refl)) as [b1 [[I1|I1] E]].
            + apply pair_equal_spec in I1. destruct I1 as [_ <-]. rewrite E. reflexivity.
            + exfalso. apply Hn. apply (in_map fst) in I1. exact I1.
          - apply IH; [exact HK| |exact ND'].
            intros k' b1 Hin. destruct (Hc k' b1 (or_intror Hin)) as [b2 [[I1|I1] E]].
            + exfalso. apply Hn. apply pair_equal_spec in I1. destruct I1 as [-> _]. rewrite <- HK.
              apply (in_map fst) in Hin. exact Hin.
            + exists b2. split; assumption. }
        assert (Hprep : prepared false m t t2 (b_offset b) B cc2).
        { intros u Lu. destruct (sub u B) eqn:Es.
          - (* no escape at u *)
            assert (Hun : nth_error t2 (slot (reader_for m) (b_offset b) u) = nth_error t1 (slot (reader_for m) (b_offset b) u)).
            { apply F2.
              - pose proof (slot_bound (reader_for m) (b_offset b) u) as Hsb. rewrite Lu in Hsb. unfold lsize in Hsz. lia.
              - intros k Hin Heq. apply in_map_iff in Hin. destruct Hin as [[k0 b0] [<- Hin]]. cbn [fst] in Heq.
                apply (Permutation_in _ (Permutation_sym (Hord path cc))) in Hin.
                destruct (eo_sound _ _ _ He k0 b0 Hin) as [v [Lv [Ev [_ [Hs _]]]]].
                assert (u = v).
                { apply (value_inj (reader_for m)); [|unfold slot in Heq; lia].
                  apply in_sub_long in Hs. unfold lbits in Lu. lia. }
                subst v. congruence. }
            rewrite Hun. rewrite HbL in Hent. destruct (Hent u Lu) as [[w [i [Hin [Hl [Hp En]]]]]|[Hn En]].
            + left. split; [intros _; reflexivity|]. exists w, i. split; [exact Hin|]. split; [exact Hl|]. split; assumption.
            + right. right. split; [reflexivity|]. split; assumption.
          - right. left. split; [discriminate|]. split; [discriminate|].
            assert (Hs : sub u B <> []) by (rewrite Es; discriminate).
            destruct (in_sub_long u B Hs) as [_ Lu10].
            destruct (eo_complete _ _ _ He u Lu10 Hs) as [b0 Hin0].
            assert (Hkin : In (value (reader_for m) u) (map fst cc2)).
            { rewrite K2. apply (Permutation_in _ (Permutation_map fst (Hord path cc))).
              apply (in_map fst) in Hin0. exact Hin0. }
            apply in_map_iff in Hkin. destruct Hkin as [[k b'] [Ek Hin]]. cbn [fst] in Ek. subst k.
            exists (value (reader_for m) u), b'. split; [exact Hin|].
            destruct (S2 _ _ Hin) as [_ En]. split; [exact En|].
            destruct (Hback _ _ Hin) as [b1 [I1 [M1 C1]]]. rewrite C1, M1.
            destruct (eo_sound _ _ _ He _ _ I1) as [v [Lv [Ev [Hiv [_ [Hmv _]]]]]].
            assert (v = u) by (apply (value_inj (reader_for m)); [lia|exact Ev]). subst v.
            rewrite <- Es. split; assumption. }
        destruct (w_assemble false m d (fun t0 key b' => w_build_esc_lut d ord (key :: path) t0 m b')) with
          (t0 := t) (t := t2) (off := b_offset b) (B := B) (cc := cc2) (lo := length t1) as [t3 [E3 [L3 [F3 S3]]]].
        -- apply w_gen_build. intros t0 key b'. apply IH.
        -- exact P2.
        -- exact Hprep.
        -- rewrite <- Hsz. lia.
        -- lia.
        -- intros k b' Hin. destruct (Hback k b' Hin) as [b0 [I0 [M0 C0]]].
           apply (w_sub_bucket_ok m d B cc k b0 b' He Hidx ltac:(lia) I0 M0 C0).
        -- rewrite Hcc2. lia.
        -- exists t3. split; [exact E3|]. rewrite Hcc2 in L3. split; [lia|]. split.
           ++ intros q Hq Hnr. rewrite F3 by lia. rewrite F2; [|lia|].
              ** apply Hout. exact Hnr.
              ** intros k Hin Heq. apply Hnr. apply in_map_iff in Hin. destruct Hin as [[k0 b0] [<- Hin]]. cbn [fst] in Heq.
                 apply (Permutation_in _ (Permutation_sym (Hord path cc))) in Hin.
                 destruct (eo_sound _ _ _ He k0 b0 Hin) as [v [Lv [Ev [_ [Hs _]]]]].
                 pose proof (slot_bound (reader_for m) (b_offset b) v) as Hsb. unfold slot in Hsb. rewrite Ev, Lv in Hsb.
                 change (N.to_nat (pow2 10)) with 1024 in Hsb. unfold in_region. rewrite Hsz, pow2_lsize; [lia|].
                 apply in_sub_long in Hs. apply Hs.
           ++ rewrite <- Lt1. exact S3.
Qed.

Lemma w_number_ok : forall (S : Type) m (ds : list (desc S)) k, w_codes_fit m ds -> Forall (w_code_ok m) (number k ds).
Proof.
  intros S m ds. induction ds as [|d ds IH]; intros k H; cbn [number]; [constructor|].
  assert (H' : w_codes_fit m ds) by (intros d' Hin; apply H; right; exact Hin).
  destruct (Nat.eqb_spec (d_bits d) 0); [apply IH; exact H'|]. constructor; [|apply IH; exact H'].
  destruct (H d (or_introl eq_refl)) as [H1 H2]; [unfold used; lia|]. split; cbn [c_bits c_code]; [lia|exact H2].
Qed.

Lemma w_new_pass1_zero : forall (S : Type) m (ds : list (desc S)) mb k cc mb' cc', w_new_pass1 m ds mb k cc = Ret (mb', cc') ->
  (forall k b, In (k, b) cc -> b_offset b = 0) -> forall k b, In (k, b) cc' -> b_offset b = 0.
Proof.
  intros S m. induction ds as [|d ds IH]; intros mb k cc mb' cc' H Hz; cbn [w_new_pass1] in H.
  - injection H as _ <-. exact Hz.
  - destruct (MAX_LUT_BITS <? d_bits d).
    + unfold w_add_long_code in H. destruct (w_extract_lut_part _ _ _ _) as [ckey| |]; try discriminate. cbn [obind] in H.
      destruct (w_extract_esc_part _ _ _ _) as [cval| |]; try discriminate. cbn [obind] in H.
      destruct (csub _ _) as [rest| |]; try discriminate. cbn [obind] in H.
      apply (IH _ _ _ _ _ H). apply add_esc_zero. exact Hz.
    + cbn [obind] in H. apply (IH _ _ _ _ _ H Hz).
Qed.

Lemma w_new_pass1_spec : forall (S : Type) m (ds : list (desc S)) mb k D cc, w_codes_fit m ds -> w_esc_ok m D cc ->
  exists cc', w_new_pass1 m ds mb k cc = Ret (Nat.max mb (maxl (items_of m (number k ds))), cc') /\
    w_esc_ok m (D ++ items_of m (number k ds)) cc'.
Proof.
  intros S m ds. induction ds as [|d ds IH]; intros mb k D cc Hfit He; cbn [w_new_pass1 number].
  - exists cc. cbn [items_of map maxl]. rewrite app_nil_r. split; [f_equal; f_equal; lia|exact He].
  - assert (Hfit' : w_codes_fit m ds) by (intros d' Hin; apply Hfit; right; exact Hin).
    change MAX_LUT_BITS with 10. destruct (Nat.eqb_spec (d_bits d) 0) as [E|E].
    + rewrite E. cbn [Nat.ltb Nat.leb obind Nat.max]. apply IH; assumption.
    + destruct (Nat.ltb_spec 0 (d_bits d)); [|lia].
      destruct (Hfit d (or_introl eq_refl)) as [H1 H2]; [unfold used; lia|].
      set (c := mk_code (d_code d) (d_bits d) k).
      assert (Hc : w_code_ok m c) by (split; cbn; [lia|exact H2]).
      assert (Happ : D ++ items_of m (c :: number (k + 1) ds) = (D ++ items_of m [c]) ++ items_of m (number (k + 1) ds)).
      { rewrite <- app_assoc. reflexivity. }
      assert (Hmx : maxl (items_of m (c :: number (k + 1) ds)) = Nat.max (d_bits d) (maxl (items_of m (number (k + 1) ds)))).
      { rewrite items_cons. cbn [maxl]. rewrite codeword_length. reflexivity. }
      rewrite Happ, Hmx.
      destruct (Nat.ltb_spec 10 (d_bits d)) as [Hl|Hs].
      * destruct (w_esc_ok_long m D cc c He Hc Hl) as [cc' [E1 He']]. rewrite E1. cbn [obind].
        destruct (IH (Nat.max (d_bits d) mb) (k + 1) _ cc' Hfit' He') as [cc2 [E2 He2]].
        exists cc2. split; [rewrite E2; f_equal; f_equal; lia|exact He2].
      * cbn [obind]. assert (He' : w_esc_ok m (D ++ items_of m [c]) cc).
        { rewrite items_one. apply w_esc_ok_short; [exact He|]. rewrite codeword_length. exact Hs. }
        destruct (IH (Nat.max (d_bits d) mb) (k + 1) _ cc Hfit' He') as [cc2 [E2 He2]].
        exists cc2. split; [rewrite E2; f_equal; f_equal; lia|exact He2].
Qed.

Lemma w_new_pass2_spec : forall (S : Type) m (ds : list (desc S)) B cc0 D t cc,
  w_codes_fit m ds -> (forall w i, In (w, i) B -> (N.of_nat i < 2 ^ 24)%N) -> w_esc_ok m B cc0 -> 1 <= maxl B -> (N.of_nat (length D + length (words m ds)) <= 2 ^ 24)%N ->
  B = D ++ items_of m (number (length D) ds) -> (pow2 (lbits B) + cost B <= 2 ^ 24)%N ->
  pass2_inv m B cc0 D t cc ->
  exists t' cc', w_new_pass2 t m (lbits B) ds (N.of_nat (length D)) cc = Ret (t', cc') /\ pass2_inv m B cc0 B t' cc'.
Proof.
  intros S m ds. induction ds as [|d ds IH]; intros B cc0 D t cc Hfit Hidx He0 Hmax1 H24 HB HC HI.
  - cbn [number items_of map] in HB. rewrite app_nil_r in HB. subst D. exists t, cc. split; [reflexivity|exact HI].
  - assert (Hfit' : w_codes_fit m ds) by (intros d' Hin; apply Hfit; right; exact Hin).
    cbn [number] in HB. cbn [w_new_pass2] in *. change MAX_LUT_BITS with 10.
    unfold words in H24. cbn [filter] in H24.
    destruct (Nat.eqb_spec (d_bits d) 0) as [E|E]; destruct (Nat.ltb_spec 0 (d_bits d)) as [Hpos|Hpos]; try lia.
    { apply (IH B cc0 D); assumption. }
    cbn [map length] in H24. fold (words m ds) in H24.
    destruct (Hfit d (or_introl eq_refl)) as [Hb32 Hcode]; [unfold used; lia|].
    set (c := mk_code (d_code d) (d_bits d) (length D)) in *.
    assert (Hc : w_code_ok m c) by (split; cbn; [lia|exact Hcode]).
    set (D' := D ++ items_of m [c]).
    assert (LD' : length D' = length D + 1) by (unfold D'; rewrite app_length; reflexivity).
    assert (HB' : B = D' ++ items_of m (number (length D') ds)).
    { rewrite LD'. unfold D'. rewrite <- app_assoc. exact HB. }
    assert (Hsym : add32 (N.of_nat (length D)) 1 = Ret (N.of_nat (length D'))).
    { rewrite add32_small; [f_equal; lia|]. change (2 ^ 24)%N with 16777216%N in H24. change (pow2 32) with 4294967296%N. lia. }
    set (w := codeword m (d_code d) (d_bits d)).
    assert (Lw : length w = d_bits d) by apply codeword_length.
    assert (HD' : D' = D ++ [(w, length D)]) by reflexivity.
    assert (HinB : In (w, length D) B).
    { rewrite HB'. apply in_or_app. left. rewrite HD'. apply in_or_app. right. left. reflexivity. }
    assert (HDB : forall x, In x D -> In x B).
    { intros x Hx. rewrite HB. apply in_or_app. left. exact Hx. }
    assert (HsubB : forall u, sub u D <> [] -> sub u B <> []).
    { intros u Hs Hn. apply Hs. rewrite HB in Hn. apply sub_app_nil in Hn. exact Hn. }
    assert (HD'B : forall x, In x D' -> In x B).
    { intros x Hx. rewrite HB'. apply in_or_app. left. exact Hx. }
    assert (HsubB' : forall u, sub u D' <> [] -> sub u B <> []).
    { intros u Hs Hn. apply Hs. rewrite HB' in Hn. apply sub_app_nil in Hn. exact Hn. }
    pose proof (maxl_in _ _ _ HinB) as HmB.
    assert (NDcc : NoDup (map fst cc)) by (rewrite (p2_keys _ _ _ _ _ _ HI); apply He0).
    destruct (p2_done _ _ _ _ _ _ HI) as [A [NDA [HA [HAu HAt]]]].
    assert (Hlow : (lsize B <= length t)%nat) by (unfold lsize; lia).
    assert (Htop : (N.of_nat (length t) <= 2 ^ 24)%N).
    { pose proof (nsum_incl (key_size cc0) A _ NDA HA) as Hsum.
      rewrite key_sizes in Hsum by apply He0. pose proof (w_esc_cost _ _ _ He0). lia. }
    assert (Hreg : forall u, length u = lbits B -> slot (reader_for m) 0 u < lsize B).
    { intros u Lu. pose proof (slot_bound (reader_for m) 0 u). unfold lsize. rewrite <- Lu. lia. }
    assert (Hstep : exists t1 cc1,
       (if d_bits d <=? 10 then
            let! t0 := fill_lut t m 0 (d_code d) (d_bits d) (lbits B) (N.of_nat (length D)) false in Ret (t0, cc)
          else
            let! ckey := w_extract_lut_part (d_code d) (d_bits d) 10 m in
            let! x := index_at t (N.to_nat ckey) in
            if (x =? TABLE_FILL_VALUE)%N then
              match find_bucket cc ckey with
              | Some b =>
                  let! (t0, b') := alloc_bucket t m 0 ckey b in
                  Ret (t0, set_bucket cc ckey b')
              | None => Ret (t, cc)
              end
            else Ret (t, cc)) = Ret (t1, cc1) /\ pass2_inv m B cc0 D' t1 cc1).
    2:{ destruct Hstep as [t1 [cc1 [E1 HI1]]]. rewrite E1. cbn [obind]. rewrite Hsym. cbn [obind].
        apply (IH B cc0 D'); try assumption. lia. }
    destruct (Nat.leb_spec (d_bits d) 10) as [Hsh|Hlg].
    + (* a short code *)
      destruct (fill_short_spec m t 0 (d_code d) (d_bits d) (lbits B) (N.of_nat (length D)))
        as [t' [Ef [Lt' [Hyes [Hno Hrest]]]]].
      { unfold lbits. lia. } { unfold lbits. lia. } { exact Hcode. } { unfold lsize in Hlow. lia. }
      rewrite Ef. cbn [obind]. exists t', cc. split; [reflexivity|].
      assert (Hsub : forall u, sub u D' = sub u D).
      { intros u. rewrite HD', sub_app, sub_short by lia. apply app_nil_r. }
      assert (Hown : forall u, length u = 10 -> own u D' = own u D).
      { intros u Lu. rewrite HD', own_snoc. cbn [fst]. rewrite (proj2 (Nat.ltb_ge 10 (length w))), andb_false_r by lia.
        destruct (find (touch u) D) eqn:Ef'; [reflexivity|]. symmetry. apply own_none. exact Ef'. }
      assert (Hhigh : forall q, lsize B <= q -> nth_error t' q = nth_error t q).
      { intros q Hq. apply Hrest. unfold lsize in Hq. lia. }
      constructor.
      * exists A. split; [exact NDA|]. split; [exact HA|]. split; [|rewrite Lt'; exact HAt].
        intros u Lu. rewrite Hown by exact Lu. apply HAu. exact Lu.
      * apply HI.
      * apply HI.
      * intros u Lu. destruct (prefix_dec w u) as [Hp|Hp].
        -- left. exists w, (length D). split; [rewrite HD'; apply lastin_end|].
           split; [lia|]. split; [exact Hp|]. rewrite Lw. apply Hyes; assumption.
        -- rewrite (Hno u Lu Hp). rewrite Hsub.
           assert (Hns : no_short u D -> no_short u D').
           { intros Hn w' i' Hi. rewrite HD' in Hi.
             apply in_app_or in Hi. destruct Hi as [Hi|[Hi|[]]]; [apply (Hn _ _ Hi)|].
             apply pair_equal_spec in Hi. destruct Hi as [<- _]. intros _. exact Hp. }
           destruct (p2_entries _ _ _ _ _ _ HI u Lu) as [[w' [i' [Hi R]]]|[[Hs [Hn R]]|[Hs [Hn En]]]].
           ++ left. exists w', i'. split; [rewrite HD'; apply lastin_more; [exact Hi|intros _; exact Hp]|exact R].
           ++ right. left. split; [exact Hs|]. split; [apply Hns; exact Hn|exact R].
           ++ right. right. split; [exact Hs|]. split; [apply Hns; exact Hn|exact En].
      * intros u b Lu Hs. rewrite (Hown u Lu) in Hs. apply (p2_zero _ _ _ _ _ _ HI u b Lu Hs).
      * intros u b Lu Hs Hi. rewrite (Hown u Lu) in Hs. destruct (p2_alloc _ _ _ _ _ _ HI u b Lu Hs Hi) as [Ho1 [Ho2 Hbl]].
        split; [exact Ho1|]. split; [lia|]. intros q Hq. rewrite Hhigh; [apply Hbl; exact Hq|]. unfold in_region in Hq. lia.
      * intros u1 u2 b1 b2 L1 L2 Hne S1 S2. rewrite (Hown u1 L1) in S1. rewrite (Hown u2 L2) in S2.
        apply (p2_disjoint _ _ _ _ _ _ HI u1 u2); assumption.
    + (* a long code *)
      rewrite (w_extract_lut_spec m (d_code d) (d_bits d) ltac:(lia) Hcode). cbn [obind]. fold w.
      set (u0 := firstn 10 w). assert (Lu0 : length u0 = 10) by (unfold u0; rewrite firstn_length; lia).
      assert (HL10 : lbits B = 10) by (unfold lbits; lia).
      assert (Hsz : lsize B = 1024) by (unfold lsize; rewrite HL10; reflexivity).
      assert (Hs0 : sub u0 D' <> []).
      { rewrite HD', sub_app, sub_long by lia. fold u0. rewrite (proj2 (bits_eqb_true u0 u0) eq_refl).
        intros Hn. apply app_eq_nil in Hn. destruct Hn as [_ Hn]. discriminate. }
      assert (Hs1 : forall u, u <> u0 -> sub u D' = sub u D).
      { intros u Hne. rewrite HD', sub_app, sub_long by lia. fold u0.
        destruct (bits_eqb u0 u) eqn:Eb; [apply bits_eqb_true in Eb; congruence|apply app_nil_r]. }
      assert (Hsl0 : N.to_nat (value (reader_for m) u0) = slot (reader_for m) 0 u0) by reflexivity.
      assert (Hown1 : forall u, length u = 10 -> u <> u0 -> own u D' = own u D).
      { intros u Lu Hne. rewrite HD', own_snoc. destruct (touch u (w, length D)) eqn:T.
        - apply (touch_long u w (length D) Lu ltac:(lia)) in T. exfalso. apply Hne. symmetry. exact T.
        - cbn [andb]. destruct (find (touch u) D) eqn:Ef'; [reflexivity|]. symmetry. apply own_none. exact Ef'. }
      (* entries for strings other than [u0] carry over whenever nothing was overwritten *)
      assert (Hold : forall w' i', In (w', i') D' -> length w' <= 10 -> In (w', i') D).
      { intros w' i' Hi Hl. rewrite HD' in Hi. apply in_app_or in Hi. destruct Hi as [Hi|[Hi|[]]]; [exact Hi|].
        apply pair_equal_spec in Hi. destruct Hi as [<- _]. lia. }
      assert (Hnew : forall w' i' u, lastin w' i' u D -> lastin w' i' u D').
      { intros w' i' u Hi. rewrite HD'. apply lastin_more; [exact Hi|lia]. }
      assert (Hns : forall u, no_short u D -> no_short u D').
      { intros u Hn w' i' Hi' Hl'. apply (Hn w' i' (Hold _ _ Hi' Hl') Hl'). }
      assert (Hcase : (find (touch u0) D <> None /\ exists x, nth_error t (slot (reader_for m) 0 u0) = Some x /\ (x =? TABLE_FILL_VALUE)%N = false) \/
                      (sub u0 D = [] /\ no_short u0 D /\ nth_error t (slot (reader_for m) 0 u0) = Some TABLE_FILL_VALUE)).
      { destruct (p2_entries _ _ _ _ _ _ HI u0 ltac:(lia)) as [[w' [i' [Hi [Hl' [Hp' En]]]]]|[[Hs [Hn [b [Hi En]]]]|[Hs [Hn En]]]].
        - left. pose proof (lastin_in _ _ _ _ Hi) as HiD. split.
          + intros Hn. apply (untouched u0 D Lu0) in Hn. destruct Hn as [_ Hn]. exact (Hn w' i' HiD Hl' Hp').
          + eexists. split; [exact En|]. apply (lut_entry_fields (N.of_nat i') (length w')); [|exact Hl'].
            apply (Hidx w'). apply HDB. exact HiD.
        - left. split; [intros Hf; apply (untouched u0 D Lu0) in Hf; destruct Hf; congruence|]. eexists. split; [exact En|].
          destruct (p2_alloc _ _ _ _ _ _ HI u0 b Lu0 (own_of u0 D Lu0 Hs Hn) Hi) as [Ho1 [Ho2 _]].
          assert (0 < bsize b) by (unfold bsize; pose proof (pow2_pos (bbits b)); lia).
          apply (esc_entry_fields (N.of_nat (b_offset b)) (bbits b)); [lia|unfold bbits; lia].
        - right. split; [exact Hs|]. split; [exact Hn|exact En]. }
      destruct Hcase as [[Hs [x [En Fx]]]|[Hs [Hn En]]].
      * (* the entry is taken *)
        rewrite Hsl0, (index_nth _ _ _ _ En). cbn [obind]. rewrite Fx.
        exists t, cc. split; [reflexivity|].
        assert (Hown : forall u, length u = 10 -> own u D' = own u D).
        { intros u Lu. destruct (list_eq_dec bool_dec u u0) as [->|Hne]; [|apply Hown1; assumption].
          rewrite HD', own_snoc. destruct (find (touch u0) D); [reflexivity|congruence]. }
        assert (Hsubm : forall u, sub u D <> [] -> sub u D' <> []).
        { intros u Hsu Hn. apply Hsu. rewrite HD' in Hn. apply sub_app_nil in Hn. exact Hn. }
        constructor.
        -- exists A. split; [exact NDA|]. split; [exact HA|]. split; [|exact HAt].
           intros u Lu. rewrite (Hown u Lu). apply HAu. exact Lu.
        -- apply HI.
        -- apply HI.
        -- intros u Lu. destruct (p2_entries _ _ _ _ _ _ HI u Lu) as [[w' [i' [Hi' R]]]|[[Hsu [Hnu R]]|[Hsu [Hnu R]]]].
           ++ left. exists w', i'. split; [apply Hnew; exact Hi'|exact R].
           ++ right. left. split; [apply Hsubm; exact Hsu|]. split; [apply Hns; exact Hnu|exact R].
           ++ right. right. assert (Hne : u <> u0) by (intros ->; apply Hs; apply (untouched u0 D Lu0); split; assumption).
              rewrite (Hs1 u Hne). split; [exact Hsu|]. split; [apply Hns; exact Hnu|exact R].
        -- intros u b Lu Hsu. rewrite (Hown u Lu) in Hsu. apply (p2_zero _ _ _ _ _ _ HI u b Lu Hsu).
        -- intros u b Lu Hsu Hi. rewrite (Hown u Lu) in Hsu. apply (p2_alloc _ _ _ _ _ _ HI u b Lu Hsu Hi).
        -- intros u1 u2 b1 b2 L1 L2 Hne S1 S2. rewrite (Hown u1 L1) in S1. rewrite (Hown u2 L2) in S2.
           apply (p2_disjoint _ _ _ _ _ _ HI u1 u2); assumption.
      * (* first code of its bucket *)
        rewrite Hsl0, (index_nth _ _ _ _ En). cbn [obind]. rewrite N.eqb_refl.
        assert (Hno0 : own u0 D = false) by (apply own_none; apply (untouched u0 D Lu0); split; assumption).
        assert (Ho0 : own u0 D' = true).
        { rewrite HD', own_snoc. rewrite (proj2 (untouched u0 D Lu0) (conj Hs Hn)). cbn [fst].
          rewrite (proj2 (touch_long u0 w (length D) Lu0 ltac:(lia)) eq_refl), (proj2 (Nat.ltb_lt 10 (length w))) by lia. reflexivity. }
        destruct (eo_complete _ _ _ He0 u0 Lu0 (HsubB' u0 Hs0)) as [b00 Hin00].
        assert (Hkin : In (value (reader_for m) u0) (map fst cc)).
        { rewrite (p2_keys _ _ _ _ _ _ HI). apply (in_map fst) in Hin00. exact Hin00. }
        pose proof Hkin as Hkin'. apply in_map_iff in Hkin'. destruct Hkin' as [[k b] [Ek Hin]]. cbn [fst] in Ek. subst k.
        rewrite (find_in cc _ b NDcc Hin).
        assert (HkA : ~ In (value (reader_for m) u0) A).
        { intros HkA. apply (HAu u0 Lu0) in HkA. congruence. }
        assert (NDA' : NoDup (value (reader_for m) u0 :: A)) by (constructor; assumption).
        assert (HA' : incl (value (reader_for m) u0 :: A) (map fst cc0)).
        { intros x [<-|Hx]; [apply (in_map fst) in Hin00; exact Hin00|apply HA; exact Hx]. }
        assert (Hks : key_size cc0 (value (reader_for m) u0) = pow2 (bbits b)).
        { destruct (p2_back _ _ _ _ _ _ HI _ _ Hin) as [b0 [I0 [M0 C0]]]. unfold key_size.
          rewrite (find_in cc0 _ b0 (eo_nodup _ _ _ He0) I0). unfold bbits. rewrite M0. reflexivity. }
        assert (Hroom : (N.of_nat (length t) + pow2 (bbits b) <= 2 ^ 24)%N).
        { pose proof (nsum_incl (key_size cc0) _ _ NDA' HA') as Hsum. cbn [map] in Hsum.
          rewrite nsum_cons, key_sizes, Hks in Hsum by apply He0. pose proof (w_esc_cost _ _ _ He0). lia. }
        pose proof (pow2_pos (bbits b)) as Hppos.
        destruct (alloc_spec m t 0 u0 b Lu0 ltac:(lia)) as [t1 [b1 [Ea [M1 [C1 [O1 [L1 [B1 [N1 F1]]]]]]]]].
        { lia. }
        rewrite Ea. cbn [obind]. eexists. eexists. split; [reflexivity|].
        pose proof (bsize_le b1) as Hb1.
        pose proof (set_bucket_in cc (value (reader_for m) u0) b1 NDcc Hkin) as Hset.
        assert (Hvne : forall u, length u = 10 -> u <> u0 -> value (reader_for m) u <> value (reader_for m) u0).
        { intros u Lu Hne Heq. apply Hne. apply (value_inj (reader_for m)); [lia|exact Heq]. }
        (* allocated buckets of other strings lie below the old end *)
        assert (Holdb : forall u b', length u = 10 -> u <> u0 -> own u D = true -> In (value (reader_for m) u, b') cc ->
                  b_offset b' + bsize b' <= length t).
        { intros u b' Lu Hne Hsu Hi. apply (p2_alloc _ _ _ _ _ _ HI u b' Lu Hsu Hi). }
        constructor.
        -- exists (value (reader_for m) u0 :: A). split; [exact NDA'|]. split; [exact HA'|]. split.
           ++ intros u Lu. destruct (list_eq_dec bool_dec u u0) as [->|Hne].
              ** split; [intros _; exact Ho0|left; reflexivity].
              ** rewrite (Hown1 u Lu Hne). rewrite <- (HAu u Lu). cbn [In]. split.
                 { intros [Hv|Hv]; [symmetry in Hv; apply (Hvne u Lu Hne) in Hv; contradiction|exact Hv]. }
                 { intros Hv. right. exact Hv. }
           ++ cbn [map]. rewrite nsum_cons, Hks, L1. pose proof (bsize_pow b1) as Hb1p.
              assert (Hbb : bbits b1 = bbits b) by (unfold bbits; rewrite M1; reflexivity). rewrite Hbb in Hb1p. lia.
        -- rewrite set_bucket_keys. apply HI.
        -- intros k' b' Hi'. apply Hset in Hi'. destruct Hi' as [[-> ->]|[_ Hi']].
           ++ destruct (p2_back _ _ _ _ _ _ HI _ _ Hin) as [b0 [I0 [M0 C0]]]. exists b0. split; [exact I0|]. split; congruence.
           ++ apply (p2_back _ _ _ _ _ _ HI _ _ Hi').
        -- intros u Lu. destruct (list_eq_dec bool_dec u u0) as [->|Hne].
           ++ right. left. split; [exact Hs0|]. split; [apply Hns; exact Hn|].
              exists b1. split; [apply Hset; left; split; reflexivity|exact N1].
           ++ assert (Hun : nth_error t1 (slot (reader_for m) 0 u) = nth_error t (slot (reader_for m) 0 u)).
              { apply F1; [specialize (Hreg u Lu); lia|]. intros Heq. apply Hne. apply (slot_inj (reader_for m) 0); [lia|exact Heq]. }
              rewrite Hun, (Hs1 u Hne).
              destruct (p2_entries _ _ _ _ _ _ HI u Lu) as [[w' [i' [Hi' R]]]|[[Hsu [Hnu [b2 [Hi2 En2]]]]|[Hsu [Hnu R]]]].
              ** left. exists w', i'. split; [apply Hnew; exact Hi'|exact R].
              ** right. left. split; [exact Hsu|]. split; [apply Hns; exact Hnu|]. exists b2. split; [|exact En2].
                 apply Hset. right. split; [apply Hvne; [lia|exact Hne]|exact Hi2].
              ** right. right. split; [exact Hsu|]. split; [apply Hns; exact Hnu|exact R].
        -- intros u b2 Lu Hsu Hi2. assert (Hne : u <> u0) by (intros ->; congruence). rewrite (Hown1 u Lu Hne) in Hsu.
           apply Hset in Hi2. destruct Hi2 as [[Ev _]|[_ Hi2]]; [exfalso; exact (Hvne u Lu Hne Ev)|].
           apply (p2_zero _ _ _ _ _ _ HI u b2 Lu Hsu Hi2).
        -- intros u b2 Lu Hsu Hi2. apply Hset in Hi2. destruct Hi2 as [[Ev ->]|[Ev Hi2]].
           ++ split; [lia|]. split; [lia|exact B1].
           ++ assert (Hne : u <> u0) by (intros ->; congruence). rewrite (Hown1 u Lu Hne) in Hsu.
              destruct (p2_alloc _ _ _ _ _ _ HI u b2 Lu Hsu Hi2) as [Ho1 [Ho2 Hbl]].
              split; [exact Ho1|]. split; [lia|]. intros q Hq. rewrite F1; [apply Hbl; exact Hq| |].
              { unfold in_region in Hq. lia. }
              { specialize (Hreg u0 ltac:(lia)). unfold in_region in Hq. lia. }
        -- intros u1 u2 b1' b2' L1' L2' Hne S1 S2 I1 I2 q Q1 Q2. apply Hset in I1, I2.
           destruct I1 as [[V1 ->]|[V1 I1]], I2 as [[V2 ->]|[V2 I2]].
           ++ apply Hne. apply (value_inj (reader_for m)); [lia|congruence].
           ++ assert (Hne2 : u2 <> u0) by (intros ->; congruence). rewrite (Hown1 u2 L2' Hne2) in S2.
              pose proof (Holdb u2 b2' L2' Hne2 S2 I2). unfold in_region in *. lia.
           ++ assert (Hne1 : u1 <> u0) by (intros ->; congruence). rewrite (Hown1 u1 L1' Hne1) in S1.
              pose proof (Holdb u1 b1' L1' Hne1 S1 I1). unfold in_region in *. lia.
           ++ assert (Hne1 : u1 <> u0) by (intros ->; congruence). assert (Hne2 : u2 <> u0) by (intros ->; congruence).
              rewrite (Hown1 u1 L1' Hne1) in S1. rewrite (Hown1 u2 L2' Hne2) in S2.
              exact (p2_disjoint _ _ _ _ _ _ HI u1 u2 b1' b2' L1' L2' Hne S1 S2 I1 I2 q Q1 Q2).
Qed.

Lemma w_new_passes : forall (S : Type) m (ds : list (desc S)), w_codes_fit m ds -> small_enough m ds ->
  (exists d, In d ds /\ used d) ->
  let B := items_of m (number 0 ds) in
  exists cc0 t cc,
    (forall ord, w_new_codebook ord ds m = (let! table' := build_all (fun t0 key b => w_build_esc_lut 26 ord [key] t0 m b) t (ord [] cc) in
      Ret (Okay (mk_codebook table' (used_syms ds) (lbits B))))) /\
    w_esc_ok m B cc0 /\ pass2_inv m B cc0 B t cc /\ ccost m cc = ccost m cc0 /\ NoDup (map fst cc) /\
    (forall w i, In (w, i) B -> (N.of_nat i < 2 ^ 24)%N) /\ 1 <= maxl B <= 255 /\
    (pow2 (lbits B) + csize cc0 + ccost m cc0)%N = table_entries (words m ds).
Proof.
  intros S m ds Hfit [Hcnt Hcost] [d0 [Hd0 Hu0]].
  set (B := items_of m (number 0 ds)). cbv zeta.
  assert (HcB : (pow2 (lbits B) + cost B)%N = table_entries (words m ds)).
  { rewrite <- cost_root. unfold B. rewrite number_words. reflexivity. }
  assert (Hidx : forall w i, In (w, i) B -> (N.of_nat i < 2 ^ 24)%N).
  { apply items_idx. apply (number_idx S m). cbn [plus]. lia. }
  assert (Hmax1 : 1 <= maxl B).
  { apply In_nth_error in Hd0. destruct Hd0 as [j Hj].
    assert (Hin : In (word m d0, 0 + rank ds j) B) by (apply number_in; exists j, d0; repeat split; assumption).
    apply maxl_in in Hin. unfold word in Hin. rewrite codeword_length in Hin. unfold used in Hu0. lia. }
  assert (Hmax32 : maxl B <= 255).
  { apply maxl_le. intros w i Hin. apply number_in in Hin. destruct Hin as [j [d [Hj [Hu [-> _]]]]].
    unfold word. rewrite codeword_length.
    destruct (Hfit d) as [Hle _]; [apply nth_error_In in Hj; exact Hj|exact Hu|]. lia. }
  destruct (w_new_pass1_spec S m ds 0 0 [] [] Hfit (w_esc_ok_nil m)) as [cc0 [E1 He]]. cbn [app] in He. fold B in E1, He.
  assert (Hmb : (if MAX_LUT_BITS <? maxl B then MAX_LUT_BITS else maxl B) = lbits B).
  { change MAX_LUT_BITS with 10. unfold lbits. destruct (Nat.ltb_spec 10 (maxl B)); lia. }
  assert (Hsz : lsize B <= 1024).
  { unfold lsize, lbits. assert ((pow2 (Nat.min (maxl B) 10) <= pow2 10)%N) by (apply N.pow_le_mono_r; lia).
    change (pow2 10) with 1024%N in *. lia. }
  destruct (w_new_pass2_spec S m ds B cc0 [] (repeat TABLE_FILL_VALUE (lsize B)) cc0) as [t [cc [E2 HI]]];
    try assumption; try reflexivity.
  - rewrite HcB. exact Hcost.
  - constructor.
    + exists []. split; [constructor|]. split; [intros x []|]. split.
      * intros u _. split; [intros []|intros Hs; discriminate Hs].
      * rewrite repeat_length. unfold lsize. cbn [map]. unfold nsum. cbn [fold_right]. lia.
    + reflexivity.
    + intros k b Hin. exists b. repeat split. exact Hin.
    + intros u Lu. right. right. split; [reflexivity|]. split; [intros w i []|].
      apply nth_error_repeat. pose proof (slot_bound (reader_for m) 0 u). unfold lsize. rewrite <- Lu. lia.
    + intros u b _ _ Hin. apply (w_new_pass1_zero S m ds 0 0 [] _ _ E1) in Hin; [exact Hin|intros ? ? []].
    + intros u b _ H. discriminate H.
    + intros u1 u2 b1 b2 _ _ _ H. discriminate H.
  - cbn [length] in E2. change (N.of_nat 0) with 0%N in E2.
    pose proof (w_esc_cost _ _ _ He) as HC0. exists cc0, t, cc. split.
    { intros ord. unfold w_new_codebook. rewrite E1. cbn [obind]. cbn [Nat.max]. destruct (Nat.eqb_spec (maxl B) 0); [lia|].
      rewrite Hmb. rewrite shl32_one by (unfold lbits; lia). cbn [obind]. fold (lsize B). rewrite E2. reflexivity. }
    split; [exact He|]. split; [exact HI|]. split.
    { apply ccost_same; [apply HI|apply He|]. intros k b Hin. destruct (p2_back _ _ _ _ _ _ HI k b Hin) as [b0 [I0 [_ C0]]].
      exists b0. split; assumption. }
    split; [rewrite (p2_keys _ _ _ _ _ _ HI); apply He|]. split; [exact Hidx|]. split; [lia|]. lia.
Qed.

Lemma w_new_codebook_decides : forall (S : Type) ord m (ds : list (desc S)), permuting ord -> w_codes_fit m ds ->
  unblocked m ds -> small_enough m ds ->
  (exists d, In d ds /\ used d) ->
  exists cb lo hi, w_new_codebook ord ds m = Ret (Okay cb) /\ cb_syms cb = used_syms ds /\
    cb_lut_bits cb = lbits (items_of m (number 0 ds)) /\
    N.of_nat (length (cb_table cb)) = table_entries (words m ds) /\
    decides 27 true (reader_for m) (cb_table cb) lo hi 0 (items_of m (number 0 ds)).
Proof.
  intros S ord m ds Hord Hfit Hlv Hsm Hus.
  destruct (w_new_passes S m ds Hfit Hsm Hus) as [cc0 [t [cc [E [He [HI [Hcc [NDcc [Hidx [[Hmax1 Hmax32] HcB]]]]]]]]]].
  set (B := items_of m (number 0 ds)) in *. rewrite E. clear E. destruct Hsm as [_ Hcost].
  assert (Hub : unblk B) by (apply number_unblk; exact Hlv).
  assert (Hlen : N.of_nat (length t) = (pow2 (lbits B) + csize cc0)%N).
  { destruct (p2_done _ _ _ _ _ _ HI) as [A [NDA [HA [HAu ->]]]]. f_equal.
    rewrite <- key_sizes by apply He. apply nsum_perm. apply Permutation_map.
    apply NoDup_Permutation; [exact NDA|apply He|]. intros k. split; [apply HA|]. intros Hk.
    apply in_map_iff in Hk. destruct Hk as [[k0 b0] [Ek Hin]]. cbn [fst] in Ek. subst k0.
    destruct (eo_sound _ _ _ He k b0 Hin) as [u [Lu [<- [_ [Hs _]]]]]. apply HAu; [exact Lu|]. apply unblk_own; assumption. }
  assert (Hlow : (lsize B <= length t)%nat) by (unfold lsize; lia).
  assert (Hall : forall k b, In (k, b) cc -> exists u, length u = 10 /\ value (reader_for m) u = k /\ own u B = true /\
            lsize B <= b_offset b /\ b_offset b + bsize b <= length t /\ blank t b /\
            items_of m (b_codes b) = sub u B /\ b_maxlen b = maxl (sub u B)).
  { intros k b Hin. destruct (p2_back _ _ _ _ _ _ HI k b Hin) as [b0 [I0 [M0 C0]]].
    destruct (eo_sound _ _ _ He k b0 I0) as [u [Lu [Ek [Hi [Hs [Hm _]]]]]].
    pose proof (unblk_own B u Hub Lu Hs) as Ho.
    exists u. split; [exact Lu|]. split; [exact Ek|]. split; [exact Ho|].
    rewrite <- Ek in Hin. destruct (p2_alloc _ _ _ _ _ _ HI u b Lu Ho Hin) as [R2 [R3 R4]].
    split; [exact R2|]. split; [exact R3|]. split; [exact R4|]. rewrite C0, M0. split; assumption. }
  assert (HPl : placed t (lsize B) cc).
  { split; [exact NDcc|]. split.
    - intros k b Hin. destruct (Hall k b Hin) as [u [_ [_ [_ [R1 [R2 [R3 _]]]]]]]. split; [exact R1|]. split; assumption.
    - intros k1 b1 k2 b2 I1 I2 Hne. destruct (Hall k1 b1 I1) as [u1 [L1 [V1 [S1 _]]]]. destruct (Hall k2 b2 I2) as [u2 [L2 [V2 [S2 _]]]].
      apply (p2_disjoint _ _ _ _ _ _ HI u1 u2); try assumption; try congruence. }
  assert (Hblank : forall u, length u = lbits B ->
    nth_error (repeat TABLE_FILL_VALUE (lsize B)) (slot (reader_for m) 0 u) = Some TABLE_FILL_VALUE).
  { intros u Lu. apply nth_error_repeat. pose proof (slot_bound (reader_for m) 0 u). unfold lsize. rewrite <- Lu. lia. }
  assert (Hpre : prepared true m (repeat TABLE_FILL_VALUE (lsize B)) t 0 B cc).
  { intros u Lu. destruct (p2_entries _ _ _ _ _ _ HI u Lu) as [R|[[Hs [Hn [b [Hin En]]]]|[Hs [Hn En]]]].
    - left. split; [discriminate|exact R].
    - right. left. split; [exact Hs|]. split; [intros _; exact Hn|]. exists (value (reader_for m) u), b. split; [exact Hin|]. split; [exact En|].
      destruct (Hall _ b Hin) as [v [Lv [Ev [_ [_ [_ [_ [Hi Hm]]]]]]]].
      assert (v = u) by (apply (value_inj (reader_for m)); [apply in_sub_long in Hs; lia|exact Ev]). subst v.
      split; assumption.
    - right. right. split; [exact Hs|]. split; [exact Hn|]. rewrite En. symmetry. apply Hblank. exact Lu. }
  destruct (w_assemble true m 26 (fun t0 key b => w_build_esc_lut 26 ord [key] t0 m b)) with
    (t0 := repeat TABLE_FILL_VALUE (lsize B)) (t := t) (off := 0) (B := B) (cc := ord [] cc) (lo := lsize B) as [t3 [E3 [L3 [F3 S3]]]].
  + apply w_gen_build. apply (w_build_esc_ok m ord Hord 26 []).
  + apply (placed_perm t (lsize B) cc); [apply Hord|exact HPl].
  + apply (prepared_perm true m _ t 0 B cc); [apply Hord|exact Hpre].
  + lia.
  + lia.
  + intros k b Hin. apply (Permutation_in _ (Permutation_sym (Hord [] cc))) in Hin.
    destruct (p2_back _ _ _ _ _ _ HI k b Hin) as [b0 [I0 [M0 C0]]].
    apply (w_sub_bucket_ok m 26 B cc0 k b0 b He Hidx ltac:(lia) I0 M0 C0).
  + rewrite <- (ccost_perm m _ _ (Hord [] cc)), Hcc. lia.
  + rewrite E3. cbn [obind]. eexists. exists (lsize B), (length t3). split; [reflexivity|].
    split; [reflexivity|]. split; [reflexivity|]. split; [|apply (covers_decides _ _ _ _ _ _ _ _ _ S3 Hblank)]. cbn [cb_table]. rewrite L3.
    rewrite <- (ccost_perm m _ _ (Hord [] cc)), Hcc. lia.
Qed.

Lemma w_new_codebook_levels : forall (S : Type) ord m (ds : list (desc S)), permuting ord -> w_codes_fit m ds ->
  same_level m ds -> small_enough m ds ->
  (exists d, In d ds /\ used d) ->
  exists cb lo hi, w_new_codebook ord ds m = Ret (Okay cb) /\ cb_syms cb = used_syms ds /\
    cb_lut_bits cb = lbits (items_of m (number 0 ds)) /\
    N.of_nat (length (cb_table cb)) = table_entries (words m ds) /\
    serves 27 (reader_for m) (cb_table cb) lo hi 0 (items_of m (number 0 ds)).
Proof.
  intros S ord m ds Hord Hf Hl Hs Hu.
  destruct (w_new_codebook_decides S ord m ds Hord Hf (level_unblocked S m ds Hl) Hs Hu) as [cb [lo [hi [H1 [H2 [H3 [H4 H5]]]]]]].
  exists cb, lo, hi. split; [exact H1|]. split; [exact H2|]. split; [exact H3|]. split; [exact H4|].
  apply (decides_serves 27 true). exact H5.
Qed.

Lemma w_new_codebook_ok : forall (S : Type) ord m (ds : list (desc S)), permuting ord -> w_codes_fit m ds -> prefix_free m ds -> small_enough m ds ->
  (exists d, In d ds /\ used d) ->
  exists cb lo hi, w_new_codebook ord ds m = Ret (Okay cb) /\ cb_syms cb = used_syms ds /\
    cb_lut_bits cb = lbits (items_of m (number 0 ds)) /\
    N.of_nat (length (cb_table cb)) = table_entries (words m ds) /\
    serves 27 (reader_for m) (cb_table cb) lo hi 0 (items_of m (number 0 ds)).
Proof.
  intros S ord m ds Hord Hfit Hpfd Hsm Hu. apply w_new_codebook_levels; try assumption.
  apply prefix_free_level. exact Hpfd.
Qed.
