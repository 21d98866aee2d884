(** Construction of the lookup tables. *)
From Coq Require Import List Arith NArith ZArith Bool Lia Permutation.
From Coq Require Import ZifyBool ZifyNat ZifyN.
From Verif Require Import Base ByteModel BitModel BitSpec BitProofs BitProofs2 CodebookModel CodebookSpec
  CodebookProofs CodebookProofs2 CodebookSizeProofs.
Import ListNotations.
Local Open Scope nat_scope.
Ltac Zify.zify_post_hook ::= Z.div_mod_to_equations.

Definition code_ok (m : mode) (c : code) : Prop := 1 <= c_bits c <= longest m /\ (c_code c < pow2 (c_bits c))%N.

Fixpoint ccost (m : mode) (cc : escape_codes) : N :=
  match cc with [] => 0 | (_, b) :: cc' => cost (items_of m (b_codes b)) + ccost m cc' end.

Lemma maxl_app : forall A B, maxl (A ++ B) = Nat.max (maxl A) (maxl B).
Proof. induction A as [|[w i] A IH]; intros B; cbn [app maxl]; [reflexivity|]. rewrite IH. lia. Qed.
Lemma ccost_perm : forall m A B, Permutation A B -> ccost m A = ccost m B.
Proof. intros m A B H. induction H as [|[k b] A B H IH|[k b] [k' b'] A|]; cbn [ccost]; lia. Qed.
Lemma items_app : forall m a b, items_of m (a ++ b) = items_of m a ++ items_of m b.
Proof. intros. apply map_app. Qed.

(** ** The escape list *)

Record esc_ok (m : mode) (B : list item) (cc : escape_codes) : Prop := {
  eo_nodup : NoDup (map fst cc);
  eo_sound : forall k b, In (k, b) cc -> exists u, length u = 10 /\ value (reader_for m) u = k /\
      items_of m (b_codes b) = sub u B /\ sub u B <> [] /\ b_maxlen b = maxl (sub u B) /\
      Forall (code_ok m) (b_codes b);
  eo_complete : forall u, length u = 10 -> sub u B <> [] -> exists b, In (value (reader_for m) u, b) cc
}.

Lemma esc_ok_nil : forall m, esc_ok m [] [].
Proof.
  intros m. constructor; cbn; try lia; try constructor; try (intros; contradiction); congruence.
Qed.

Lemma sub_short : forall u w i, length w <= 10 -> sub u [(w, i)] = [].
Proof.
  intros u w i H. unfold sub, sub_one. cbn [flat_map fst snd].
  destruct (Nat.ltb_spec 10 (length w)); [lia|]. reflexivity.
Qed.

Lemma sub_long : forall u w i, 10 < length w ->
  sub u [(w, i)] = if bits_eqb (firstn 10 w) u then [(skipn 10 w, i)] else [].
Proof.
  intros u w i H. unfold sub, sub_one. cbn [flat_map fst snd].
  destruct (Nat.ltb_spec 10 (length w)); [|lia]. cbn [andb].
  destruct (bits_eqb (firstn 10 w) u); reflexivity.
Qed.

Lemma esc_ok_short : forall m B cc w i, esc_ok m B cc -> length w <= 10 -> esc_ok m (B ++ [(w, i)]) cc.
Proof.
  intros m B cc w i H Hl.
  assert (Hs : forall u, sub u (B ++ [(w, i)]) = sub u B).
  { intros u. rewrite sub_app, sub_short by exact Hl. apply app_nil_r. }
  constructor.
  - apply H.
  - intros k b Hin. rewrite <- (app_nil_r B). destruct (eo_sound _ _ _ H k b Hin) as [u Hu].
    exists u. rewrite app_nil_r, Hs. exact Hu.
  - intros u Hu. rewrite Hs. apply (eo_complete _ _ _ H u Hu).
Qed.

Lemma add_esc_cases : forall cc key c,
  (exists l1 b l2, cc = l1 ++ (key, b) :: l2 /\
     add_esc_code cc key c = l1 ++ (key, add_code b c) :: l2) \/
  (~ In key (map fst cc) /\ add_esc_code cc key c = cc ++ [(key, add_code new_bucket c)]).
Proof.
  induction cc as [|[k b] cc IH]; intros key c; cbn [add_esc_code].
  - right. split; [intros []|reflexivity].
  - destruct (N.eqb_spec k key) as [->|Hne].
    + left. exists [], b, cc. split; reflexivity.
    + destruct (IH key c) as [[l1 [b0 [l2 [E1 E2]]]]|[Hn E]].
      * left. exists ((k, b) :: l1), b0, l2. rewrite E1 at 1. rewrite E2. split; reflexivity.
      * right. rewrite E. split; [|reflexivity]. cbn [map fst]. intros [H|H]; [congruence|exact (Hn H)].
Qed.

Lemma items_one : forall m c, items_of m [c] = [(codeword m (c_code c) (c_bits c), c_idx c)].
Proof. reflexivity. Qed.

Lemma maxlen_max : forall a b, (if a <? b then b else a) = Nat.max a b.
Proof. intros a b. destruct (Nat.ltb_spec a b); lia. Qed.

Lemma esc_ok_long : forall m B cc c, esc_ok m B cc -> code_ok m c -> 10 < c_bits c ->
  exists cc', add_long_code cc m c = Ret cc' /\ esc_ok m (B ++ items_of m [c]) cc'.
Proof.
  intros m B cc c H [Hb Hc] Hl. unfold add_long_code. change MAX_LUT_BITS with 10.
  rewrite (extract_lut_spec m (c_code c) (c_bits c) ltac:(lia) Hc). cbn [obind].
  destruct (extract_esc_spec m (c_code c) (c_bits c) ltac:(lia) Hc) as [c' [Ec [Hc' Ew]]]. rewrite Ec. cbn [obind].
  unfold csub. destruct (Nat.leb_spec 10 (c_bits c)); [|lia]. cbn [obind].
  eexists. split; [reflexivity|].
  rewrite items_one. set (w := codeword m (c_code c) (c_bits c)) in *.
  assert (Lw : length w = c_bits c) by apply codeword_length.
  set (u0 := firstn 10 w) in *. assert (Lu0 : length u0 = 10) by (unfold u0; rewrite firstn_length; lia).
  set (key := value (reader_for m) u0) in *. set (c2 := mk_code c' (c_bits c - 10) (c_idx c)).
  assert (Hc2 : code_ok m c2) by (split; [cbn; lia|exact Hc']).
  assert (Hi2 : items_of m [c2] = [(skipn 10 w, c_idx c)]) by (cbn; rewrite Ew; reflexivity).
  assert (Hs : forall u, sub u (B ++ [(w, c_idx c)]) = sub u B ++ (if bits_eqb u0 u then items_of m [c2] else [])).
  { intros u. rewrite sub_app, sub_long by lia. fold u0. rewrite Hi2. reflexivity. }
  assert (Hs0 : sub u0 (B ++ [(w, c_idx c)]) = sub u0 B ++ items_of m [c2]).
  { rewrite Hs, (proj2 (bits_eqb_true u0 u0) eq_refl). reflexivity. }
  assert (Hs1 : forall u, u <> u0 -> sub u (B ++ [(w, c_idx c)]) = sub u B).
  { intros u Hne. rewrite Hs. destruct (bits_eqb u0 u) eqn:E; [apply bits_eqb_true in E; congruence|apply app_nil_r]. }
  assert (Hkey : forall u, length u = 10 -> value (reader_for m) u = key -> u = u0).
  { intros u Lu E. apply (value_inj (reader_for m)); [lia|exact E]. }
  assert (Hmc : maxl (items_of m [c2]) = c_bits c2).
  { rewrite items_one. cbn [maxl]. rewrite codeword_length. lia. }
  destruct (add_esc_cases cc key c2) as [[l1 [b [l2 [E1 E2]]]]|[Hn E2]].
  - (* an existing bucket *)
    assert (Hb0 : In (key, b) cc) by (rewrite E1; apply in_or_app; right; left; reflexivity).
    destruct (eo_sound _ _ _ H key b Hb0) as [u [Lu [Ek [Hi [Hne [Hm Hok]]]]]].
    apply (Hkey u Lu) in Ek. subst u. clear Lu.
    pose proof (eo_nodup _ _ _ H) as ND. rewrite E1, map_app in ND. cbn [map fst] in ND.
    rewrite E2. constructor.
    + rewrite map_app. exact ND.
    + intros k b' Hin. apply in_app_or in Hin. cbn [In] in Hin.
      assert (Hcase : (k = key /\ b' = add_code b c2) \/ (k <> key /\ In (k, b') cc)).
      { apply NoDup_remove_2 in ND. rewrite E1. destruct Hin as [Hin|[Hin|Hin]].
        - right. split; [|apply in_or_app; left; exact Hin]. intros ->. apply ND. apply in_or_app. left.
          apply (in_map fst) in Hin. exact Hin.
        - left. injection Hin as <- <-. split; reflexivity.
        - right. split; [|apply in_or_app; right; right; exact Hin]. intros ->. apply ND. apply in_or_app. right.
          apply (in_map fst) in Hin. exact Hin. }
      destruct Hcase as [[-> ->]|[Hne' Hin']].
      * exists u0. split; [exact Lu0|]. split; [reflexivity|]. cbn [add_code b_codes b_maxlen].
        rewrite Hs0, items_app, Hi. split; [reflexivity|]. split; [destruct (sub u0 B); [congruence|discriminate]|].
        split; [rewrite maxlen_max, maxl_app, Hmc, Hm; reflexivity|].
        apply Forall_app. split; [exact Hok|constructor; [exact Hc2|constructor]].
      * destruct (eo_sound _ _ _ H k b' Hin') as [u [Lu [Ek R]]]. exists u.
        rewrite Hs1; [split; [exact Lu|split; [exact Ek|exact R]]|]. intros ->. apply Hne'. symmetry. exact Ek.
    + intros u Lu Hsu. destruct (list_eq_dec bool_dec u u0) as [->|Hne'].
      * exists (add_code b c2). apply in_or_app. right. left. reflexivity.
      * rewrite Hs1 in Hsu by exact Hne'. destruct (eo_complete _ _ _ H u Lu Hsu) as [b' Hin'].
        exists b'. rewrite E1 in Hin'. apply in_app_or in Hin'. apply in_or_app.
        destruct Hin' as [?|[Hx|?]]; [left; assumption| |right; right; assumption].
        injection Hx as Hx _. symmetry in Hx. apply (Hkey u Lu) in Hx. congruence.
  - (* a new bucket *)
    assert (Hempty : sub u0 B = []).
    { destruct (sub u0 B) eqn:Es; [reflexivity|]. exfalso.
      destruct (eo_complete _ _ _ H u0 Lu0) as [b Hin]; [rewrite Es; discriminate|].
      apply Hn. apply (in_map fst) in Hin. exact Hin. }
    rewrite E2. constructor.
    + rewrite map_app. cbn [map fst]. 
      apply Permutation_NoDup with (l := key :: map fst cc).
      * apply Permutation_cons_append.
      * constructor; [exact Hn|apply H].
    + intros k b' Hin. apply in_app_or in Hin. destruct Hin as [Hin|[Hin|[]]].
      * assert (Hne' : k <> key) by (intros ->; apply Hn; apply (in_map fst) in Hin; exact Hin).
        destruct (eo_sound _ _ _ H k b' Hin) as [u [Lu [Ek R]]]. exists u.
        rewrite Hs1; [split; [exact Lu|split; [exact Ek|exact R]]|]. intros ->. apply Hne'. symmetry. exact Ek.
      * injection Hin as <- <-. exists u0. split; [exact Lu0|]. split; [reflexivity|].
        cbn [add_code new_bucket b_codes b_maxlen app]. rewrite Hs0, Hempty. cbn [app].
        split; [reflexivity|]. split; [discriminate|]. split; [rewrite maxlen_max, Hmc; reflexivity|].
        constructor; [exact Hc2|constructor].
    + intros u Lu Hsu. destruct (list_eq_dec bool_dec u u0) as [->|Hne'].
      * eexists. apply in_or_app. right. left. reflexivity.
      * rewrite Hs1 in Hsu by exact Hne'. destruct (eo_complete _ _ _ H u Lu Hsu) as [b' Hin'].
        exists b'. apply in_or_app. left. exact Hin'.
Qed.

(** ** Pass 1: the short codes *)

(** [t] is [t0] with the short words of [D] filled in at [off]. *)
Definition short_filled (e : endian) (t0 t : list N) (off L : nat) (D : list item) : Prop :=
  length t = length t0 /\
  (forall q, ~ (off <= q < off + N.to_nat (pow2 L)) -> nth_error t q = nth_error t0 q) /\
  forall u, length u = L ->
    (exists w i, lastin w i u D /\ length w <= 10 /\ is_prefix w u /\
       nth_error t (slot e off u) = Some (lut_entry (N.of_nat i) (length w))) \/
    ((forall w i, In (w, i) D -> length w <= 10 -> ~ is_prefix w u) /\
       nth_error t (slot e off u) = nth_error t0 (slot e off u)).

Lemma prefix_dec : forall a b, is_prefix a b \/ ~ is_prefix a b.
Proof.
  intros a b. destruct (list_eq_dec bool_dec (firstn (length a) b) a) as [E|E].
  - left. apply prefix_firstn. exact E.
  - right. intros H. apply E. apply prefix_firstn. exact H.
Qed.

Lemma short_filled_step : forall m t0 t off L D c idx, short_filled (reader_for m) t0 t off L D ->
  code_ok m c -> c_bits c <= L -> L <= 10 -> off + N.to_nat (pow2 L) <= length t0 -> idx = N.of_nat (c_idx c) ->
  exists t', fill_lut t m off (c_code c) (c_bits c) L idx false = Ret t' /\
    short_filled (reader_for m) t0 t' off L (D ++ items_of m [c]).
Proof.
  intros m t0 t off L D c idx [Hlen [Hout Hin]] [Hb Hc] Hl HL Ht ->.
  destruct (fill_short_spec m t off (c_code c) (c_bits c) L (N.of_nat (c_idx c)) Hl HL Hc ltac:(lia))
    as [t' [E [L' [Hyes [Hno Hrest]]]]].
  exists t'. split; [exact E|]. rewrite items_one. set (w := codeword m (c_code c) (c_bits c)) in *.
  assert (Lw : length w = c_bits c) by apply codeword_length.
  split; [lia|]. split.
  - intros q Hq. rewrite Hrest by exact Hq. apply Hout. exact Hq.
  - intros u Lu. destruct (prefix_dec w u) as [Hp|Hp].
    + left. exists w, (c_idx c). split; [apply lastin_end|]. split; [lia|].
      split; [exact Hp|]. rewrite Lw. apply Hyes; assumption.
    + rewrite Hno by assumption. destruct (Hin u Lu) as [[w' [i' [Hi [Hl' [Hp' En]]]]]|[Hn En]].
      * left. exists w', i'. split; [apply lastin_more; [exact Hi|intros _; exact Hp]|]. split; [exact Hl'|]. split; assumption.
      * right. split; [|exact En]. intros w' i' Hi. apply in_app_or in Hi. destruct Hi as [Hi|[Hi|[]]].
        -- apply (Hn w' i' Hi).
        -- injection Hi as <- <-. intros _. exact Hp.
Qed.

Lemma short_filled_long : forall e t0 t off L D w i, short_filled e t0 t off L D -> 10 < length w ->
  short_filled e t0 t off L (D ++ [(w, i)]).
Proof.
  intros e t0 t off L D w i [Hlen [Hout Hin]] Hl. split; [exact Hlen|]. split; [exact Hout|].
  intros u Lu. destruct (Hin u Lu) as [[w' [i' [Hi R]]]|[Hn En]].
  - left. exists w', i'. split; [apply lastin_more; [exact Hi|lia]|exact R].
  - right. split; [|exact En]. intros w' i' Hi Hl'. apply in_app_or in Hi. destruct Hi as [Hi|[Hi|[]]].
    + apply (Hn w' i' Hi Hl').
    + injection Hi as <- <-. lia.
Qed.

Definition small_idx (cs : list code) : Prop := Forall (fun c => (N.of_nat (c_idx c) < 2 ^ 24)%N) cs.

Lemma idx_mod : forall i, (N.of_nat i < 2 ^ 24)%N -> (N.of_nat i mod W32 = N.of_nat i)%N.
Proof.
  intros i H. apply N.mod_small. unfold W32. change (2 ^ 24)%N with 16777216%N in H.
  change (2 ^ 32)%N with 4294967296%N. lia.
Qed.

Lemma esc_pass1_spec : forall m off L t0 cs t D cc, Forall (code_ok m) cs -> small_idx cs ->
  Forall (fun c => c_bits c <= 10 -> c_bits c <= L) cs -> L <= 10 -> off + N.to_nat (pow2 L) <= length t0 ->
  short_filled (reader_for m) t0 t off L D -> esc_ok m D cc ->
  exists t' cc', esc_pass1 t m off L cs cc = Ret (t', cc') /\
    short_filled (reader_for m) t0 t' off L (D ++ items_of m cs) /\ esc_ok m (D ++ items_of m cs) cc'.
Proof.
  intros m off L t0. induction cs as [|c cs IH]; intros t D cc Hok Hsm Hlen HL Ht Hf He.
  - exists t, cc. cbn [items_of map]. rewrite app_nil_r. split; [reflexivity|]. split; assumption.
  - inversion_clear Hok as [|? ? Hc Hok']. inversion_clear Hsm as [|? ? Hs Hsm'].
    inversion_clear Hlen as [|? ? Hl Hlen'].
    assert (Happ : D ++ items_of m (c :: cs) = (D ++ items_of m [c]) ++ items_of m cs).
    { rewrite <- app_assoc. reflexivity. }
    rewrite Happ. cbn [esc_pass1]. change MAX_LUT_BITS with 10.
    destruct (Nat.leb_spec (c_bits c) 10) as [Hle|Hgt].
    + destruct (short_filled_step m t0 t off L D c (N.of_nat (c_idx c) mod W32) Hf Hc (Hl Hle) HL Ht
                  (idx_mod _ Hs)) as [t' [E Hf']].
      rewrite E. cbn [obind]. apply IH; try assumption.
      rewrite items_one. apply esc_ok_short; [exact He|]. rewrite codeword_length. exact Hle.
    + destruct (esc_ok_long m D cc c He Hc Hgt) as [cc' [E He']]. rewrite E. cbn [obind].
      apply IH; try assumption. rewrite items_one. apply short_filled_long; [exact Hf|].
      rewrite codeword_length. exact Hgt.
Qed.

(** ** Pass 2: allocating the buckets *)

Definition bbits (b : bucket) : nat := Nat.min (b_maxlen b) 10.
Definition bsize (b : bucket) : nat := N.to_nat (pow2 (bbits b)).
Definition in_region (b : bucket) (q : nat) : Prop := b_offset b <= q < b_offset b + bsize b.
Definition blank (t : list N) (b : bucket) : Prop := forall q, in_region b q -> nth_error t q = Some TABLE_FILL_VALUE.

Lemma bsize_le : forall b, bsize b <= 1024.
Proof.
  intros b. unfold bsize, bbits. assert ((pow2 (Nat.min (b_maxlen b) 10) <= pow2 10)%N) by (apply N.pow_le_mono_r; lia).
  change (pow2 10) with 1024%N in *. lia.
Qed.

Lemma alloc_spec : forall m t off u b, length u = 10 -> off + 1024 <= length t ->
  (N.of_nat (length t) < 2 ^ 24)%N ->
  exists t' b', alloc_bucket t m off (value (reader_for m) u) b = Ret (t', b') /\
    b_maxlen b' = b_maxlen b /\ b_codes b' = b_codes b /\ b_offset b' = length t /\
    length t' = length t + bsize b' /\ blank t' b' /\
    nth_error t' (slot (reader_for m) off u) = Some (esc_entry (N.of_nat (b_offset b')) (bbits b')) /\
    (forall q, q < length t -> q <> slot (reader_for m) off u -> nth_error t' q = nth_error t q).
Proof.
  intros m t off u b Lu Ht H24. unfold alloc_bucket, resize_table. change MAX_LUT_BITS with 10. fold (bbits b).
  rewrite shl32_one by (unfold bbits; lia). cbn [obind]. fold (bsize b).
  assert (Hmod : (N.of_nat (length t) mod W32 = N.of_nat (length t))%N).
  { apply N.mod_small. unfold W32. change (2 ^ 24)%N with 16777216%N in H24. change (2 ^ 32)%N with 4294967296%N. lia. }
  rewrite Hmod.
  assert (Hfl : forall t1, fill_lut t1 m off (value (reader_for m) u) (bbits b) 10 (N.of_nat (length t)) true =
            store t1 (slot (reader_for m) off u) (esc_entry (N.of_nat (length t)) (bbits b))).
  { intros t1. unfold slot. rewrite Nat.add_comm. destruct m; reflexivity. }
  rewrite Hfl. pose proof (slot_bound (reader_for m) off u) as Hsl. rewrite Lu in Hsl.
  change (N.to_nat (pow2 10)) with 1024 in Hsl.
  rewrite store_ok by (rewrite app_length; lia). cbn [obind].
  eexists. eexists. split; [reflexivity|]. cbn [b_maxlen b_codes b_offset]. rewrite Nnat.Nat2N.id.
  split; [reflexivity|]. split; [reflexivity|]. split; [reflexivity|].
  unfold bsize, bbits. cbn [b_maxlen]. fold (bbits b). fold (bsize b).
  assert (Hln : length (t ++ repeat TABLE_FILL_VALUE (bsize b)) = length t + bsize b)
    by (rewrite app_length, repeat_length; reflexivity).
  assert (Hlt : slot (reader_for m) off u < length (t ++ repeat TABLE_FILL_VALUE (bsize b))) by lia.
  split; [rewrite update_length; exact Hln|]. split; [|split].
  - intros q Hq. unfold in_region, bsize, bbits in Hq. cbn [b_offset b_maxlen] in Hq.
    fold (bbits b) in Hq. fold (bsize b) in Hq.
    rewrite update_nth by exact Hlt. destruct (Nat.eqb_spec q (slot (reader_for m) off u)); [lia|].
    rewrite nth_error_app2 by lia. apply nth_error_repeat. lia.
  - rewrite update_nth by exact Hlt. rewrite Nat.eqb_refl. reflexivity.
  - intros q Hq Hne. rewrite update_nth by exact Hlt. destruct (Nat.eqb_spec q (slot (reader_for m) off u)); [congruence|].
    apply nth_error_app1. exact Hq.
Qed.

(** Entries of the tables of the buckets. *)
Fixpoint csize (cc : escape_codes) : N :=
  match cc with [] => 0 | (_, b) :: cc' => pow2 (bbits b) + csize cc' end.

Lemma csize_perm : forall A B, Permutation A B -> csize A = csize B.
Proof. intros A B H. induction H as [|[k b] A B H IH|[k b] [k' b'] A|]; cbn [csize]; lia. Qed.

Lemma esc_cost : forall m B cc, esc_ok m B cc -> (csize cc + ccost m cc = cost B)%N.
Proof.
  intros m B cc H.
  assert (G : exists us, Forall2 (fun x u => length u = 10 /\ value (reader_for m) u = fst x /\
      items_of m (b_codes (snd x)) = sub u B /\ sub u B <> [] /\ b_maxlen (snd x) = maxl (sub u B)) cc us).
  { assert (S : forall l, (forall x, In x l -> In x cc) -> exists us, Forall2 (fun x u => length u = 10 /\
      value (reader_for m) u = fst x /\ items_of m (b_codes (snd x)) = sub u B /\ sub u B <> [] /\
      b_maxlen (snd x) = maxl (sub u B)) l us).
    { induction l as [|[k b] l IH]; intros Hl; [exists []; constructor|].
      destruct IH as [us Hus]; [intros x Hx; apply Hl; right; exact Hx|].
      destruct (eo_sound _ _ _ H k b (Hl _ (or_introl eq_refl))) as [u [L [V [I [N [M _]]]]]].
      exists (u :: us). constructor; [|exact Hus]. cbn [fst snd]. repeat split; assumption. }
    apply S. intros x Hx. exact Hx. }
  destruct G as [us G].
  assert (Hus : forall u, In u us -> exists x, In x cc /\ length u = 10 /\ value (reader_for m) u = fst x /\ sub u B <> []).
  { clear -G. induction G as [|x u l us Hx G IH]; intros v Hv; [destruct Hv|]. destruct Hv as [->|Hv].
    - exists x. split; [left; reflexivity|]. destruct Hx as [H1 [H2 [_ [H3 _]]]]. repeat split; assumption.
    - destruct (IH v Hv) as [y [Hy R]]. exists y. split; [right; exact Hy|exact R]. }
  assert (ND : NoDup us).
  { pose proof (eo_nodup _ _ _ H) as ND. clear -G ND. induction G as [|x u l us Hx G IH]; constructor.
    - cbn [map] in ND. inversion_clear ND as [|? ? Hn ND']. intros Hu. apply Hn.
      destruct Hx as [_ [V _]]. rewrite <- V. clear -G Hu. induction G as [|y v l us Hy G IH]; [destruct Hu|].
      destruct Hu as [->|Hu]; [left; symmetry; apply Hy|right; apply IH; exact Hu].
    - apply IH. cbn [map] in ND. inversion_clear ND. assumption. }
  rewrite (cost_split B us ND).
  - clear -G. induction G as [|[k b] u l us Hx G IH]; [reflexivity|]. cbn [map csize ccost]. rewrite nsum_cons, <- IH.
    cbn [fst snd] in Hx. destruct Hx as [_ [_ [I [_ M]]]]. rewrite <- I. unfold bbits. rewrite M.
    unfold lbits. rewrite I. lia.
  - intros u. split.
    + intros Hu. destruct (Hus u Hu) as [x [_ [L [_ N]]]]. split; assumption.
    + intros [L N]. destruct (eo_complete _ _ _ H u L N) as [b Hb].
      clear Hus ND. induction G as [|x v l us Hx G IH]; [destruct Hb|]. destruct Hb as [->|Hb].
      * left. cbn [fst] in Hx. destruct Hx as [Lv [V _]]. apply (value_inj (reader_for m)); [lia|exact V].
      * right. revert Hb. clear -G L. induction G as [|y w l us Hy G IH]; intros Hb; [destruct Hb|].
        destruct Hb as [->|Hb]; [|right; apply IH; exact Hb].
        left. cbn [fst] in Hy. destruct Hy as [Lv [V _]]. apply (value_inj (reader_for m)); [lia|exact V].
Qed.

Lemma bsize_pow : forall b, N.of_nat (bsize b) = pow2 (bbits b).
Proof. intros b. unfold bsize. apply Nnat.N2Nat.id. Qed.

(** Buckets with blank, pairwise disjoint regions above [lo]. *)
Definition placed (t : list N) (lo : nat) (cc : escape_codes) : Prop :=
  NoDup (map fst cc) /\
  (forall k b, In (k, b) cc -> lo <= b_offset b /\ b_offset b + bsize b <= length t /\ blank t b) /\
  (forall k1 b1 k2 b2, In (k1, b1) cc -> In (k2, b2) cc -> k1 <> k2 ->
     forall q, in_region b1 q -> ~ in_region b2 q).

Lemma placed_perm : forall t lo cc cc', Permutation cc cc' -> placed t lo cc -> placed t lo cc'.
Proof.
  intros t lo cc cc' HP [H1 [H2 H3]]. split; [|split].
  - apply (Permutation_NoDup (Permutation_map fst HP) H1).
  - intros k b Hin. apply (H2 k b). apply (Permutation_in _ (Permutation_sym HP) Hin).
  - intros k1 b1 k2 b2 I1 I2. apply (H3 k1 b1 k2 b2); apply (Permutation_in _ (Permutation_sym HP)); assumption.
Qed.

Definition has_key (m : mode) (x : N * bucket) : Prop := exists u, length u = 10 /\ value (reader_for m) u = fst x.

Lemma esc_pass2_spec : forall m off cc t, NoDup (map fst cc) -> Forall (has_key m) cc ->
  (cc <> [] -> off + 1024 <= length t) ->
  (N.of_nat (length t) + csize cc <= 2 ^ 24)%N ->
  exists t' cc', esc_pass2 t m off cc = Ret (t', cc') /\
    N.of_nat (length t') = (N.of_nat (length t) + csize cc)%N /\ csize cc' = csize cc /\
    placed t' (length t) cc' /\ map fst cc' = map fst cc /\
    (forall k b', In (k, b') cc' -> (exists b, In (k, b) cc /\ b_maxlen b' = b_maxlen b /\ b_codes b' = b_codes b) /\
       nth_error t' (off + N.to_nat k) = Some (esc_entry (N.of_nat (b_offset b')) (bbits b'))) /\
    (forall q, q < length t -> (forall k, In k (map fst cc) -> q <> off + N.to_nat k) -> nth_error t' q = nth_error t q).
Proof.
  intros m off. induction cc as [|[k b] cc IH]; intros t ND HK Ht H24.
  - exists t, []. split; [reflexivity|]. cbn [csize]. split; [lia|]. split; [reflexivity|]. split; [|split; [reflexivity|]].
    + split; [constructor|]. split; intros; contradiction.
    + split; [intros; contradiction|reflexivity].
  - inversion_clear ND as [|? ? Hk ND']. inversion_clear HK as [|? ? [u [Lu Ek]] HK']. cbn [fst] in Ek, Hk.
    specialize (Ht ltac:(discriminate)). cbn [csize] in H24.
    pose proof (pow2_pos (bbits b)) as Hpos.
    cbn [esc_pass2]. rewrite <- Ek.
    destruct (alloc_spec m t off u b Lu Ht ltac:(lia)) as [t1 [b1 [E1 [M1 [C1 [O1 [L1 [B1 [N1 F1]]]]]]]]].
    rewrite E1. cbn [obind]. pose proof (bsize_pow b1) as Hsz.
    assert (Hbb : bbits b1 = bbits b) by (unfold bbits; rewrite M1; reflexivity). rewrite Hbb in Hsz.
    destruct (IH t1 ND' HK' ltac:(intros; lia) ltac:(lia)) as [t2 [cc2 [E2 [L2 [Z2 [P2 [K2 [S2 F2]]]]]]]].
    rewrite E2. cbn [obind]. eexists. eexists. split; [reflexivity|].
    assert (Hslot : forall q, q < length t1 -> (forall k', In k' (map fst cc) -> q <> off + N.to_nat k') ->
                    nth_error t2 q = nth_error t1 q) by exact F2.
    assert (Hkeys : forall k', In k' (map fst cc) -> off + N.to_nat k' < length t).
    { intros k' Hin. apply in_map_iff in Hin. destruct Hin as [[k2 b2] [<- Hin]].
      rewrite Forall_forall in HK'. destruct (HK' _ Hin) as [v [Lv Ev]]. cbn [fst] in *.
      pose proof (slot_bound (reader_for m) off v) as Hsb. unfold slot in Hsb. rewrite Ev, Lv in Hsb.
      change (N.to_nat (pow2 10)) with 1024 in Hsb. lia. }
    assert (Hnew : forall q, in_region b1 q -> nth_error t2 q = nth_error t1 q).
    { intros q Hq. unfold in_region in Hq. apply F2; [lia|]. intros k' Hin. specialize (Hkeys k' Hin). lia. }
    split; [cbn [csize]; lia|]. split; [cbn [csize]; rewrite Hbb, Z2; reflexivity|]. split; [|split; [|split]].
    + destruct P2 as [PN [PR PD]]. split; [|split].
      * cbn [map fst]. rewrite Ek. constructor; [rewrite K2; exact Hk|exact PN].
      * intros k' b' [Hin|Hin].
        -- injection Hin as <- <-. split; [lia|]. split; [lia|]. intros q Hq. rewrite Hnew by exact Hq. apply B1. exact Hq.
        -- destruct (PR k' b' Hin) as [P1 [P2 P3]]. split; [lia|]. split; assumption.
      * assert (Hdis : forall k' b', In (k', b') cc2 -> forall q, in_region b1 q -> in_region b' q -> False).
        { intros k' b' Hin q Q1 Q2. destruct (PR k' b' Hin) as [P1 _]. unfold in_region in *. lia. }
        intros k1 b1' k2 b2' [I1|I1] [I2|I2] Hne q Q1 Q2.
        -- congruence.
        -- injection I1 as <- <-. exact (Hdis _ _ I2 q Q1 Q2).
        -- injection I2 as <- <-. exact (Hdis _ _ I1 q Q2 Q1).
        -- exact (PD _ _ _ _ I1 I2 Hne q Q1 Q2).
    + cbn [map fst]. rewrite K2, Ek. reflexivity.
    + intros k' b' [Hin|Hin].
      * injection Hin as <- <-. split.
        -- exists b. split; [left; rewrite Ek; reflexivity|]. split; assumption.
        -- fold (slot (reader_for m) off u). rewrite F2; [exact N1| |].
           ++ pose proof (slot_bound (reader_for m) off u) as Hsb. rewrite Lu in Hsb.
              change (N.to_nat (pow2 10)) with 1024 in Hsb. lia.
           ++ intros k' Hin Heq. unfold slot in Heq. assert (value (reader_for m) u = k') by lia. congruence.
      * destruct (S2 k' b' Hin) as [[b0 [I0 R0]] R]. split; [exists b0; split; [right; exact I0|exact R0]|exact R].
    + intros q Hq Hne. rewrite F2; [|lia|].
      * apply F1; [exact Hq|]. unfold slot. apply Hne. left. reflexivity.
      * intros k' Hin. apply Hne. right. exact Hin.
Qed.

(** ** Pass 3: building the buckets *)

(** What a bucket must satisfy, apart from its place in the table. *)
Definition bucket_ok (m : mode) (d : nat) (b : bucket) : Prop :=
  Forall (code_ok m) (b_codes b) /\ small_idx (b_codes b) /\
  b_maxlen b = maxl (items_of m (b_codes b)) /\ b_maxlen b <= 10 * d.

Definition build_ok (m : mode) (d : nat) (build : list N -> N -> bucket -> outcome (list N)) : Prop :=
  forall t key b, bucket_ok m d b -> b_codes b <> [] -> b_offset b + bsize b <= length t -> blank t b ->
    (N.of_nat (length t) + cost (items_of m (b_codes b)) <= 2 ^ 24)%N ->
    exists t', build t key b = Ret t' /\
      N.of_nat (length t') = (N.of_nat (length t) + cost (items_of m (b_codes b)))%N /\
      (forall q, q < length t -> ~ in_region b q -> nth_error t' q = nth_error t q) /\
      decides d false (reader_for m) t' (length t) (length t') (b_offset b) (items_of m (b_codes b)).

(** The same where the region need not be blank. *)
Definition build_gen (m : mode) (d : nat) (build : list N -> N -> bucket -> outcome (list N)) : Prop :=
  forall t key b, bucket_ok m d b -> b_codes b <> [] -> b_offset b + bsize b <= length t ->
    (N.of_nat (length t) + cost (items_of m (b_codes b)) <= 2 ^ 24)%N ->
    exists t', build t key b = Ret t' /\
      N.of_nat (length t') = (N.of_nat (length t) + cost (items_of m (b_codes b)))%N /\
      (forall q, q < length t -> ~ in_region b q -> nth_error t' q = nth_error t q) /\
      covers d false (reader_for m) t t' (length t) (length t') (b_offset b) (items_of m (b_codes b)).

Lemma region_items : forall m d b, bucket_ok m d b -> bsize b = lsize (items_of m (b_codes b)).
Proof. intros m d b [_ [_ [E _]]]. unfold bsize, bbits, lsize, lbits. rewrite E. reflexivity. Qed.

Lemma gen_build : forall m d build, build_gen m d build -> build_ok m d build.
Proof.
  intros m d build H t key b Hok Hne Ht Hbl H24. destruct (H t key b Hok Hne Ht H24) as [t' [E [L [F C]]]].
  exists t'. split; [exact E|]. split; [exact L|]. split; [exact F|]. apply (covers_decides _ _ _ t); [exact C|].
  intros u Lu. apply Hbl. unfold in_region. rewrite (region_items m d b Hok). unfold lsize. rewrite <- Lu. apply slot_bound.
Qed.

Lemma build_all_spec : forall m d build, build_ok m d build -> forall cc t lo, placed t lo cc ->
  (forall k b, In (k, b) cc -> bucket_ok m d b /\ b_codes b <> []) ->
  (N.of_nat (length t) + ccost m cc <= 2 ^ 24)%N ->
  exists t', build_all build t cc = Ret t' /\
    N.of_nat (length t') = (N.of_nat (length t) + ccost m cc)%N /\
    (forall q, q < length t -> (forall k b, In (k, b) cc -> ~ in_region b q) -> nth_error t' q = nth_error t q) /\
    (forall k b, In (k, b) cc ->
       decides d false (reader_for m) t' (length t) (length t') (b_offset b) (items_of m (b_codes b))).
Proof.
  intros m d build Hb. induction cc as [|[k b] cc IH]; intros t lo [ND [PR PD]] Hok H24.
  - exists t. split; [reflexivity|]. cbn [ccost]. split; [lia|]. split; [reflexivity|]. intros; contradiction.
  - cbn [ccost] in H24. cbn [build_all].
    destruct (Hok k b (or_introl eq_refl)) as [Hbo Hne]. destruct (PR k b (or_introl eq_refl)) as [Q1 [Q2 Q3]].
    destruct (Hb t k b Hbo Hne Q2 Q3 ltac:(lia)) as [t1 [E1 [L1 [F1 S1]]]]. rewrite E1. cbn [obind].
    inversion_clear ND as [|? ? Hk ND'].
    assert (Hneq : forall k' b', In (k', b') cc -> k <> k').
    { intros k' b' Hin ->. apply Hk. apply (in_map fst) in Hin. exact Hin. }
    assert (P1 : placed t1 lo cc).
    { split; [exact ND'|]. split.
      - intros k' b' Hin. destruct (PR k' b' (or_intror Hin)) as [R1 [R2 R3]]. split; [exact R1|]. split; [lia|].
        intros q Hq. rewrite F1; [apply R3; exact Hq| |].
        + unfold in_region in Hq. lia.
        + intros Hq'. exact (PD _ _ _ _ (or_introl eq_refl) (or_intror Hin) (Hneq _ _ Hin) q Hq' Hq).
      - intros k1 b1 k2 b2 I1 I2. apply (PD k1 b1 k2 b2); right; assumption. }
    destruct (IH t1 lo P1) as [t2 [E2 [L2 [F2 S2]]]].
    { intros k' b' Hin. apply (Hok k' b'). right. exact Hin. }
    { lia. }
    exists t2. split; [exact E2|]. cbn [ccost]. split; [lia|]. split.
    + intros q Hq Hnr. rewrite F2; [|lia|].
      * apply F1; [exact Hq|]. apply (Hnr k b). left. reflexivity.
      * intros k' b' Hin. apply (Hnr k' b'). right. exact Hin.
    + intros k' b' [Hin|Hin].
      * injection Hin as <- <-.
        apply (decides_frame d false (reader_for m) t1 t2 (length t) (length t1)); [exact S1| | |lia|lia].
        -- intros q Hq. rewrite <- (region_items m d b Hbo) in Hq. apply F2; [lia|].
           intros k' b' Hin Hr. exact (PD _ _ _ _ (or_introl eq_refl) (or_intror Hin) (Hneq _ _ Hin) q Hq Hr).
        -- intros q Hq. apply F2; [lia|]. intros k' b' Hin Hr.
           destruct (PR k' b' (or_intror Hin)) as [_ [R2 _]]. unfold in_region in Hr. lia.
      * apply (decides_frame d false (reader_for m) t2 t2 (length t1) (length t2)); [exact (S2 k' b' Hin)|reflexivity|reflexivity|lia|lia].
Qed.

(** ** Putting the passes together *)

(** The entries of the region at [off] are final, up to building the buckets. *)
Definition prepared (top : bool) (m : mode) (t0 t : list N) (off : nat) (B : list item) (cc : escape_codes) : Prop :=
  forall u, length u = lbits B ->
    ((top = false -> sub u B = []) /\ exists w i, lastin w i u B /\ length w <= 10 /\ is_prefix w u /\
       nth_error t (slot (reader_for m) off u) = Some (lut_entry (N.of_nat i) (length w))) \/
    (sub u B <> [] /\ (top = true -> no_short u B) /\ exists k b, In (k, b) cc /\
       nth_error t (slot (reader_for m) off u) = Some (esc_entry (N.of_nat (b_offset b)) (bbits b)) /\
       items_of m (b_codes b) = sub u B /\ b_maxlen b = maxl (sub u B)) \/
    (sub u B = [] /\ no_short u B /\
       nth_error t (slot (reader_for m) off u) = nth_error t0 (slot (reader_for m) off u)).

Lemma prepared_perm : forall top m t0 t off B cc cc', Permutation cc cc' -> prepared top m t0 t off B cc -> prepared top m t0 t off B cc'.
Proof.
  intros top m t0 t off B cc cc' HP H u Lu. destruct (H u Lu) as [R|[[Hs [Ht [k [b [Hin R]]]]]|R]].
  - left. exact R.
  - right. left. split; [exact Hs|]. split; [exact Ht|]. exists k, b. split; [apply (Permutation_in _ HP Hin)|exact R].
  - right. right. exact R.
Qed.

Lemma assemble : forall top m d build, build_ok m d build -> forall t0 t off B cc lo,
  placed t lo cc -> prepared top m t0 t off B cc -> off + lsize B <= lo -> lo <= length t ->
  (forall k b, In (k, b) cc -> bucket_ok m d b /\ b_codes b <> []) ->
  (N.of_nat (length t) + ccost m cc <= 2 ^ 24)%N ->
  exists t', build_all build t cc = Ret t' /\
    N.of_nat (length t') = (N.of_nat (length t) + ccost m cc)%N /\
    (forall q, q < lo -> nth_error t' q = nth_error t q) /\
    covers (S d) top (reader_for m) t0 t' lo (length t') off B.
Proof.
  intros top m d build Hb t0 t off B cc lo HP Hpre Hoff Hlo Hok H24.
  destruct (build_all_spec m d build Hb cc t lo HP Hok H24) as [t' [E [L [F Sv]]]].
  assert (Hlow : forall q, q < lo -> nth_error t' q = nth_error t q).
  { intros q Hq. apply F; [lia|]. intros k b Hin Hr. destruct HP as [_ [PR _]].
    destruct (PR k b Hin) as [R1 _]. unfold in_region in Hr. lia. }
  exists t'. split; [exact E|]. split; [exact L|]. split; [exact Hlow|].
  cbn [covers]. intros u Lu.
  assert (Hsl : slot (reader_for m) off u < lo).
  { pose proof (slot_bound (reader_for m) off u) as Hsb. unfold lsize in Hoff. rewrite Lu in Hsb. lia. }
  rewrite Hlow by exact Hsl.
  destruct (Hpre u Lu) as [[Ht [w [i [Hin [Hl [Hp En]]]]]]|[[Hs [Ht [k [b [Hin [En [Hi Hm]]]]]]]|[Hs [Hn En]]]].
  - eexists. split; [exact En|]. left. split; [exact Ht|]. exists w, i. repeat split; assumption.
  - eexists. split; [exact En|]. right. left. split; [exact Hs|]. split; [exact Ht|]. exists (b_offset b).
    destruct HP as [_ [PR _]]. destruct (PR k b Hin) as [R1 [R2 _]].
    assert (Hbs : bsize b = lsize (sub u B)) by (unfold bsize, bbits, lsize, lbits; rewrite Hm; reflexivity).
    split; [exact R1|]. split; [rewrite <- Hbs; lia|].
    assert (0 < bsize b) by (unfold bsize; pose proof (pow2_pos (bbits b)); lia).
    split; [lia|]. split; [unfold bbits, lbits; rewrite Hm; reflexivity|].
    rewrite <- Hi. apply (decides_frame d false (reader_for m) t' t' (length t) (length t')); [exact (Sv k b Hin)|reflexivity|reflexivity|lia|lia].
  - destruct (nth_error t (slot (reader_for m) off u)) as [x|] eqn:Ex.
    + exists x. split; [reflexivity|]. right. right. split; [symmetry; exact En|]. split; assumption.
    + apply nth_error_None in Ex. lia.
Qed.

(** A bucket found by [esc_ok] is fit for building one level deeper. *)
Lemma sub_bucket_ok : forall m d B cc k b b', esc_ok m B cc ->
  (forall w i, In (w, i) B -> (N.of_nat i < 2 ^ 24)%N) -> maxl B <= 10 * S d ->
  In (k, b) cc -> b_maxlen b' = b_maxlen b -> b_codes b' = b_codes b -> bucket_ok m d b' /\ b_codes b' <> [].
Proof.
  intros m d B cc k b b' He Hidx Hmax Hin Hm Hc.
  destruct (eo_sound _ _ _ He k b Hin) as [u [Lu [Ek [Hi [Hne [Hml Hok]]]]]]. unfold bucket_ok.
  rewrite Hc, Hm. rewrite Hi, Hml. split.
  - split; [exact Hok|]. split.
    + unfold small_idx. apply Forall_forall. intros c Hcin.
      assert (Hx : In (codeword m (c_code c) (c_bits c), c_idx c) (items_of m (b_codes b))).
      { unfold items_of. apply in_map_iff. exists c. split; [reflexivity|exact Hcin]. }
      rewrite Hi in Hx. apply sub_in in Hx. destruct Hx as [_ [_ Hx]]. apply (Hidx _ _ Hx).
    + split; [reflexivity|]. pose proof (maxl_sub u B). lia.
  - intros E. apply Hne. rewrite <- Hi, E. reflexivity.
Qed.

Lemma items_idx : forall m cs, small_idx cs -> forall w i, In (w, i) (items_of m cs) -> (N.of_nat i < 2 ^ 24)%N.
Proof.
  intros m cs H w i Hin. unfold items_of in Hin. apply in_map_iff in Hin. destruct Hin as [c [E Hin]].
  apply pair_equal_spec in E. destruct E as [_ <-]. unfold small_idx in H. rewrite Forall_forall in H. apply H. exact Hin.
Qed.

Lemma pow2_lsize : forall B, 10 < maxl B -> lsize B = 1024.
Proof. intros B H. unfold lsize, lbits. replace (Nat.min (maxl B) 10) with 10 by lia. reflexivity. Qed.

Lemma in_sub_long : forall u B, sub u B <> [] -> 10 < maxl B /\ length u = 10.
Proof.
  intros u B H. destruct (sub u B) as [|[w i] r] eqn:E; [congruence|].
  assert (Hin : In (w, i) (sub u B)) by (rewrite E; left; reflexivity).
  apply sub_in in Hin. destruct Hin as [Lu [Hw Hin]]. apply maxl_in in Hin. rewrite app_length in Hin.
  split; [|exact Lu]. destruct w; [congruence|]. cbn in Hin. lia.
Qed.

(** No short word of such a set matches where a long one starts. *)
Lemma no_short_levels : forall u B w i, lpf B -> sub u B <> [] -> In (w, i) B -> length w <= 10 -> ~ is_prefix w u.
Proof.
  intros u B w i Hpf Hs Hin Hl Hp. destruct (sub u B) as [|[w2 i2] r] eqn:E; [congruence|].
  assert (Hin2 : In (w2, i2) (sub u B)) by (rewrite E; left; reflexivity).
  apply sub_in in Hin2. destruct Hin2 as [Lu [Hw2 Hin2]].
  assert (P : is_prefix w (u ++ w2)) by (apply (prefix_trans _ u); [exact Hp|exists w2; reflexivity]).
  pose proof (Hpf _ _ _ _ Hin Hin2 P) as Ew. rewrite app_length, Lu in Ew.
  assert (0 < length w2) by (destruct w2; [congruence|cbn; lia]).
  rewrite (Nat.div_small (length w - 1)) in Ew by lia.
  assert (1 <= (10 + length w2 - 1) / 10) by (apply Nat.div_le_lower_bound; lia). lia.
Qed.

(** In particular of a prefix-free one. *)
Lemma no_short_at_escape : forall u B w i, pf B -> sub u B <> [] -> In (w, i) B -> length w <= 10 -> ~ is_prefix w u.
Proof. intros u B w i H. apply no_short_levels. apply pf_lpf. exact H. Qed.

Lemma build_esc_ok : forall m ord, permuting ord -> forall d path,
  build_gen m d (fun t key b => build_esc_lut d ord path t m b) /\
  build_gen m d (fun t key b => build_esc_lut d ord (key :: path) t m b).
Proof.
  intros m ord Hord. 
  assert (G : forall d path t b, bucket_ok m d b -> b_codes b <> [] -> b_offset b + bsize b <= length t ->
    (N.of_nat (length t) + cost (items_of m (b_codes b)) <= 2 ^ 24)%N ->
    exists t', build_esc_lut d ord path t m b = Ret t' /\
      N.of_nat (length t') = (N.of_nat (length t) + cost (items_of m (b_codes b)))%N /\
      (forall q, q < length t -> ~ in_region b q -> nth_error t' q = nth_error t q) /\
      covers d false (reader_for m) t t' (length t) (length t') (b_offset b) (items_of m (b_codes b))).
  2:{ intros d path. split; intros t key b; apply G. }
  induction d as [|d IH]; intros path t b Hok Hne Ht H24.
  - exfalso. destruct Hok as [Hco [_ [Hm Hd]]]. destruct (b_codes b) as [|c cs]; [congruence|].
    inversion_clear Hco as [|? ? [Hc _] _]. cbn [items_of map maxl] in Hm. rewrite codeword_length in Hm. lia.
  - cbn [build_esc_lut]. pose proof Hok as Hok0. destruct Hok as [Hco [Hsm [Hm Hd]]].
    set (B := items_of m (b_codes b)) in *. change MAX_LUT_BITS with 10. fold (bbits b).
    assert (HbL : bbits b = lbits B) by (unfold bbits, lbits; rewrite Hm; reflexivity).
    assert (Hsz : bsize b = lsize B) by (unfold bsize, lsize; rewrite HbL; reflexivity).
    assert (Hidx : forall w i, In (w, i) B -> (N.of_nat i < 2 ^ 24)%N) by (apply items_idx; exact Hsm).
    destruct (esc_pass1_spec m (b_offset b) (bbits b) t (b_codes b) t [] [] Hco Hsm) as [t1 [cc [E1 [Hf He]]]].
    + apply Forall_forall. intros c Hin Hle. rewrite HbL. unfold lbits.
      assert (In (codeword m (c_code c) (c_bits c), c_idx c) B).
      { unfold B, items_of. apply in_map_iff. exists c. split; [reflexivity|exact Hin]. }
      apply maxl_in in H. rewrite codeword_length in H. lia.
    + unfold bbits. lia.
    + exact Ht.
    + split; [reflexivity|]. split; [reflexivity|]. intros u Lu. right. split; [intros; contradiction|reflexivity].
    + apply esc_ok_nil.
    + rewrite E1. cbn [obind app] in *. fold B in Hf, He. clear E1.
      destruct Hf as [Lt1 [Hout Hent]]. change (N.to_nat (pow2 (bbits b))) with (bsize b) in Hout.
      pose proof (esc_cost _ _ _ He) as HC.
      pose proof (csize_perm _ _ (Hord path cc)) as Hlen.
      assert (Hmax10 : cc <> [] -> 10 < maxl B).
      { intros Hcc. destruct cc as [|[k0 b0] cc0]; [congruence|].
        destruct (eo_sound _ _ _ He k0 b0 (or_introl eq_refl)) as [u [_ [_ [_ [Hs _]]]]].
        apply in_sub_long in Hs. apply Hs. }
      destruct (esc_pass2_spec m (b_offset b) (ord path cc) t1) as [t2 [cc2 [E2 [L2 [_ [P2 [K2 [S2 F2]]]]]]]].
      * apply (Permutation_NoDup (Permutation_map fst (Hord path cc))). apply He.
      * apply Forall_forall. intros [k0 b0] Hin. apply (Permutation_in _ (Permutation_sym (Hord path cc))) in Hin.
        destruct (eo_sound _ _ _ He k0 b0 Hin) as [u [Lu [Ek _]]]. exists u. split; [exact Lu|exact Ek].
      * intros Hcc. assert (Hcc' : cc <> []).
        { intros ->. apply Hcc. apply Permutation_nil. apply Hord. }
        specialize (Hmax10 Hcc'). rewrite (pow2_lsize B Hmax10) in Hsz. lia.
      * lia.
      * rewrite E2. cbn [obind]. clear E2.
        assert (Hback : forall k b', In (k, b') cc2 -> exists b0, In (k, b0) cc /\ b_maxlen b' = b_maxlen b0 /\ b_codes b' = b_codes b0).
        { intros k b' Hin. destruct (S2 k b' Hin) as [[b0 [I0 R0]] _]. exists b0. split; [|exact R0].
          apply (Permutation_in _ (Permutation_sym (Hord path cc)) I0). }
        assert (Hcc2 : ccost m cc2 = ccost m cc).
        { rewrite (ccost_perm m _ _ (Hord path cc)). clear -K2 S2 P2.
          assert (Hc : forall k b', In (k, b') cc2 -> exists b0, In (k, b0) (ord path cc) /\ b_codes b' = b_codes b0).
          { intros k b' Hin. destruct (S2 k b' Hin) as [[b0 [I0 [_ R0]]] _]. exists b0. split; assumption. }
          destruct P2 as [ND _]. rewrite K2 in ND. clear S2. revert K2 Hc ND. generalize (ord path cc) as l.
          induction cc2 as [|[k b'] cc2 IH]; intros [|[k0 b0] l] HK Hc ND; try discriminate; [reflexivity|].
          cbn [map fst] in HK, ND. injection HK as <- HK. cbn [ccost]. inversion_clear ND as [|? ? Hn ND'].
          f_equal.
          - destruct (Hc k b' (or_introl eq_refl)) as [b1 [[I1|I1] E]].
            + apply pair_equal_spec in I1. destruct I1 as [_ <-]. rewrite E. reflexivity.
            + exfalso. apply Hn. apply (in_map fst) in I1. exact I1.
          - apply IH; [exact HK| |exact ND'].
            intros k' b1 Hin. destruct (Hc k' b1 (or_intror Hin)) as [b2 [[I1|I1] E]].
            + exfalso. apply Hn. apply pair_equal_spec in I1. destruct I1 as [-> _]. rewrite <- HK.
              apply (in_map fst) in Hin. exact Hin.
            + exists b2. split; assumption. }
        assert (Hprep : prepared false m t t2 (b_offset b) B cc2).
        { intros u Lu. destruct (sub u B) eqn:Es.
          - (* no escape at u *)
            assert (Hun : nth_error t2 (slot (reader_for m) (b_offset b) u) = nth_error t1 (slot (reader_for m) (b_offset b) u)).
            { apply F2.
              - pose proof (slot_bound (reader_for m) (b_offset b) u) as Hsb. rewrite Lu in Hsb. unfold lsize in Hsz. lia.
              - intros k Hin Heq. apply in_map_iff in Hin. destruct Hin as [[k0 b0] [<- Hin]]. cbn [fst] in Heq.
                apply (Permutation_in _ (Permutation_sym (Hord path cc))) in Hin.
                destruct (eo_sound _ _ _ He k0 b0 Hin) as [v [Lv [Ev [_ [Hs _]]]]].
                assert (u = v).
                { apply (value_inj (reader_for m)); [|unfold slot in Heq; lia].
                  apply in_sub_long in Hs. unfold lbits in Lu. lia. }
                subst v. congruence. }
            rewrite Hun. rewrite HbL in Hent. destruct (Hent u Lu) as [[w [i [Hin [Hl [Hp En]]]]]|[Hn En]].
            + left. split; [intros _; reflexivity|]. exists w, i. split; [exact Hin|]. split; [exact Hl|]. split; assumption.
            + right. right. split; [reflexivity|]. split; assumption.
          - right. left. split; [discriminate|]. split; [discriminate|].
            assert (Hs : sub u B <> []) by (rewrite Es; discriminate).
            destruct (in_sub_long u B Hs) as [_ Lu10].
            destruct (eo_complete _ _ _ He u Lu10 Hs) as [b0 Hin0].
            assert (Hkin : In (value (reader_for m) u) (map fst cc2)).
            { rewrite K2. apply (Permutation_in _ (Permutation_map fst (Hord path cc))).
              apply (in_map fst) in Hin0. exact Hin0. }
            apply in_map_iff in Hkin. destruct Hkin as [[k b'] [Ek Hin]]. cbn [fst] in Ek. subst k.
            exists (value (reader_for m) u), b'. split; [exact Hin|].
            destruct (S2 _ _ Hin) as [_ En]. split; [exact En|].
            destruct (Hback _ _ Hin) as [b1 [I1 [M1 C1]]]. rewrite C1, M1.
            destruct (eo_sound _ _ _ He _ _ I1) as [v [Lv [Ev [Hiv [_ [Hmv _]]]]]].
            assert (v = u) by (apply (value_inj (reader_for m)); [lia|exact Ev]). subst v.
            rewrite <- Es. split; assumption. }
        destruct (assemble false m d (fun t0 key b' => build_esc_lut d ord (key :: path) t0 m b')) with
          (t0 := t) (t := t2) (off := b_offset b) (B := B) (cc := cc2) (lo := length t1) as [t3 [E3 [L3 [F3 S3]]]].
        -- apply gen_build. intros t0 key b'. apply IH.
        -- exact P2.
        -- exact Hprep.
        -- rewrite <- Hsz. lia.
        -- lia.
        -- intros k b' Hin. destruct (Hback k b' Hin) as [b0 [I0 [M0 C0]]].
           apply (sub_bucket_ok m d B cc k b0 b' He Hidx ltac:(lia) I0 M0 C0).
        -- rewrite Hcc2. lia.
        -- exists t3. split; [exact E3|]. rewrite Hcc2 in L3. split; [lia|]. split.
           ++ intros q Hq Hnr. rewrite F3 by lia. rewrite F2; [|lia|].
              ** apply Hout. exact Hnr.
              ** intros k Hin Heq. apply Hnr. apply in_map_iff in Hin. destruct Hin as [[k0 b0] [<- Hin]]. cbn [fst] in Heq.
                 apply (Permutation_in _ (Permutation_sym (Hord path cc))) in Hin.
                 destruct (eo_sound _ _ _ He k0 b0 Hin) as [v [Lv [Ev [_ [Hs _]]]]].
                 pose proof (slot_bound (reader_for m) (b_offset b) v) as Hsb. unfold slot in Hsb. rewrite Ev, Lv in Hsb.
                 change (N.to_nat (pow2 10)) with 1024 in Hsb. unfold in_region. rewrite Hsz, pow2_lsize; [lia|].
                 apply in_sub_long in Hs. apply Hs.
           ++ rewrite <- Lt1. exact S3.
Qed.
