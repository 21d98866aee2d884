(** Descriptions with any codewords. *)
From Coq Require Import List Arith NArith ZArith Bool Lia Permutation.
From Coq Require Import ZifyBool ZifyNat ZifyN.
From Verif Require Import Base BitModel BitSpec BitProofs BitProofs2 BitQueueSpec BitQueueProofs CodebookModel
  CodebookSpec CodebookProofs CodebookProofs2 CodebookProofs3 CodebookProofs4 CodebookProofs5 CbQueueSpec CbQueueProofs
  CbLevelSpec CbLevelProofs CbShadowSpec CbShadowProofs CbFullSpec.
Import ListNotations.
Local Open Scope nat_scope.

(** ** Building tables of which some lie at the beginning *)

(** A word of [P], laid at offset 0, wrote the entry [q]. *)
Definition hit (d : nat) (e : endian) (t : list N) (lo hi : nat) (P : list item) (q : nat) (x : N) : Prop :=
  exists u, length u = lbits P /\ q = slot e 0 u /\
    ((sub u P = [] /\ exists w i, lastin w i u P /\ length w <= 10 /\ is_prefix w u /\ x = lut_entry (N.of_nat i) (length w)) \/
     (sub u P <> [] /\ exists o, lo <= o /\ o + lsize (sub u P) <= hi /\ (N.of_nat o < 2 ^ 24)%N /\
        x = esc_entry (N.of_nat o) (lbits (sub u P)) /\ decides d false e t lo hi o (sub u P))).

Definition miss (e : endian) (P : list item) (q : nat) : Prop :=
  forall u, length u = lbits P -> q = slot e 0 u -> sub u P = [] /\ no_short u P.

Lemma hit_frame : forall d e t t' lo hi lo' hi' P q x, hit d e t lo hi P q x ->
  (forall k, lo <= k < hi -> nth_error t' k = nth_error t k) -> lo' <= lo -> hi <= hi' -> hit d e t' lo' hi' P q x.
Proof.
  intros d e t t' lo hi lo' hi' P q x [u [Lu [Eq H]]] Hf Hlo Hhi. exists u. split; [exact Lu|]. split; [exact Eq|].
  destruct H as [H|[Hs [o [Ho1 [Ho2 [Ho3 [Hx H]]]]]]]; [left; exact H|].
  right. split; [exact Hs|]. exists o. split; [lia|]. split; [lia|]. split; [exact Ho3|]. split; [exact Hx|].
  apply (decides_frame d false e t t' lo hi lo' hi' o); [exact H| |exact Hf|exact Hlo|exact Hhi].
  intros k Hk. apply Hf. lia.
Qed.

(** The last of the tables laid there that wrote the entry counts. *)
Definition laid (d : nat) (e : endian) (t0 t : list N) (lo hi : nat) (Ps : list (list item)) (q : nat) (x : N) : Prop :=
  (nth_error t0 q = Some x /\ forall P, In P Ps -> miss e P q) \/
  exists P1 P P2, Ps = P1 ++ P :: P2 /\ hit d e t lo hi P q x /\ forall P', In P' P2 -> miss e P' q.

Definition at_zero (x : N * bucket) : bool := b_offset (snd x) =? 0.
Definition laid_items (m : mode) (cc : escape_codes) : list (list item) :=
  map (fun x => items_of m (b_codes (snd x))) (filter at_zero cc).

Lemma build_mixed : forall m d build, build_gen m (S d) build -> forall cc t lo, NoDup (map fst cc) -> lo <= length t ->
  (forall k b, In (k, b) cc -> bucket_ok m (S d) b /\ b_codes b <> []) ->
  (forall k b, In (k, b) cc -> b_offset b = 0 -> bsize b <= lo) ->
  (forall k b, In (k, b) cc -> b_offset b <> 0 -> lo <= b_offset b /\ b_offset b + bsize b <= length t /\ blank t b) ->
  (forall k1 b1 k2 b2, In (k1, b1) cc -> In (k2, b2) cc -> k1 <> k2 -> b_offset b1 <> 0 -> b_offset b2 <> 0 ->
     forall q, in_region b1 q -> ~ in_region b2 q) ->
  (N.of_nat (length t) + ccost m cc <= 2 ^ 24)%N ->
  exists t', build_all build t cc = Ret t' /\
    N.of_nat (length t') = (N.of_nat (length t) + ccost m cc)%N /\
    (forall q, lo <= q < length t -> (forall k b, In (k, b) cc -> b_offset b <> 0 -> ~ in_region b q) -> nth_error t' q = nth_error t q) /\
    (forall k b, In (k, b) cc -> b_offset b <> 0 ->
       decides (S d) false (reader_for m) t' (length t) (length t') (b_offset b) (items_of m (b_codes b))) /\
    (forall q, q < lo -> exists x, nth_error t' q = Some x /\
       laid d (reader_for m) t t' (length t) (length t') (laid_items m cc) q x).
Proof.
  intros m d build Hb. induction cc as [|[k b] cc IH]; intros t lo ND Hlo Hok Hz Hnz PD H24.
  - exists t. split; [reflexivity|]. cbn [ccost]. split; [lia|]. split; [reflexivity|]. split; [intros ? ? []|].
    intros q Hq. destruct (nth_error t q) as [x|] eqn:E.
    + exists x. split; [reflexivity|]. left. split; [exact E|intros P []].
    + apply nth_error_None in E. lia.
  - cbn [ccost] in H24. cbn [build_all]. destruct (Hok k b (or_introl eq_refl)) as [Hbo Hne].
    assert (Hin : b_offset b + bsize b <= length t).
    { destruct (Nat.eq_dec (b_offset b) 0) as [E|E].
      - pose proof (Hz k b (or_introl eq_refl) E). lia.
      - apply (Hnz k b (or_introl eq_refl) E). }
    destruct (Hb t k b Hbo Hne Hin ltac:(lia)) as [t1 [E1 [L1 [F1 C1]]]]. rewrite E1. cbn [obind].
    inversion_clear ND as [|? ? Hk ND'].
    assert (Hneq : forall k' b', In (k', b') cc -> k <> k').
    { intros k' b' Hi ->. apply Hk. apply (in_map fst) in Hi. exact Hi. }
    assert (Hdis : forall k' b', In (k', b') cc -> b_offset b' <> 0 -> forall q, in_region b' q -> ~ in_region b q).
    { intros k' b' Hi Hz' q Q1 Q2. destruct (Nat.eq_dec (b_offset b) 0) as [E|E].
      - pose proof (Hz k b (or_introl eq_refl) E). destruct (Hnz k' b' (or_intror Hi) Hz') as [R1 _].
        unfold in_region in *. lia.
      - exact (PD _ _ _ _ (or_intror Hi) (or_introl eq_refl) (not_eq_sym (Hneq _ _ Hi)) Hz' E q Q1 Q2). }
    destruct (IH t1 lo ND' ltac:(lia)) as [t2 [E2 [L2 [F2 [D2 M2]]]]].
    { intros k' b' Hi. apply (Hok k' b'). right. exact Hi. }
    { intros k' b' Hi. apply (Hz k' b'). right. exact Hi. }
    { intros k' b' Hi Hz'. destruct (Hnz k' b' (or_intror Hi) Hz') as [R1 [R2 R3]]. split; [exact R1|]. split; [lia|].
      intros q Hq. rewrite F1; [apply R3; exact Hq|unfold in_region in Hq; lia|]. apply (Hdis k' b' Hi Hz' q Hq). }
    { intros k1 b1 k2 b2 I1 I2. apply (PD k1 b1 k2 b2); right; assumption. }
    { lia. }
    assert (Hnew : forall q, length t <= q < length t1 -> nth_error t2 q = nth_error t1 q).
    { intros q Hq. apply F2; [lia|]. intros k' b' Hi Hz' Hr. destruct (Hnz k' b' (or_intror Hi) Hz') as [_ [R2 _]].
      unfold in_region in Hr. lia. }
    exists t2. split; [exact E2|]. cbn [ccost]. split; [lia|]. split; [|split].
    + intros q Hq Hnr. rewrite F2; [|lia|].
      * apply F1; [lia|]. destruct (Nat.eq_dec (b_offset b) 0) as [E|E].
        -- pose proof (Hz k b (or_introl eq_refl) E). unfold in_region. lia.
        -- apply (Hnr k b (or_introl eq_refl) E).
      * intros k' b' Hi. apply (Hnr k' b'). right. exact Hi.
    + intros k' b' [Hi|Hi] Hz'.
      * injection Hi as <- <-. destruct (Hnz k b (or_introl eq_refl) Hz') as [R1 [R2 R3]].
        apply (decides_frame (S d) false (reader_for m) t1 t2 (length t) (length t1)); [| |exact Hnew|lia|lia].
        -- apply (covers_decides _ _ _ t); [exact C1|]. intros u Lu. apply R3. unfold in_region.
           rewrite (region_items m (S d) b Hbo). unfold lsize. rewrite <- Lu. apply slot_bound.
        -- intros q Hq. rewrite <- (region_items m (S d) b Hbo) in Hq. apply F2; [lia|].
           intros k' b' Hi Hz2 Hr. exact (Hdis k' b' Hi Hz2 q Hr Hq).
      * apply (decides_frame (S d) false (reader_for m) t2 t2 (length t1) (length t2)); [exact (D2 k' b' Hi Hz')|reflexivity|reflexivity|lia|lia].
    + intros q Hq. destruct (M2 q Hq) as [x [Nx Lx]]. exists x. split; [exact Nx|].
      assert (Hlater : forall P, hit d (reader_for m) t2 (length t1) (length t2) P q x ->
                hit d (reader_for m) t2 (length t) (length t2) P q x).
      { intros P HP. apply (hit_frame d (reader_for m) t2 t2 (length t1) (length t2)); [exact HP|reflexivity|lia|lia]. }
      unfold laid_items, laid in *. cbn [filter]. change (at_zero (k, b)) with (b_offset b =? 0).
      destruct (Nat.eqb_spec (b_offset b) 0) as [E|E].
      * cbn [map snd]. set (P0 := items_of m (b_codes b)) in *.
        destruct Lx as [[N1 Hm]|[P1 [P [P2 [EP [HP Hm]]]]]].
        -- pose proof (region_items m (S d) b Hbo) as Hsz. fold P0 in Hsz.
           destruct (Nat.lt_ge_cases q (lsize P0)) as [Hql|Hql].
           ++ (* in the region of the first bucket *)
              assert (Hu : exists u, length u = lbits P0 /\ q = slot (reader_for m) 0 u).
              { destruct (value_surj (reader_for m) (N.of_nat q) (lbits P0)) as [u [Lu Ev]].
                - unfold lsize in Hql. lia.
                - exists u. split; [exact Lu|]. unfold slot. lia. }
              destruct Hu as [u [Lu Eq]]. cbn [covers] in C1. rewrite E in C1. destruct (C1 u Lu) as [x1 [Nx1 Hc]].
              rewrite <- Eq in Nx1. rewrite N1 in Nx1. injection Nx1 as <-.
              destruct Hc as [[Hs Hc]|[[Hs [_ Hc]]|[N0 Hc]]].
              ** right. exists [], P0, (map (fun x0 => items_of m (b_codes (snd x0))) (filter at_zero cc)).
                 split; [reflexivity|]. split; [|exact Hm]. exists u. split; [exact Lu|]. split; [exact Eq|].
                 left. split; [apply Hs; reflexivity|exact Hc].
              ** right. exists [], P0, (map (fun x0 => items_of m (b_codes (snd x0))) (filter at_zero cc)).
                 split; [reflexivity|]. split; [|exact Hm].
                 apply (hit_frame d (reader_for m) t1 t2 (length t) (length t1)); [|exact Hnew|lia|lia].
                 exists u. split; [exact Lu|]. split; [exact Eq|]. right. split; [exact Hs|exact Hc].
              ** left. rewrite <- Eq in N0. split; [exact N0|]. intros P [<-|HP]; [|apply Hm; exact HP].
                 intros v Lv Ev. assert (v = u) by (apply (slot_inj (reader_for m) 0); [lia|congruence]). subst v. exact Hc.
           ++ left. split.
              ** rewrite <- N1. symmetry. apply F1; [lia|]. unfold in_region. lia.
              ** intros P [<-|HP]; [|apply Hm; exact HP]. intros u Lu Eu. exfalso.
                 pose proof (slot_bound (reader_for m) 0 u) as Hsb. rewrite Lu in Hsb. unfold lsize in Hql. lia.
        -- right. exists (P0 :: P1), P, P2. split; [cbn [app]; rewrite EP; reflexivity|]. split; [apply Hlater; exact HP|exact Hm].
      * destruct (Hnz k b (or_introl eq_refl) E) as [R1 _].
        destruct Lx as [[N1 Hm]|[P1 [P [P2 [EP [HP Hm]]]]]].
        -- left. split; [|exact Hm]. rewrite <- N1. symmetry. apply F1; [lia|]. unfold in_region. lia.
        -- right. exists P1, P, P2. split; [exact EP|]. split; [apply Hlater; exact HP|exact Hm].
Qed.

(** ** Places at the beginning of the main table *)

Lemma zeros_of : forall l, forallb negb l = true -> l = zeros (length l).
Proof.
  induction l as [|b l IH]; intros H; [reflexivity|]. cbn [forallb] in H. apply andb_prop in H. destruct H as [H1 H2].
  destruct b; [discriminate|]. cbn [length zeros repeat]. f_equal. apply IH. exact H2.
Qed.

Lemma zeros_negb : forall k, forallb negb (zeros k) = true.
Proof. induction k; [reflexivity|exact IHk]. Qed.

Lemma pad_msb : forall k v, value BE (zeros k ++ v) = value BE v.
Proof. intros k v. cbn [value]. rewrite value_be_app. pose proof (value_zeros BE k) as H. cbn [value] in H. rewrite H. lia. Qed.

Lemma pad_lsb : forall k v, value LE (v ++ zeros k) = value LE v.
Proof. intros k v. cbn [value]. rewrite value_le_app. pose proof (value_zeros LE k) as H. cbn [value] in H. rewrite H. lia. Qed.

Lemma at_start_some : forall m n u v, length u = 10 -> n <= 10 -> at_start m n u = Some v ->
  length v = n /\ slot (reader_for m) 0 u = slot (reader_for m) 0 v.
Proof.
  intros m n u v Lu Hn H. unfold at_start in H. destruct m.
  - destruct (forallb negb (firstn (10 - n) u)) eqn:E; [|discriminate].
    assert (Ev : v = skipn (10 - n) u) by congruence. clear H. subst v.
    rewrite skipn_length, Lu. split; [lia|]. apply zeros_of in E. rewrite <- (firstn_skipn (10 - n) u) at 1. rewrite E.
    unfold slot. cbn [reader_for]. rewrite pad_msb. reflexivity.
  - destruct (forallb negb (skipn n u)) eqn:E; [|discriminate].
    assert (Ev : v = firstn n u) by congruence. clear H. subst v.
    rewrite firstn_length, Lu. split; [lia|]. apply zeros_of in E. rewrite <- (firstn_skipn n u) at 1. rewrite E.
    unfold slot. cbn [reader_for]. rewrite pad_lsb. reflexivity.
Qed.

Lemma at_start_of : forall m u v, length u = 10 -> length v <= 10 -> slot (reader_for m) 0 u = slot (reader_for m) 0 v ->
  at_start m (length v) u = Some v.
Proof.
  intros m u v Lu Hn H. assert (Hv : value (reader_for m) u = value (reader_for m) v) by (unfold slot in H; lia). destruct m; cbn [reader_for at_start] in *.
  - assert (E : u = zeros (10 - length v) ++ v).
    { apply (value_inj BE); [rewrite app_length; unfold zeros; rewrite repeat_length; lia|]. rewrite pad_msb. exact Hv. }
    assert (Lz : length (zeros (10 - length v)) = 10 - length v) by (unfold zeros; apply repeat_length).
    rewrite E. rewrite firstn_app, skipn_app, Lz, Nat.sub_diag, firstn_O, app_nil_r, firstn_all2, zeros_negb, skipn_all2 by lia.
    reflexivity.
  - assert (E : u = v ++ zeros (10 - length v)).
    { apply (value_inj LE); [rewrite app_length; unfold zeros; rewrite repeat_length; lia|]. rewrite pad_lsb. exact Hv. }
    rewrite E. rewrite firstn_app, skipn_app, Nat.sub_diag, firstn_O, app_nil_r, firstn_all, skipn_all.
    cbn [app skipn]. rewrite zeros_negb. reflexivity.
Qed.

(** ** What the entries of the main table stand for *)

Definition ent {S : Type} (syms : list S) (e : endian) (t : list N) (f : found S) (x : N) : Prop :=
  match f with
  | Nothing => x = TABLE_FILL_VALUE
  | Word n s => exists i, x = lut_entry (N.of_nat i) n /\ n <= 10 /\ (N.of_nat i < 2 ^ 24)%N /\ nth_error syms i = Some s
  | GoOn C => exists P d lo hi o, matching syms P C /\ P <> [] /\ nonempty P /\ (forall w i, In (w, i) P -> (N.of_nat i < 2 ^ 24)%N) /\
      maxl P <= 250 /\ (N.of_nat o < 2 ^ 24)%N /\ x = esc_entry (N.of_nat o) (lbits P) /\ decides d false e t lo hi o P
  end.

Lemma complete_none : forall (S : Type) (syms : list S) P C u, matching syms P C -> no_short u P -> complete u C = [].
Proof.
  intros S syms P C u Hm Hn. destruct (complete u C) as [|[w s] r] eqn:E; [reflexivity|]. exfalso.
  assert (Hin : In (w, s) (complete u C)) by (rewrite E; left; reflexivity). apply complete_in in Hin. destruct Hin as [Hin [Hl Hp]].
  destruct (matching_in_rev _ syms P C w s Hm Hin) as [i [Hi _]]. exact (Hn w i Hi Hl Hp).
Qed.

Definition small_items (P : list item) : Prop := forall w i, In (w, i) P -> (N.of_nat i < 2 ^ 24)%N.

Lemma small_sub : forall u P, small_items P -> small_items (sub u P).
Proof. intros u P H w i Hin. apply sub_in in Hin. apply (H (u ++ w)). apply Hin. Qed.

Lemma miss_nothing : forall (S : Type) (syms : list S) m P C u, matching syms P C -> length u = 10 ->
  miss (reader_for m) P (slot (reader_for m) 0 u) -> misplaced m C u = Nothing.
Proof.
  intros S syms m P C u Hm Lu H. unfold misplaced. rewrite (matching_look _ _ _ _ Hm).
  destruct (at_start m (lbits P) u) as [v|] eqn:E; [|reflexivity].
  destruct (at_start_some m (lbits P) u v Lu ltac:(unfold lbits; lia) E) as [Lv Es].
  destruct (H v Lv Es) as [Hs Hn]. unfold in_table.
  rewrite (proj1 (matching_nil _ _ _ _ (matching_longer _ _ _ _ v Hm)) Hs), (complete_none _ _ _ _ v Hm Hn). reflexivity.
Qed.

Lemma hit_found : forall (S : Type) (syms : list S) m P C u d t lo hi x, matching syms P C -> small_items P -> maxl P <= 255 ->
  length u = 10 -> hit d (reader_for m) t lo hi P (slot (reader_for m) 0 u) x ->
  misplaced m C u <> Nothing /\ ent syms (reader_for m) t (misplaced m C u) x.
Proof.
  intros S syms m P C u d t lo hi x Hm Hsm Hmax Lu [v [Lv [Es H]]]. unfold misplaced. rewrite (matching_look _ _ _ _ Hm), <- Lv.
  rewrite (at_start_of m u v Lu ltac:(unfold lbits in Lv; lia) Es). unfold in_table.
  pose proof (matching_longer _ _ _ _ v Hm) as Hml.
  destruct H as [[Hs [w [i [Hla [Hl [Hp ->]]]]]]|[Hs [o [Ho1 [Ho2 [Ho3 [-> Hd]]]]]]].
  - rewrite (proj1 (matching_nil _ _ _ _ Hml) Hs).
    destruct (lastin_complete _ _ _ _ w i v Hm Hla Hl Hp) as [s [rest [-> Hsym]]]. split; [discriminate|].
    cbn [ent]. exists i. split; [reflexivity|]. split; [exact Hl|]. split; [apply (Hsm w); apply (lastin_in _ _ _ _ Hla)|exact Hsym].
  - destruct (longer v C) as [|c cs] eqn:El.
    + exfalso. apply Hs. apply (matching_nil _ _ _ _ Hml). reflexivity.
    + split; [discriminate|]. cbn [ent]. exists (sub v P), d, lo, hi, o. split; [exact Hml|]. split; [exact Hs|].
      split; [apply nonempty_sub|]. split; [apply (small_sub v P Hsm)|]. pose proof (maxl_sub v P). split; [lia|].
      split; [exact Ho3|]. split; [reflexivity|exact Hd].
Qed.

Lemma full_miss : forall (S : Type) (syms : list S) m B codes u ks ks', matching syms B codes -> length u = 10 ->
  (forall k, In k ks -> miss (reader_for m) (sub k B) (slot (reader_for m) 0 u)) ->
  in_full m (ks ++ ks') codes u = in_full m ks' codes u.
Proof.
  intros S syms m B codes u ks ks' Hm Lu. induction ks as [|k ks IH]; intros H; cbn [app in_full]; [reflexivity|].
  rewrite (miss_nothing S syms m (sub k B) (longer k codes) u (matching_longer _ _ _ _ k Hm) Lu (H k (or_introl eq_refl))).
  apply IH. intros k' Hk. apply H. right. exact Hk.
Qed.

Lemma laid_full : forall (S : Type) (syms : list S) m B codes u d t0 t lo hi ks x, matching syms B codes -> small_items B ->
  maxl B <= 255 -> length u = 10 ->
  laid d (reader_for m) t0 t lo hi (map (fun k => sub k B) ks) (slot (reader_for m) 0 u) x ->
  (nth_error t0 (slot (reader_for m) 0 u) = Some x -> ent syms (reader_for m) t (in_main codes u) x) ->
  ent syms (reader_for m) t (in_full m (rev ks) codes u) x.
Proof.
  intros S syms m B codes u d t0 t lo hi ks x Hm Hsm Hmax Lu [[Hx Hmi]|[P1 [P [P2 [EP [HP Hmi]]]]]] Hmain.
  - rewrite <- (app_nil_r (rev ks)), (full_miss S syms m B codes u _ _ Hm Lu).
    + cbn [in_full]. apply Hmain. exact Hx.
    + intros k Hk. apply Hmi. apply in_map_iff. exists k. split; [reflexivity|]. apply in_rev. exact Hk.
  - apply map_eq_app in EP. destruct EP as [k1 [k2' [-> [_ EP]]]]. apply map_eq_cons in EP.
    destruct EP as [k [k2 [-> [<- E2]]]]. rewrite rev_app_distr. cbn [rev]. rewrite <- app_assoc.
    rewrite (full_miss S syms m B codes u _ _ Hm Lu).
    + cbn [app in_full].
      destruct (hit_found S syms m (sub k B) (longer k codes) u d t lo hi x (matching_longer _ _ _ _ k Hm) (small_sub k B Hsm))
        as [Hne He]; [pose proof (maxl_sub k B); lia|exact Lu|exact HP|].
      destruct (misplaced m (longer k codes) u); [congruence|exact He|exact He].
    + intros k' Hk. apply Hmi. rewrite <- E2. apply in_map_iff. exists k'. split; [reflexivity|]. apply in_rev. exact Hk.
Qed.

(** ** Construction *)

Lemma laid_keys : forall m B ks zs, Forall (fun u => length u = 10) ks -> map (value (reader_for m)) ks = map fst zs ->
  (forall u b, length u = 10 -> In (value (reader_for m) u, b) zs -> items_of m (b_codes b) = sub u B) ->
  map (fun x => items_of m (b_codes (snd x))) zs = map (fun k => sub k B) ks.
Proof.
  intros m B. induction ks as [|u ks IH]; intros [|[k b] zs] HL E H; try discriminate; [reflexivity|].
  cbn [map fst] in E. inversion_clear HL as [|? ? Lu HL'].
  assert (E1 : value (reader_for m) u = k) by congruence.
  assert (E2 : map (value (reader_for m)) ks = map fst zs) by congruence. clear E.
  cbn [map snd]. f_equal.
  - apply (H u b Lu). left. rewrite E1. reflexivity.
  - apply IH; [exact HL'|exact E2|]. intros v c Lv Hv. apply (H v c Lv). right. exact Hv.
Qed.

Lemma full_core : forall (S : Type) m (ds : list (desc S)), codes_fit m ds -> small_enough m ds -> (exists d, In d ds /\ used d) ->
  let B := items_of m (number 0 ds) in
  exists cc, NoDup (map fst cc) /\
    (forall k b, In (k, b) cc -> exists u, length u = 10 /\ value (reader_for m) u = k) /\
    (forall u, length u = 10 ->
       (exists b, In (value (reader_for m) u, b) (filter at_zero cc)) <-> (sub u B <> [] /\ own u B = false)) /\
    forall ord ks, permuting ord -> Forall (fun u => length u = 10) ks ->
      map (value (reader_for m)) ks = map fst (filter at_zero (ord [] cc)) ->
      exists cb, new_codebook ord ds m = Ret (Okay cb) /\ cb_syms cb = used_syms ds /\ cb_lut_bits cb = lbits B /\
        (N.of_nat (length (cb_table cb)) <= table_entries (words m ds))%N /\
        forall u, length u = lbits B -> exists x, nth_error (cb_table cb) (slot (reader_for m) 0 u) = Some x /\
          ent (used_syms ds) (reader_for m) (cb_table cb) (in_full m (rev ks) (all_codes m ds) u) x.
Proof.
  intros S m ds Hfit Hsm Hus.
  destruct (new_passes S m ds Hfit Hsm Hus) as [cc0 [t [cc [E [He [HI [Hcc [NDcc [Hidx [[Hmax1 Hmax32] HcB]]]]]]]]]].
  set (B := items_of m (number 0 ds)) in *. cbv zeta. destruct Hsm as [_ Hcost].
  assert (Hmat : matching (used_syms ds) B (all_codes m ds)).
  { apply numbered_matching. intros j d Hj. unfold used_syms. rewrite Nat.add_0_l. apply (map_nth_error d_sym). exact Hj. }
  assert (Hlen : (pow2 (lbits B) <= N.of_nat (length t) <= pow2 (lbits B) + csize cc0)%N).
  { destruct (p2_done _ _ _ _ _ _ HI) as [A [NDA [HA [HAu ->]]]].
    pose proof (nsum_incl (key_size cc0) A _ NDA HA) as Hsum. rewrite key_sizes in Hsum by apply He. lia. }
  assert (Hlow : (lsize B <= length t)%nat) by (unfold lsize; lia).
  assert (Hpos : (0 < lsize B)%nat) by (unfold lsize; pose proof (pow2_pos (lbits B)); lia).
  assert (Hall : forall k b, In (k, b) cc -> exists u, length u = 10 /\ value (reader_for m) u = k /\ sub u B <> [] /\
            items_of m (b_codes b) = sub u B /\ b_maxlen b = maxl (sub u B) /\
            (if own u B then lsize B <= b_offset b /\ b_offset b + bsize b <= length t /\ blank t b else b_offset b = 0)).
  { intros k b Hin. destruct (p2_back _ _ _ _ _ _ HI k b Hin) as [b0 [I0 [M0 C0]]].
    destruct (eo_sound _ _ _ He k b0 I0) as [u [Lu [Ek [Hi [Hs [Hm _]]]]]].
    exists u. split; [exact Lu|]. split; [exact Ek|]. split; [exact Hs|]. rewrite C0, M0. split; [exact Hi|]. split; [exact Hm|].
    rewrite <- Ek in Hin. destruct (own u B) eqn:Ho.
    - exact (p2_alloc _ _ _ _ _ _ HI u b Lu Ho Hin).
    - exact (p2_zero _ _ _ _ _ _ HI u b Lu Ho Hin). }
  assert (Hlb : forall k b, In (k, b) cc -> lbits B = 10).
  { intros k b Hin. destruct (Hall k b Hin) as [u [_ [_ [Hs _]]]]. apply in_sub_long in Hs. unfold lbits. lia. }
  assert (Hat : forall u b, length u = 10 -> In (value (reader_for m) u, b) cc -> items_of m (b_codes b) = sub u B /\
            b_maxlen b = maxl (sub u B) /\
            (if own u B then lsize B <= b_offset b /\ b_offset b + bsize b <= length t /\ blank t b else b_offset b = 0)).
  { intros u b Lu Hin. destruct (Hall _ b Hin) as [v [Lv [Ev [_ [H1 [H2 H3]]]]]].
    assert (v = u) by (apply (value_inj (reader_for m)); [lia|exact Ev]). subst v. split; [exact H1|]. split; assumption. }
  exists cc. split; [exact NDcc|]. split.
  { intros k b Hin. destruct (Hall k b Hin) as [u [H1 [H2 _]]]. exists u. split; assumption. }
  split.
  { intros u Lu. split.
    - intros [b Hin]. apply filter_In in Hin. destruct Hin as [Hin Hz]. unfold at_zero in Hz. cbn [snd] in Hz. apply Nat.eqb_eq in Hz.
      destruct (Hall _ b Hin) as [v [Lv [Ev [Hs [_ [_ Ho]]]]]].
      assert (v = u) by (apply (value_inj (reader_for m)); [lia|exact Ev]). subst v. split; [exact Hs|].
      destruct (own u B); [lia|reflexivity].
    - intros [Hs Ho]. destruct (eo_complete _ _ _ He u Lu Hs) as [b0 Hin0].
      assert (Hk : In (value (reader_for m) u) (map fst cc)).
      { rewrite (p2_keys _ _ _ _ _ _ HI). apply (in_map fst) in Hin0. exact Hin0. }
      apply in_map_iff in Hk. destruct Hk as [[k b] [Ek Hin]]. cbn [fst] in Ek. subst k. exists b.
      apply filter_In. split; [exact Hin|]. unfold at_zero. cbn [snd]. apply Nat.eqb_eq.
      exact (p2_zero _ _ _ _ _ _ HI u b Lu Ho Hin). }
  intros ord ks Hord HL Eks. rewrite E. clear E.
  assert (Hin2 : forall k b, In (k, b) (ord [] cc) <-> In (k, b) cc).
  { intros k b. split; apply Permutation_in; [apply Permutation_sym|]; apply Hord. }
  destruct (build_mixed m 25 (fun t0 key b => build_esc_lut 26 ord [key] t0 m b) (proj2 (build_esc_ok m ord Hord 26 []))
              (ord [] cc) t (lsize B)) as [t3 [E3 [L3 [F3 [D3 Z3]]]]].
  - apply (Permutation_NoDup (Permutation_map fst (Hord [] cc))). exact NDcc.
  - exact Hlow.
  - intros k b Hin. apply Hin2 in Hin. destruct (p2_back _ _ _ _ _ _ HI k b Hin) as [b0 [I0 [M0 C0]]].
    apply (sub_bucket_ok m 26 B cc0 k b0 b He Hidx ltac:(lia) I0 M0 C0).
  - intros k b Hin _. apply Hin2 in Hin. pose proof (bsize_le b). unfold lsize. rewrite (Hlb k b Hin).
    change (N.to_nat (pow2 10)) with 1024. lia.
  - intros k b Hin Hz. apply Hin2 in Hin. destruct (Hall k b Hin) as [u [_ [_ [_ [_ [_ Ho]]]]]].
    destruct (own u B); [exact Ho|congruence].
  - intros k1 b1 k2 b2 I1 I2 Hne Z1 Z2. apply Hin2 in I1, I2.
    destruct (Hall k1 b1 I1) as [u1 [L1 [V1 [_ [_ [_ O1]]]]]]. destruct (Hall k2 b2 I2) as [u2 [L2 [V2 [_ [_ [_ O2]]]]]].
    destruct (own u1 B) eqn:E1; [|congruence]. destruct (own u2 B) eqn:E2; [|congruence].
    apply (p2_disjoint _ _ _ _ _ _ HI u1 u2); try assumption; congruence.
  - rewrite <- (ccost_perm m _ _ (Hord [] cc)), Hcc. lia.
  - rewrite E3. cbn [obind]. eexists. split; [reflexivity|]. split; [reflexivity|]. split; [reflexivity|]. cbn [cb_table]. split.
    { rewrite L3, <- (ccost_perm m _ _ (Hord [] cc)), Hcc. lia. }
    intros u Lu. assert (Hq : slot (reader_for m) 0 u < lsize B).
    { pose proof (slot_bound (reader_for m) 0 u) as Hs. rewrite Lu in Hs. unfold lsize. lia. }
    destruct (Z3 _ Hq) as [x [Nx Lx]]. exists x. split; [exact Nx|].
    assert (EL : laid_items m (ord [] cc) = map (fun k => sub k B) ks).
    { unfold laid_items. apply laid_keys; [exact HL|exact Eks|]. intros v b Lv Hin. apply filter_In in Hin. destruct Hin as [Hin _].
      apply Hin2 in Hin. apply (Hat v b Lv Hin). }
    assert (Hmain : nth_error t (slot (reader_for m) 0 u) = Some x -> ent (used_syms ds) (reader_for m) t3 (in_main (all_codes m ds) u) x).
    { intros Nt. unfold in_main. pose proof (matching_longer _ _ _ _ u Hmat) as Hml.
      destruct (p2_entries _ _ _ _ _ _ HI u Lu) as [[w [i [Hla [Hl [Hp En]]]]]|[[Hs [Hn [b [Hin En]]]]|[Hs [Hn En]]]];
        rewrite Nt in En; injection En as ->.
      - destruct (lastin_complete _ _ _ _ w i u Hmat Hla Hl Hp) as [s [rest [-> Hsym]]].
        assert (G : ent (used_syms ds) (reader_for m) t3 (Word (length w) s) (lut_entry (N.of_nat i) (length w))).
        { cbn [ent]. exists i. split; [reflexivity|]. split; [exact Hl|]. split; [apply (Hidx w); apply (lastin_in _ _ _ _ Hla)|exact Hsym]. }
        destruct (longer u (all_codes m ds)); exact G.
      - rewrite (complete_none _ _ _ _ u Hmat Hn). cbn [rev].
        pose proof (Hlb _ _ Hin) as H10. assert (Lu10 : length u = 10) by lia.
        destruct (Hat u b Lu10 Hin) as [Hit [Hmx Ho]]. rewrite (own_of u B Lu10 Hs Hn) in Ho. destruct Ho as [Ho1 [Ho2 _]].
        pose proof (D3 _ b (proj2 (Hin2 _ b) Hin) ltac:(lia)) as HD. rewrite Hit in HD.
        assert (G : ent (used_syms ds) (reader_for m) t3 (GoOn (longer u (all_codes m ds))) (esc_entry (N.of_nat (b_offset b)) (bbits b))).
        { cbn [ent]. exists (sub u B), 26, (length t), (length t3), (b_offset b). split; [exact Hml|]. split; [exact Hs|].
          split; [apply nonempty_sub|]. split; [apply (small_sub u B Hidx)|]. pose proof (maxl_sub u B). split; [lia|].
          assert (0 < bsize b) by (unfold bsize; pose proof (pow2_pos (bbits b)); lia).
          split; [lia|]. split; [unfold bbits, lbits; rewrite Hmx; reflexivity|exact HD]. }
        destruct (longer u (all_codes m ds)) as [|c cs] eqn:El; [|exact G].
        exfalso. apply Hs. apply (matching_nil _ _ _ _ Hml). reflexivity.
      - rewrite (complete_none _ _ _ _ u Hmat Hn), (proj1 (matching_nil _ _ _ _ Hml) Hs). reflexivity. }
    destruct ks as [|k0 ks'] eqn:Ek.
    { rewrite EL in Lx. cbn [map rev in_full] in *. apply Hmain. destruct Lx as [[Hx _]|[P1 [P [P2 [EP _]]]]]; [exact Hx|].
      destruct P1; discriminate. }
    rewrite <- Ek in *. rewrite EL in Lx.
    apply (laid_full S (used_syms ds) m B (all_codes m ds) u 25 t t3 (length t) (length t3) ks x); try assumption.
    rewrite Lu. assert (Hne : exists k b, In (k, b) (filter at_zero (ord [] cc))).
    { destruct (filter at_zero (ord [] cc)) as [|[k b] zs]; [rewrite Ek in Eks; discriminate|]. exists k, b. left. reflexivity. }
    destruct Hne as [k [b Hin]]. apply filter_In in Hin. destruct Hin as [Hin _]. apply Hin2 in Hin. exact (Hlb k b Hin).
Qed.

(** ** Reads *)

Definition full_table {S : Type} (m : mode) (ds : list (desc S)) (ks : list (list bool)) (cb : codebook S) : Prop :=
  cb_syms cb = used_syms ds /\ cb_lut_bits cb = lbits (items_of m (number 0 ds)) /\
  forall u, length u = lbits (items_of m (number 0 ds)) -> exists x, nth_error (cb_table cb) (slot (reader_for m) 0 u) = Some x /\
    ent (used_syms ds) (reader_for m) (cb_table cb) (in_full m ks (all_codes m ds) u) x.

Lemma read_cb_full : forall (S : Type) m (ds : list (desc S)) ks cb e buf r q,
  full_table m ds ks cb -> bytes buf -> rep e buf r q ->
  match q_decode_full ks e m (bits_of e buf) q (all_codes m ds) with
  | Some (q', o) => exists r', read_cb e cb r = Ret (r', sym_result o) /\ rep e buf r' q'
  | None => read_cb e cb r = Panic
  end.
Proof.
  intros S m ds ks cb e buf r q [Hsy [Hl Hent]] Hb R. unfold read_cb. rewrite Hl.
  set (B := items_of m (number 0 ds)) in *. change 27 with (Datatypes.S 26). cbn [read_loop]. unfold q_decode_full.
  assert (Hm : matching (used_syms ds) B (all_codes m ds)).
  { apply numbered_matching. intros j d Hj. unfold used_syms. rewrite Nat.add_0_l. apply (map_nth_error d_sym). exact Hj. }
  rewrite (matching_look _ _ _ _ Hm).
  assert (HL : lbits B <= 10) by (unfold lbits; lia).
  rewrite (peek32_rep e buf r q (lbits B) Hb R ltac:(lia)). cbn [obind].
  set (u0 := snd (q_get32 (bits_of e buf) q (lbits B))).
  set (u := as_written e m u0).
  assert (Lu : length u = lbits B) by (unfold u, u0; rewrite as_written_length, q_get32_length; reflexivity).
  rewrite (value_as_written e m u0). fold u.
  replace (N.to_nat (value (reader_for m) u + 0)) with (slot (reader_for m) 0 u) by (unfold slot; lia).
  destruct (Hent u Lu) as [x [Nx C]]. rewrite (index_nth _ _ _ _ Nx). cbn [obind].
  destruct (in_full m ks (all_codes m ds) u) as [|n s|rest]; cbn [ent] in C.
  - rewrite C, N.eqb_refl. exists r. split; [reflexivity|exact R].
  - destruct C as [i [-> [Hn [Hi Hsym]]]].
    destruct (lut_entry_fields (N.of_nat i) n Hi Hn) as [F1 [F2 [F3 F4]]].
    rewrite F1, F2, F3, F4. cbn [negb].
    pose proof (available_enough e buf r q n R) as Ha.
    destruct (enough (bits_of e buf) q n) as [[|]|].
    * destruct Ha as [a [-> Hlt]]. cbn [obind]. rewrite Hlt. cbn [negb].
      rewrite !Nnat.Nat2N.id. destruct (q_skip_rep e buf r q n Hb R) as [r' [Er R']].
      rewrite Er. cbn [obind]. rewrite Hsy, (index_nth _ _ _ _ Hsym). cbn [obind]. exists r'. split; [reflexivity|exact R'].
    * destruct Ha as [a [-> Hlt]]. cbn [obind]. rewrite Hlt. cbn [negb]. exists r. split; [reflexivity|exact R].
    * rewrite Ha. reflexivity.
  - destruct C as [P [d [lo [hi [o [Hmp [HPne [Hnn [Hix [Hmax [Ho [-> HD]]]]]]]]]]]].
    assert (Hlb : lbits P <= 10) by (unfold lbits; lia).
    destruct (esc_entry_fields (N.of_nat o) _ Ho Hlb) as [F1 [F2 [F3 F4]]].
    rewrite F1, F2, F3, F4. cbn [negb]. rewrite (matching_look _ _ _ _ Hmp).
    pose proof (available_enough e buf r q (lbits P) R) as Ha.
    destruct (enough (bits_of e buf) q (lbits P)) as [[|]|].
    * destruct Ha as [a [-> Hlt]]. cbn [obind]. rewrite Hlt. cbn [negb].
      destruct (q_skip_rep e buf r q (lbits B) Hb R) as [r' [Er R']]. rewrite Er. cbn [obind]. rewrite Nnat.Nat2N.id.
      apply (read_loop_any S cb e m buf Hb 25 false d 26 lo hi o P rest r' _ ltac:(lia) HD); try assumption.
      rewrite Hsy. exact Hmp.
    * destruct Ha as [a [-> Hlt]]. cbn [obind]. rewrite Hlt. cbn [negb]. exists r. split; [reflexivity|exact R].
    * rewrite Ha. reflexivity.
Qed.

Lemma mixed_full : forall (S : Type) m (ds : list (desc S)) ks cb e buf, full_table m ds ks cb -> bytes buf ->
  forall steps r q, rep e buf r q -> Forall step_ok steps ->
  match q_steps_full ks e m ds (bits_of e buf) q steps with
  | Some (q', os) => exists r', run_mixed e cb r steps = Ret (r', os) /\ rep e buf r' q'
  | None => run_mixed e cb r steps = Panic
  end.
Proof.
  intros S m ds ks cb e buf Hcb Hb. induction steps as [|[op|d] steps IH]; intros r q R Hok; cbn [q_steps_full run_mixed].
  - exists r. split; [reflexivity|exact R].
  - inversion Hok as [|? ? H1 H2]; subst. cbn [step_ok q_step_full] in *. pose proof (q_op_rep e buf r q op Hb R H1) as G.
    destruct (q_op e (bits_of e buf) q op) as [[q1 o]|].
    + destruct G as [r1 [E R1]]. rewrite E. cbn [obind]. specialize (IH r1 q1 R1 H2).
      destruct (q_steps_full ks e m ds (bits_of e buf) q1 steps) as [[q2 os]|].
      * destruct IH as [r2 [E2 R2]]. rewrite E2. cbn [obind]. exists r2. split; [reflexivity|exact R2].
      * rewrite IH. reflexivity.
    + rewrite G. reflexivity.
  - inversion Hok as [|? ? H1 H2]; subst. cbn [q_step_full] in *.
    pose proof (read_cb_full S m ds ks cb e buf r q Hcb Hb R) as G.
    destruct (q_decode_full ks e m (bits_of e buf) q (all_codes m ds)) as [[q1 o]|].
    + destruct G as [r1 [E R1]]. rewrite E. cbn [obind]. specialize (IH r1 q1 R1 H2).
      destruct o as [s|]; cbn [sym_result];
        (destruct (q_steps_full ks e m ds (bits_of e buf) q1 steps) as [[q2 os]|];
         [destruct IH as [r2 [E2 R2]]; rewrite E2; cbn [obind]; exists r2; split; [reflexivity|exact R2]
         |rewrite IH; reflexivity]).
    + rewrite G. reflexivity.
Qed.

Lemma full_table_reads : forall (S : Type) m (ds : list (desc S)) ks cb, full_table m ds ks cb -> reads_like m ds ks cb.
Proof.
  intros S m ds ks cb Hcb e buf steps Hb Hok. destruct (new_rep e buf Hb) as [r0 [E0 R0]].
  exists r0. split; [exact E0|]. pose proof (mixed_full S m ds ks cb e buf Hcb Hb steps r0 _ R0 Hok) as G.
  unfold q_mixed_full. destruct (q_steps_full ks e m ds (bits_of e buf) _ steps) as [[q os]|]; [|exact G].
  destruct G as [r [E R]]. exists r. split; [exact E|]. split; [apply R|]. apply (rep_consumed e buf). exact R.
Qed.

(** ** The blocked strings *)

Lemma find_meets : forall (S : Type) m u (ds : list (desc S)) k,
  option_map (fun x => length (fst x)) (find (touch u) (items_of m (number k ds))) = option_map d_bits (find (meets m u) ds).
Proof.
  intros S m u. induction ds as [|d ds IH]; intros k; [reflexivity|]. cbn [number find]. unfold meets at 1.
  destruct (Nat.eqb_spec (d_bits d) 0) as [E|E]; destruct (Nat.ltb_spec 0 (d_bits d)) as [Hp|Hp]; try lia; cbn [andb].
  - apply IH.
  - rewrite items_cons. cbn [find c_code c_bits c_idx]. unfold touch at 1. cbn [fst]. rewrite codeword_length.
    change same_bits with bits_eqb. fold (word m d). destruct (bits_eqb _ _); [|apply IH].
    cbn [option_map fst]. unfold word. rewrite codeword_length. reflexivity.
Qed.

Lemma long_in : forall (S : Type) m (ds : list (desc S)) u,
  In u (long_keys m ds) <-> length u = 10 /\ sub u (items_of m (number 0 ds)) <> [].
Proof.
  intros S m ds u. unfold long_keys. rewrite nodup_In, in_map_iff. split.
  - intros [d [<- Hd]]. apply filter_In in Hd. destruct Hd as [Hd Hl]. apply Nat.ltb_lt in Hl.
    assert (Lw : length (word m d) = d_bits d) by apply codeword_length.
    split; [rewrite firstn_length; lia|]. apply In_nth_error in Hd. destruct Hd as [j Hj].
    intros Hs. assert (Hin : In (skipn 10 (word m d), 0 + rank ds j) (sub (firstn 10 (word m d)) (items_of m (number 0 ds))));
      [|rewrite Hs in Hin; destruct Hin].
    apply sub_in. split; [rewrite firstn_length; lia|]. split.
    + intros E0. apply (f_equal (@length bool)) in E0. rewrite skipn_length, Lw in E0. cbn in E0. lia.
    + rewrite firstn_skipn. apply number_in. exists j, d. split; [exact Hj|]. split; [unfold used; lia|]. split; reflexivity.
  - intros [Lu Hs]. destruct (sub u (items_of m (number 0 ds))) as [|[w i] rest] eqn:E; [congruence|].
    assert (Hin : In (w, i) (sub u (items_of m (number 0 ds)))) by (rewrite E; left; reflexivity).
    apply sub_in in Hin. destruct Hin as [_ [Hw Hin]]. apply number_in in Hin. destruct Hin as [j [d [Hj [Hu [Ed _]]]]].
    exists d. split.
    + rewrite <- Ed, firstn_app, Lu, Nat.sub_diag, firstn_O, app_nil_r. rewrite <- Lu. apply firstn_all.
    + apply filter_In. split; [apply nth_error_In in Hj; exact Hj|]. apply Nat.ltb_lt.
      assert (Ld : d_bits d = length (u ++ w)) by (rewrite Ed; unfold word; symmetry; apply codeword_length).
      rewrite app_length in Ld. destruct w; [congruence|cbn in Ld; lia].
Qed.

Lemma blocked_in : forall (S : Type) m (ds : list (desc S)) u,
  In u (blocked_keys m ds) <-> length u = 10 /\ sub u (items_of m (number 0 ds)) <> [] /\ own u (items_of m (number 0 ds)) = false.
Proof.
  intros S m ds u. unfold blocked_keys. rewrite filter_In, long_in. pose proof (find_meets S m u ds 0) as F.
  unfold own. split.
  - intros [[Lu Hs] Hf]. split; [exact Lu|]. split; [exact Hs|].
    destruct (find (meets m u) ds) as [d|]; [|discriminate].
    destruct (find (touch u) _) as [x|]; [|discriminate]. cbn [option_map] in F. injection F as F.
    apply Nat.leb_le in Hf. apply Nat.ltb_ge. lia.
  - intros [Lu [Hs Ho]]. split; [split; assumption|].
    destruct (find (touch u) (items_of m (number 0 ds))) as [x|] eqn:Et.
    + destruct (find (meets m u) ds) as [d|]; [|discriminate]. cbn [option_map] in F. injection F as F.
      apply Nat.ltb_ge in Ho. apply Nat.leb_le. lia.
    + exfalso. apply (untouched u _ Lu) in Et. destruct Et as [Et _]. congruence.
Qed.

Lemma blocked_nodup : forall (S : Type) m (ds : list (desc S)), NoDup (blocked_keys m ds).
Proof. intros S m ds. unfold blocked_keys, long_keys. apply NoDup_filter. apply NoDup_nodup. Qed.

Lemma unblocked_keys : forall (S : Type) m (ds : list (desc S)), unblocked m ds <-> blocked_keys m ds = [].
Proof.
  intros S m ds. split.
  - intros H. destruct (blocked_keys m ds) as [|u r] eqn:E; [reflexivity|]. exfalso.
    assert (Hu : In u (blocked_keys m ds)) by (rewrite E; left; reflexivity).
    apply blocked_in in Hu. destruct Hu as [Lu [Hs Ho]].
    pose proof (unblk_own _ u (number_unblk S m ds H) Lu Hs). congruence.
  - intros E i j a b Ha Hb Hua Hsa Hlb Hp. set (u := firstn 10 (word m b)).
    assert (Lb : length (word m b) = d_bits b) by apply codeword_length.
    assert (La : length (word m a) = d_bits a) by apply codeword_length.
    assert (Lu : length u = 10) by (unfold u; rewrite firstn_length; lia).
    assert (Hlk : In u (long_keys m ds)).
    { unfold long_keys. rewrite nodup_In. apply in_map_iff. exists b. split; [reflexivity|]. apply filter_In.
      split; [apply nth_error_In in Hb; exact Hb|apply Nat.ltb_lt; lia]. }
    assert (Hma : meets m u a = true).
    { unfold meets. unfold used in Hua. rewrite (proj2 (Nat.ltb_lt 0 (d_bits a)) Hua). cbn [andb]. change same_bits with bits_eqb.
      apply bits_eqb_true. rewrite (firstn_all2 (word m a)) by lia. unfold u. rewrite firstn_firstn, Nat.min_l by lia.
      rewrite <- La. apply prefix_firstn. exact Hp. }
    assert (Hnb : ~ In u (blocked_keys m ds)) by (rewrite E; intros []).
    unfold blocked_keys in Hnb. rewrite filter_In in Hnb.
    destruct (find (meets m u) ds) as [c|] eqn:Ef.
    2:{ apply nth_error_In in Ha. pose proof (find_none _ _ Ef a Ha). congruence. }
    destruct (find_split _ _ _ _ Ef) as [l1 [l2 [Eds [Hn1 Hmc]]]].
    assert (Hlc : 10 < d_bits c).
    { apply Nat.nle_gt. intros Hc. apply Hnb. split; [exact Hlk|apply Nat.leb_le; exact Hc]. }
    exists (length l1), c. split; [|split; [|split; [exact Hlc|]]].
    + destruct (Nat.lt_trichotomy (length l1) i) as [H|[H|H]]; [exact H| |]; exfalso.
      * rewrite <- H, Eds, nth_error_app2, Nat.sub_diag in Ha by lia. cbn in Ha. injection Ha as ->. lia.
      * rewrite Eds, nth_error_app1 in Ha by exact H. apply nth_error_In in Ha. pose proof (find_none _ _ Hn1 a Ha). congruence.
    + rewrite Eds, nth_error_app2, Nat.sub_diag by lia. reflexivity.
    + unfold meets in Hmc. apply andb_prop in Hmc. destruct Hmc as [_ Hmc]. change same_bits with bits_eqb in Hmc.
      apply bits_eqb_true in Hmc. rewrite (firstn_all2 u) in Hmc by lia. symmetry. exact Hmc.
Qed.

(** ** All orders *)

Lemma keys_of : forall m (zs : list (N * bucket)),
  (forall k b, In (k, b) zs -> exists u, length u = 10 /\ value (reader_for m) u = k) ->
  exists ks, Forall (fun u => length u = 10) ks /\ map (value (reader_for m)) ks = map fst zs.
Proof.
  intros m. induction zs as [|[k b] zs IH]; intros H.
  - exists []. split; [constructor|reflexivity].
  - destruct IH as [ks [H1 H2]]; [intros k' b' H'; apply (H k' b'); right; exact H'|].
    destruct (H k b (or_introl eq_refl)) as [u [Lu Eu]]. exists (u :: ks). split; [constructor; assumption|].
    cbn [map fst]. rewrite Eu, H2. reflexivity.
Qed.

Lemma keys_perm : forall (S : Type) m (ds : list (desc S)) ks (zs : list (N * bucket)), Forall (fun u => length u = 10) ks ->
  map (value (reader_for m)) ks = map fst zs -> NoDup (map fst zs) ->
  (forall u, length u = 10 -> (exists b, In (value (reader_for m) u, b) zs) <->
     (sub u (items_of m (number 0 ds)) <> [] /\ own u (items_of m (number 0 ds)) = false)) ->
  Permutation ks (blocked_keys m ds).
Proof.
  intros S m ds ks zs HL E ND H. rewrite Forall_forall in HL. apply NoDup_Permutation.
  - apply (NoDup_map_inv (value (reader_for m))). rewrite E. exact ND.
  - apply blocked_nodup.
  - intros u. rewrite blocked_in. split.
    + intros Hu. pose proof (HL u Hu) as Lu. split; [exact Lu|]. apply (H u Lu).
      apply (in_map (value (reader_for m))) in Hu. rewrite E in Hu. apply in_map_iff in Hu. destruct Hu as [[k b] [Ek Hin]].
      cbn [fst] in Ek. subst k. exists b. exact Hin.
    + intros [Lu Hs]. apply (H u Lu) in Hs. destruct Hs as [b Hb]. apply (in_map fst) in Hb. cbn [fst] in Hb. rewrite <- E in Hb.
      apply in_map_iff in Hb. destruct Hb as [v [Ev Hv]].
      assert (v = u) by (apply (value_inj (reader_for m)); [rewrite (HL v Hv); lia|exact Ev]). subst v. exact Hv.
Qed.

Lemma filter_perm : forall (A : Type) (f : A -> bool) l l', Permutation l l' -> Permutation (filter f l) (filter f l').
Proof.
  intros A f l l' H. induction H; cbn [filter].
  - constructor.
  - destruct (f x); [constructor; exact IHPermutation|exact IHPermutation].
  - destruct (f x), (f y); try constructor; apply Permutation_refl.
  - eapply Permutation_trans; eassumption.
Qed.

Lemma nodup_filter_keys : forall (f : N * bucket -> bool) l, NoDup (map fst l) -> NoDup (map fst (filter f l)).
Proof.
  intros f. induction l as [|x l IH]; intros H; [constructor|]. cbn [map] in H. inversion_clear H as [|? ? Hx H']. cbn [filter].
  destruct (f x); [|apply IH; exact H']. cbn [map]. constructor; [|apply IH; exact H'].
  intros Hc. apply Hx. apply in_map_iff in Hc. destruct Hc as [y [<- Hy]]. apply filter_In in Hy. apply in_map. apply Hy.
Qed.

Lemma full_exact_table : forall (S : Type) ord m (ds : list (desc S)), permuting ord -> codes_fit m ds -> small_enough m ds ->
  (exists d, In d ds /\ used d) ->
  exists cb ks, new_codebook ord ds m = Ret (Okay cb) /\ (N.of_nat (length (cb_table cb)) <= table_entries (words m ds))%N /\
    Permutation ks (blocked_keys m ds) /\ full_table m ds ks cb.
Proof.
  intros S ord m ds Hord Hf Hs Hu. destruct (full_core S m ds Hf Hs Hu) as [cc [ND [Hk [Hz H]]]].
  destruct (keys_of m (filter at_zero (ord [] cc))) as [ks [HL E]].
  { intros k b Hin. apply filter_In in Hin. destruct Hin as [Hin _]. apply (Hk k b).
    apply (Permutation_in _ (Permutation_sym (Hord [] cc))). exact Hin. }
  destruct (H ord ks Hord HL E) as [cb [E1 [E2 [E3 [E4 E5]]]]]. exists cb, (rev ks). split; [exact E1|]. split; [exact E4|]. split.
  - apply Permutation_trans with ks; [apply Permutation_sym; apply Permutation_rev|].
    pose proof (filter_perm _ at_zero _ _ (Hord [] cc)) as Hfp.
    apply (keys_perm S m ds ks (filter at_zero (ord [] cc)) HL E).
    + apply nodup_filter_keys. apply (Permutation_NoDup (Permutation_map fst (Hord [] cc))). exact ND.
    + intros u Lu. rewrite <- (Hz u Lu). split; intros [b Hb]; exists b.
      * apply (Permutation_in _ (Permutation_sym Hfp)). exact Hb.
      * apply (Permutation_in _ Hfp). exact Hb.
  - split; [exact E2|]. split; [exact E3|exact E5].
Qed.

Lemma full_exact : forall (S : Type) ord m (ds : list (desc S)), permuting ord -> codes_fit m ds -> small_enough m ds ->
  (exists d, In d ds /\ used d) ->
  exists cb ks, new_codebook ord ds m = Ret (Okay cb) /\ (N.of_nat (length (cb_table cb)) <= table_entries (words m ds))%N /\
    Permutation ks (blocked_keys m ds) /\ reads_like m ds ks cb.
Proof.
  intros S ord m ds Hord Hf Hs Hu. destruct (full_exact_table S ord m ds Hord Hf Hs Hu) as [cb [ks [H1 [H2 [H3 H4]]]]].
  exists cb, ks. split; [exact H1|]. split; [exact H2|]. split; [exact H3|]. apply full_table_reads. exact H4.
Qed.

Definition code_dec (a b : code) : {a = b} + {a <> b}.
Proof. decide equality; [apply Nat.eq_dec|apply Nat.eq_dec|apply N.eq_dec]. Defined.
Definition bucket_dec (a b : bucket) : {a = b} + {a <> b}.
Proof. decide equality; [apply (list_eq_dec code_dec)|apply Nat.eq_dec|apply Nat.eq_dec]. Defined.
Definition cc_dec (a b : escape_codes) : {a = b} + {a <> b}.
Proof. apply list_eq_dec. decide equality; [apply bucket_dec|apply N.eq_dec]. Defined.

Definition ord_to (cc target : escape_codes) (p : list N) (l : escape_codes) : escape_codes :=
  match p with [] => if cc_dec l cc then target else l | _ => l end.

Lemma ord_to_permuting : forall cc target, Permutation cc target -> permuting (ord_to cc target).
Proof.
  intros cc target H p l. unfold ord_to. destruct p; [|apply Permutation_refl].
  destruct (cc_dec l cc) as [->|_]; [exact H|apply Permutation_refl].
Qed.

Lemma filter_negb : forall (A : Type) (f : A -> bool) l, Permutation l (filter (fun x => negb (f x)) l ++ filter f l).
Proof.
  intros A f. induction l as [|x l IH]; [constructor|]. cbn [filter]. destruct (f x); cbn [negb].
  - apply Permutation_cons_app. exact IH.
  - cbn [app]. constructor. exact IH.
Qed.

Lemma filter_negb_nil : forall (A : Type) (f : A -> bool) l, filter f (filter (fun x => negb (f x)) l) = [].
Proof.
  intros A f. induction l as [|x l IH]; [reflexivity|]. cbn [filter]. destruct (f x) eqn:E; cbn [negb]; [exact IH|].
  cbn [filter]. rewrite E. exact IH.
Qed.

Lemma filter_all : forall (A : Type) (f : A -> bool) l, (forall x, In x l -> f x = true) -> filter f l = l.
Proof.
  intros A f. induction l as [|x l IH]; intros H; [reflexivity|]. cbn [filter]. rewrite (H x (or_introl eq_refl)). f_equal.
  apply IH. intros y Hy. apply H. right. exact Hy.
Qed.

Lemma full_order_table : forall (S : Type) m (ds : list (desc S)) ks, codes_fit m ds -> small_enough m ds ->
  (exists d, In d ds /\ used d) -> Permutation ks (blocked_keys m ds) ->
  exists ord cb, permuting ord /\ new_codebook ord ds m = Ret (Okay cb) /\ full_table m ds ks cb.
Proof.
  intros S m ds ks Hf Hs Hu Hp. destruct (full_core S m ds Hf Hs Hu) as [cc [ND [Hk [Hz H]]]].
  destruct (keys_of m (filter at_zero cc)) as [ks0 [HL0 E0]].
  { intros k b Hin. apply filter_In in Hin. destruct Hin as [Hin _]. apply (Hk k b). exact Hin. }
  pose proof (keys_perm S m ds ks0 _ HL0 E0 (nodup_filter_keys at_zero cc ND) Hz) as Hp0.
  assert (HL : Forall (fun u => length u = 10) (rev ks)).
  { apply Forall_forall. intros u Hin. apply in_rev in Hin. apply (Permutation_in _ Hp) in Hin. apply blocked_in in Hin. apply Hin. }
  assert (Hpm : Permutation (map (value (reader_for m)) (rev ks)) (map fst (filter at_zero cc))).
  { rewrite <- E0. apply Permutation_map. apply Permutation_trans with ks; [apply Permutation_sym; apply Permutation_rev|].
    apply Permutation_trans with (blocked_keys m ds); [exact Hp|apply Permutation_sym; exact Hp0]. }
  apply Permutation_map_inv in Hpm. destruct Hpm as [zs [Ez Pz]].
  set (target := filter (fun x => negb (at_zero x)) cc ++ zs).
  assert (Ht : Permutation cc target).
  { apply Permutation_trans with (filter (fun x => negb (at_zero x)) cc ++ filter at_zero cc); [apply filter_negb|].
    apply Permutation_app_head. exact Pz. }
  pose proof (ord_to_permuting cc target Ht) as Hord.
  assert (Eord : ord_to cc target [] cc = target) by (unfold ord_to; destruct (cc_dec cc cc); [reflexivity|congruence]).
  assert (Ef : filter at_zero target = zs).
  { unfold target. rewrite filter_app, filter_negb_nil. cbn [app]. apply filter_all. intros x Hx.
    apply (Permutation_in _ (Permutation_sym Pz)) in Hx. apply filter_In in Hx. apply Hx. }
  destruct (H (ord_to cc target) (rev ks) Hord HL) as [cb [E1 [E2 [E3 [E4 E5]]]]].
  { rewrite Eord, Ef. exact Ez. }
  rewrite rev_involutive in E5. exists (ord_to cc target), cb. split; [exact Hord|]. split; [exact E1|].
  split; [exact E2|]. split; [exact E3|exact E5].
Qed.

Lemma full_every_order : forall (S : Type) m (ds : list (desc S)) ks, codes_fit m ds -> small_enough m ds ->
  (exists d, In d ds /\ used d) -> Permutation ks (blocked_keys m ds) ->
  exists ord cb, permuting ord /\ new_codebook ord ds m = Ret (Okay cb) /\ reads_like m ds ks cb.
Proof.
  intros S m ds ks Hf Hs Hu Hp. destruct (full_order_table S m ds ks Hf Hs Hu Hp) as [ord [cb [H1 [H2 H3]]]].
  exists ord, cb. split; [exact H1|]. split; [exact H2|]. apply full_table_reads. exact H3.
Qed.

(** ** Codebooks without blocked strings, or with one *)

Lemma any_step : forall (S : Type) n e m l q (codes : pending S), q_decode_any (Datatypes.S n) true e m l q codes =
  match in_main codes (as_written e m (snd (q_get32 l q (look_ahead codes)))) with
  | Nothing => Some (q, None)
  | Word k s =>
      match enough l q k with
      | Some true => Some (q_skip l q k, Some s)
      | Some false => Some (q, None)
      | None => None
      end
  | GoOn rest =>
      match enough l q (look_ahead rest) with
      | Some true => q_decode_any n false e m l (q_skip l q (look_ahead codes)) rest
      | Some false => Some (q, None)
      | None => None
      end
  end.
Proof.
  intros S n e m l q codes. cbn [q_decode_any]. unfold in_main.
  destruct (rev (complete _ codes)) as [|[w s] r]; destruct (longer _ codes); reflexivity.
Qed.

Lemma full_decode_any : forall (S : Type) e m l q (codes : pending S),
  q_decode_full [] e m l q codes = q_decode_any 26 true e m l q codes.
Proof. intros S e m l q codes. rewrite (any_step S 25). unfold q_decode_full. cbn [in_full]. cbv zeta. reflexivity. Qed.

Lemma full_any : forall (S : Type) e m (ds : list (desc S)) buf steps,
  q_mixed_full [] e m ds buf steps = q_mixed_any e m ds buf steps.
Proof.
  intros S e m ds buf steps. unfold q_mixed_full, q_mixed_any.
  generalize (fetch64 (bits_of e buf) (mk_queue [] 0)). induction steps as [|[op|d] steps IH]; intros q; [reflexivity| |];
    cbn [q_steps_full q_steps_any q_step_full q_step_any].
  - destruct (q_op e (bits_of e buf) q op) as [[q1 o]|]; [rewrite IH; reflexivity|reflexivity].
  - rewrite full_decode_any. destruct (q_decode_any 26 true e m (bits_of e buf) q (all_codes m ds)) as [[q1 [s|]]|];
      [rewrite IH; reflexivity|rewrite IH; reflexivity|reflexivity].
Qed.

Lemma one_blocked : forall (S : Type) ord m (ds : list (desc S)) cb, permuting ord -> codes_fit m ds -> small_enough m ds ->
  length (blocked_keys m ds) <= 1 -> new_codebook ord ds m = Ret (Okay cb) -> reads_like m ds (blocked_keys m ds) cb.
Proof.
  intros S ord m ds cb Hord Hf Hs Hb E.
  destruct (full_exact S ord m ds Hord Hf Hs (codebook_used S ord m ds cb E)) as [cb' [ks [E' [_ [Hp H]]]]].
  rewrite E in E'. injection E' as <-.
  assert (ks = blocked_keys m ds); [|subst ks; exact H].
  destruct (blocked_keys m ds) as [|k [|k' r]]; [|apply Permutation_sym, Permutation_length_1_inv in Hp; exact Hp|cbn in Hb; lia].
  apply Permutation_sym, Permutation_nil in Hp. exact Hp.
Qed.
