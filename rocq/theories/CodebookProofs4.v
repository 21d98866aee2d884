(** Codebook construction and reading as a whole. *)
From Coq Require Import List Arith NArith ZArith Bool Lia Permutation.
From Coq Require Import ZifyBool ZifyNat ZifyN.
From Verif Require Import Base ByteModel BitModel BitSpec BitProofs BitProofs2 CodebookModel CodebookSpec
  CodebookProofs CodebookProofs2 CodebookSizeProofs CodebookProofs3 CbLevelSpec.
Import ListNotations.
Local Open Scope nat_scope.
Ltac Zify.zify_post_hook ::= Z.div_mod_to_equations.

(** The used entries of a description with their symbol indices. *)
Fixpoint number {S : Type} (k : nat) (ds : list (desc S)) : list code :=
  match ds with
  | [] => []
  | d :: ds' =>
      if d_bits d =? 0 then number k ds'
      else mk_code (d_code d) (d_bits d) k :: number (k + 1) ds'
  end.

Lemma number_ok : forall (S : Type) m (ds : list (desc S)) k, codes_fit m ds -> Forall (code_ok m) (number k ds).
Proof.
  intros S m ds. induction ds as [|d ds IH]; intros k H; cbn [number]; [constructor|].
  assert (H' : codes_fit m ds) by (intros d' Hin; apply H; right; exact Hin).
  destruct (Nat.eqb_spec (d_bits d) 0); [apply IH; exact H'|]. constructor; [|apply IH; exact H'].
  destruct (H d (or_introl eq_refl)) as [H1 [H2 _]]; [unfold used; lia|]. split; cbn [c_bits c_code]; [lia|exact H2].
Qed.

Lemma number_idx : forall (S : Type) m (ds : list (desc S)) k,
  (N.of_nat (k + length (words m ds)) <= 2 ^ 24)%N -> small_idx (number k ds).
Proof.
  intros S m ds. unfold words. induction ds as [|d ds IH]; intros k H; cbn [number filter] in *; [constructor|].
  destruct (Nat.eqb_spec (d_bits d) 0) as [E|E]; destruct (Nat.ltb_spec 0 (d_bits d)); try lia.
  - apply IH. exact H.
  - cbn [map length] in H. constructor; [cbn [c_idx]; lia|]. apply IH. lia.
Qed.

Lemma number_words : forall (S : Type) m (ds : list (desc S)) k, map fst (items_of m (number k ds)) = words m ds.
Proof.
  intros S m ds. unfold words. induction ds as [|d ds IH]; intros k; cbn [number filter]; [reflexivity|].
  destruct (Nat.eqb_spec (d_bits d) 0) as [E|E]; destruct (Nat.ltb_spec 0 (d_bits d)); try lia; [apply IH|].
  cbn [items_of map fst c_code c_bits]. fold (items_of m). rewrite <- (IH (k + 1)). reflexivity.
Qed.

Lemma items_cons : forall m c cs, items_of m (c :: cs) = (codeword m (c_code c) (c_bits c), c_idx c) :: items_of m cs.
Proof. reflexivity. Qed.

(** Index of position [j] among the used entries. *)
Definition rank {S : Type} (ds : list (desc S)) (j : nat) : nat :=
  length (filter (fun d => 0 <? d_bits d) (firstn j ds)).

Lemma number_in : forall (S : Type) m (ds : list (desc S)) k w i, In (w, i) (items_of m (number k ds)) <->
  exists j d, nth_error ds j = Some d /\ used d /\ w = word m d /\ i = k + rank ds j.
Proof.
  intros S m ds. induction ds as [|d ds IH]; intros k w i; cbn [number].
  - split; [intros []|]. intros [j [d [H _]]]. destruct j; discriminate.
  - destruct (Nat.eqb_spec (d_bits d) 0) as [E|E].
    + rewrite IH. split.
      * intros [j [d' [H1 [H2 [H3 H4]]]]]. exists (Datatypes.S j), d'. split; [exact H1|]. split; [exact H2|]. split; [exact H3|].
        rewrite H4. unfold rank. cbn [firstn filter]. rewrite E. reflexivity.
      * intros [[|j] [d' [H1 [H2 [H3 H4]]]]].
        -- cbn in H1. injection H1 as ->. unfold used in H2. lia.
        -- exists j, d'. split; [exact H1|]. split; [exact H2|]. split; [exact H3|].
           rewrite H4. unfold rank. cbn [firstn filter]. rewrite E. reflexivity.
    + rewrite items_cons. cbn [In c_code c_bits c_idx]. rewrite IH. split.
      * intros [H|[j [d' [H1 [H2 [H3 H4]]]]]].
        -- apply pair_equal_spec in H. destruct H as [<- <-]. exists 0, d. split; [reflexivity|].
           split; [unfold used; lia|]. split; [reflexivity|]. unfold rank. cbn. lia.
        -- exists (Datatypes.S j), d'. split; [exact H1|]. split; [exact H2|]. split; [exact H3|].
           rewrite H4. unfold rank. cbn [firstn filter]. destruct (Nat.ltb_spec 0 (d_bits d)); [|lia]. cbn [length]. lia.
      * intros [[|j] [d' [H1 [H2 [H3 H4]]]]].
        -- cbn in H1. injection H1 as ->. left. rewrite H3, H4. unfold rank. cbn. rewrite Nat.add_0_r. reflexivity.
        -- right. exists j, d'. split; [exact H1|]. split; [exact H2|]. split; [exact H3|].
           rewrite H4. unfold rank. cbn [firstn filter]. destruct (Nat.ltb_spec 0 (d_bits d)); [|lia]. cbn [length]. lia.
Qed.

Lemma rank_sym : forall (S : Type) (ds : list (desc S)) j d, nth_error ds j = Some d -> used d ->
  nth_error (used_syms ds) (rank ds j) = Some (d_sym d).
Proof.
  intros S ds. unfold used_syms, rank. induction ds as [|d0 ds IH]; intros [|j] d H Hu; try discriminate.
  - cbn in H. injection H as ->. cbn [firstn filter length]. unfold used in Hu.
    destruct (Nat.ltb_spec 0 (d_bits d)); [|lia]. reflexivity.
  - cbn [nth_error] in H. cbn [firstn filter]. destruct (0 <? d_bits d0); cbn [length map nth_error]; apply IH; assumption.
Qed.

Lemma number_pf : forall (S : Type) m (ds : list (desc S)), prefix_free m ds -> pf (items_of m (number 0 ds)).
Proof.
  intros S m ds H w i w' i' H1 H2 Hp. apply number_in in H1, H2.
  destruct H1 as [j [d [N1 [U1 [-> ->]]]]], H2 as [j' [d' [N2 [U2 [-> ->]]]]].
  destruct (Nat.eq_dec j j') as [->|Hne].
  - split; [congruence|reflexivity].
  - exfalso. exact (H j j' d d' N1 N2 Hne U1 U2 Hp).
Qed.

Lemma number_lpf : forall (S : Type) m (ds : list (desc S)), same_level m ds -> lpf (items_of m (number 0 ds)).
Proof.
  intros S m ds H w i w' i' H1 H2 Hp. apply number_in in H1, H2.
  destruct H1 as [j [d [N1 [U1 [-> ->]]]]], H2 as [j' [d' [N2 [U2 [-> ->]]]]].
  apply nth_error_In in N1, N2. unfold word in *. rewrite !codeword_length. apply (H d d' N1 N2 U1 U2 Hp).
Qed.

Lemma number_nonempty : forall (S : Type) m (ds : list (desc S)) k, nonempty (items_of m (number k ds)).
Proof.
  intros S m ds k w i H Hw. apply number_in in H. destruct H as [j [d [_ [Hu [E _]]]]].
  apply (f_equal (@length bool)) in E. rewrite Hw in E. unfold word in E. rewrite codeword_length in E.
  unfold used in Hu. cbn in E. lia.
Qed.

Lemma prefix_free_level : forall (S : Type) m (ds : list (desc S)), prefix_free m ds -> same_level m ds.
Proof.
  intros S m ds H d d' H1 H2 U1 U2 Hp. apply In_nth_error in H1, H2. destruct H1 as [j N1], H2 as [j' N2].
  destruct (Nat.eq_dec j j') as [->|Hne]; [congruence|]. exfalso. exact (H j j' d d' N1 N2 Hne U1 U2 Hp).
Qed.

Lemma level_unblocked : forall (S : Type) m (ds : list (desc S)), same_level m ds -> unblocked m ds.
Proof.
  intros S m ds H i j a b Ha Hb Hu Hs Hl Hp. exfalso. apply nth_error_In in Ha, Hb.
  pose proof (H a b Ha Hb Hu ltac:(unfold used; lia) Hp) as E. rewrite (Nat.div_small (d_bits a - 1)) in E by lia.
  symmetry in E. apply Nat.div_small_iff in E; lia.
Qed.

(** The same of items. *)
Definition unblk (B : list item) : Prop := forall B1 w i B2 u, B = B1 ++ (w, i) :: B2 -> length w <= 10 -> is_prefix w u ->
  sub u B <> [] -> sub u B1 <> [].

Lemma number_split : forall (S : Type) m (ds : list (desc S)) k B1 w i B2, items_of m (number k ds) = B1 ++ (w, i) :: B2 ->
  exists ds1 d ds2, ds = ds1 ++ d :: ds2 /\ used d /\ w = word m d /\ B1 = items_of m (number k ds1).
Proof.
  intros S m. induction ds as [|d ds IH]; intros k B1 w i B2 H; cbn [number] in H.
  - destruct B1; discriminate.
  - destruct (Nat.eqb_spec (d_bits d) 0) as [E|E].
    + destruct (IH k B1 w i B2 H) as [ds1 [d1 [ds2 [-> [Hu [Hw HB]]]]]]. exists (d :: ds1), d1, ds2.
      split; [reflexivity|]. split; [exact Hu|]. split; [exact Hw|]. cbn [number].
      destruct (Nat.eqb_spec (d_bits d) 0); [exact HB|contradiction].
    + rewrite items_cons in H. destruct B1 as [|x B1].
      * injection H as Hw _ _. exists [], d, ds. split; [reflexivity|]. split; [unfold used; lia|].
        split; [symmetry; exact Hw|reflexivity].
      * cbn [app] in H. apply (f_equal (fun l => match l with y :: r => (y, r) | [] => (x, []) end)) in H.
        apply pair_equal_spec in H. destruct H as [Hx H].
        destruct (IH (k + 1) B1 w i B2 H) as [ds1 [d1 [ds2 [-> [Hu [Hw HB]]]]]]. exists (d :: ds1), d1, ds2.
        split; [reflexivity|]. split; [exact Hu|]. split; [exact Hw|]. cbn [number].
        destruct (Nat.eqb_spec (d_bits d) 0); [contradiction|]. rewrite items_cons, <- Hx, HB. reflexivity.
Qed.

Lemma number_unblk : forall (S : Type) m (ds : list (desc S)), unblocked m ds -> unblk (items_of m (number 0 ds)).
Proof.
  intros S m ds H B1 w i B2 u HB Hl Hp Hs.
  destruct (sub u (items_of m (number 0 ds))) as [|[w2 i2] rest] eqn:E; [congruence|].
  assert (Hin : In (w2, i2) (sub u (items_of m (number 0 ds)))) by (rewrite E; left; reflexivity).
  apply sub_in in Hin. destruct Hin as [Lu [Hw2 Hin]]. apply number_in in Hin. destruct Hin as [j [b [Hj [Hub [Eb _]]]]].
  destruct (number_split S m ds 0 B1 w i B2 HB) as [ds1 [a [ds2 [Eds [Hua [Ea EB1]]]]]].
  assert (Hi : nth_error ds (length ds1) = Some a).
  { rewrite Eds, nth_error_app2, Nat.sub_diag by lia. reflexivity. }
  assert (Lb : d_bits b = length (u ++ w2)) by (rewrite Eb; unfold word; symmetry; apply codeword_length).
  assert (La : d_bits a = length w) by (rewrite Ea; unfold word; symmetry; apply codeword_length).
  rewrite app_length, Lu in Lb. assert (0 < length w2) by (destruct w2; [congruence|cbn; lia]).
  destruct (H (length ds1) j a b Hi Hj Hua ltac:(lia) ltac:(lia)) as [k [c [Hk [Hc [Hlc Ec]]]]].
  { rewrite <- Ea, <- Eb. apply (prefix_trans _ u); [exact Hp|]. exists w2. reflexivity. }
  rewrite Eds, nth_error_app1 in Hc by exact Hk.
  assert (Eu : firstn 10 (word m c) = u).
  { rewrite Ec, <- Eb, <- Lu, firstn_app, Nat.sub_diag, firstn_O, app_nil_r. apply firstn_all. }
  assert (Lc : length (word m c) = d_bits c) by apply codeword_length.
  intros Hn. assert (Hin : In (skipn 10 (word m c), 0 + rank ds1 k) (sub u B1)); [|rewrite Hn in Hin; destruct Hin].
  apply sub_in. split; [exact Lu|]. split.
  - intros E0. apply (f_equal (@length bool)) in E0. rewrite skipn_length, Lc in E0. cbn in E0. lia.
  - rewrite <- Eu, firstn_skipn, EB1. apply number_in. exists k, c. split; [exact Hc|]. split; [unfold used; lia|]. split; reflexivity.
Qed.

(** ** First pass *)

Lemma add_esc_zero : forall cc key c, (forall k b, In (k, b) cc -> b_offset b = 0) ->
  forall k b, In (k, b) (add_esc_code cc key c) -> b_offset b = 0.
Proof.
  induction cc as [|[k0 b0] cc IH]; intros key c H k b Hin; cbn [add_esc_code] in Hin.
  - destruct Hin as [Hin|[]]. injection Hin as _ <-. reflexivity.
  - destruct (k0 =? key)%N.
    + destruct Hin as [Hin|Hin]; [|apply (H k b); right; exact Hin].
      injection Hin as _ <-. cbn [add_code b_offset]. apply (H k0 b0). left. reflexivity.
    + destruct Hin as [Hin|Hin]; [apply (H k b); left; exact Hin|].
      apply (IH key c) with (k := k); [intros k' b' H'; apply (H k' b'); right; exact H'|exact Hin].
Qed.

Lemma new_pass1_zero : forall (S : Type) m (ds : list (desc S)) mb k cc mb' cc', new_pass1 m ds mb k cc = Ret (mb', cc') ->
  (forall k b, In (k, b) cc -> b_offset b = 0) -> forall k b, In (k, b) cc' -> b_offset b = 0.
Proof.
  intros S m. induction ds as [|d ds IH]; intros mb k cc mb' cc' H Hz; cbn [new_pass1] in H.
  - injection H as _ <-. exact Hz.
  - destruct (MAX_LUT_BITS <? d_bits d).
    + unfold add_long_code in H. destruct (extract_lut_part _ _ _ _) as [ckey| |]; try discriminate. cbn [obind] in H.
      destruct (extract_esc_part _ _ _ _) as [cval| |]; try discriminate. cbn [obind] in H.
      destruct (csub _ _) as [rest| |]; try discriminate. cbn [obind] in H.
      apply (IH _ _ _ _ _ H). apply add_esc_zero. exact Hz.
    + cbn [obind] in H. apply (IH _ _ _ _ _ H Hz).
Qed.

Lemma new_pass1_spec : forall (S : Type) m (ds : list (desc S)) mb k D cc, codes_fit m ds -> esc_ok m D cc ->
  exists cc', new_pass1 m ds mb k cc = Ret (Nat.max mb (maxl (items_of m (number k ds))), cc') /\
    esc_ok m (D ++ items_of m (number k ds)) cc'.
Proof.
  intros S m ds. induction ds as [|d ds IH]; intros mb k D cc Hfit He; cbn [new_pass1 number].
  - exists cc. cbn [items_of map maxl]. rewrite app_nil_r. split; [f_equal; f_equal; lia|exact He].
  - assert (Hfit' : codes_fit m ds) by (intros d' Hin; apply Hfit; right; exact Hin).
    change MAX_LUT_BITS with 10. destruct (Nat.eqb_spec (d_bits d) 0) as [E|E].
    + rewrite E. cbn [Nat.ltb Nat.leb obind Nat.max]. apply IH; assumption.
    + destruct (Nat.ltb_spec 0 (d_bits d)); [|lia].
      destruct (Hfit d (or_introl eq_refl)) as [H1 [H2 _]]; [unfold used; lia|].
      set (c := mk_code (d_code d) (d_bits d) k).
      assert (Hc : code_ok m c) by (split; cbn; [lia|exact H2]).
      assert (Happ : D ++ items_of m (c :: number (k + 1) ds) = (D ++ items_of m [c]) ++ items_of m (number (k + 1) ds)).
      { rewrite <- app_assoc. reflexivity. }
      assert (Hmx : maxl (items_of m (c :: number (k + 1) ds)) = Nat.max (d_bits d) (maxl (items_of m (number (k + 1) ds)))).
      { rewrite items_cons. cbn [maxl]. rewrite codeword_length. reflexivity. }
      rewrite Happ, Hmx.
      destruct (Nat.ltb_spec 10 (d_bits d)) as [Hl|Hs].
      * destruct (esc_ok_long m D cc c He Hc Hl) as [cc' [E1 He']]. rewrite E1. cbn [obind].
        destruct (IH (Nat.max (d_bits d) mb) (k + 1) _ cc' Hfit' He') as [cc2 [E2 He2]].
        exists cc2. split; [rewrite E2; f_equal; f_equal; lia|exact He2].
      * cbn [obind]. assert (He' : esc_ok m (D ++ items_of m [c]) cc).
        { rewrite items_one. apply esc_ok_short; [exact He|]. rewrite codeword_length. exact Hs. }
        destruct (IH (Nat.max (d_bits d) mb) (k + 1) _ cc Hfit' He') as [cc2 [E2 He2]].
        exists cc2. split; [rewrite E2; f_equal; f_equal; lia|exact He2].
Qed.

(** ** Second pass *)

(** Entries of the tables of the buckets with the given keys. *)
Definition key_size (cc : escape_codes) (k : N) : N :=
  match find_bucket cc k with Some b => pow2 (bbits b) | None => 0 end.

Lemma nsum_incl : forall (f : N -> N) A L, NoDup A -> incl A L -> (nsum (map f A) <= nsum (map f L))%N.
Proof.
  intros f A. induction A as [|x A IH]; intros L ND HI; [apply N.le_0_l|].
  inversion_clear ND as [|? ? Hx ND'].
  destruct (in_split x L (HI x (or_introl eq_refl))) as [l1 [l2 ->]].
  rewrite map_app. cbn [map]. rewrite nsum_cons, nsum_app, nsum_cons.
  assert (HI' : incl A (l1 ++ l2)).
  { intros y Hy. specialize (HI y (or_intror Hy)). apply in_app_or in HI. apply in_or_app.
    destruct HI as [HI|[HI|HI]]; [left; exact HI|congruence|right; exact HI]. }
  specialize (IH _ ND' HI'). rewrite map_app, nsum_app in IH. lia.
Qed.

Lemma key_sizes : forall cc, NoDup (map fst cc) -> nsum (map (key_size cc) (map fst cc)) = csize cc.
Proof.
  induction cc as [|[k b] cc IH]; intros ND; [reflexivity|]. cbn [map fst csize]. rewrite nsum_cons.
  inversion_clear ND as [|? ? Hk ND']. unfold key_size at 1. cbn [find_bucket]. rewrite N.eqb_refl. f_equal.
  rewrite <- (IH ND'). f_equal. apply map_ext_in. intros k' Hk'. unfold key_size. cbn [find_bucket].
  destruct (N.eqb_spec k k'); [congruence|reflexivity].
Qed.

(** The first item whose word matches [u] in the first ten bits. *)
Definition touch (u : list bool) (x : item) : bool := bits_eqb (firstn (length (fst x)) u) (firstn 10 (fst x)).

(** It is a long one: then the long words that begin with [u] have a table of their own. *)
Definition own (u : list bool) (D : list item) : bool :=
  match find (touch u) D with Some x => 10 <? length (fst x) | None => false end.

Lemma touch_short : forall u w i, length w <= 10 -> touch u (w, i) = true <-> is_prefix w u.
Proof.
  intros u w i H. unfold touch. cbn [fst]. rewrite bits_eqb_true, (firstn_all2 w) by exact H.
  rewrite prefix_firstn. reflexivity.
Qed.

Lemma touch_long : forall u w i, length u = 10 -> 10 < length w -> touch u (w, i) = true <-> firstn 10 w = u.
Proof.
  intros u w i Lu H. unfold touch. cbn [fst]. rewrite bits_eqb_true, (firstn_all2 u) by lia.
  split; intros E; symmetry; exact E.
Qed.

Lemma find_snoc : forall (A : Type) (f : A -> bool) l x,
  find f (l ++ [x]) = match find f l with Some y => Some y | None => if f x then Some x else None end.
Proof.
  intros A f. induction l as [|y l IH]; intros x; cbn [app find]; [reflexivity|]. destruct (f y); [reflexivity|apply IH].
Qed.

Lemma find_split : forall (A : Type) (f : A -> bool) l x, find f l = Some x ->
  exists l1 l2, l = l1 ++ x :: l2 /\ find f l1 = None /\ f x = true.
Proof.
  intros A f. induction l as [|y l IH]; intros x H; [discriminate|]. cbn [find] in H. destruct (f y) eqn:E.
  - injection H as <-. exists [], l. split; [reflexivity|]. split; [reflexivity|exact E].
  - destruct (IH x H) as [l1 [l2 [-> [H1 H2]]]]. exists (y :: l1), l2. split; [reflexivity|]. split; [|exact H2].
    cbn [find]. rewrite E. exact H1.
Qed.

Lemma untouched : forall u D, length u = 10 -> find (touch u) D = None <-> sub u D = [] /\ no_short u D.
Proof.
  intros u D Lu. split.
  - intros H. pose proof (find_none _ _ H) as Hn. split.
    + destruct (sub u D) as [|[w i] r] eqn:E; [reflexivity|].
      assert (Hin : In (w, i) (sub u D)) by (rewrite E; left; reflexivity). apply sub_in in Hin. destruct Hin as [_ [Hw Hin]].
      apply Hn in Hin. assert (T : touch u (u ++ w, i) = true); [|congruence]. apply touch_long; [exact Lu| |].
      * rewrite app_length. destruct w; [congruence|cbn; lia].
      * rewrite firstn_app, Lu, Nat.sub_diag, firstn_O, app_nil_r. rewrite <- Lu. apply firstn_all.
    + intros w i Hin Hl Hp. apply (touch_short u w i Hl) in Hp. apply Hn in Hin. congruence.
  - intros [Hs Hn]. destruct (find (touch u) D) as [[w i]|] eqn:E; [|reflexivity]. exfalso.
    apply find_some in E. destruct E as [Hin T]. destruct (Nat.le_gt_cases (length w) 10) as [Hl|Hl].
    + apply (Hn w i Hin Hl). apply (touch_short u w i Hl). exact T.
    + apply (touch_long u w i Lu Hl) in T. assert (Hx : In (skipn 10 w, i) (sub u D)); [|rewrite Hs in Hx; destruct Hx].
      apply sub_in. split; [exact Lu|]. split; [|rewrite <- T, firstn_skipn; exact Hin].
      intros E. apply (f_equal (@length bool)) in E. rewrite skipn_length in E. cbn in E. lia.
Qed.

Lemma own_sub : forall u D, length u = 10 -> own u D = true -> sub u D <> [].
Proof.
  intros u D Lu H. unfold own in H. destruct (find (touch u) D) as [[w i]|] eqn:E; [|discriminate].
  apply find_some in E. destruct E as [Hin T]. cbn [fst] in H. apply Nat.ltb_lt in H.
  apply (touch_long u w i Lu H) in T. intros Hs. assert (Hx : In (skipn 10 w, i) (sub u D)); [|rewrite Hs in Hx; destruct Hx].
  apply sub_in. split; [exact Lu|]. split; [|rewrite <- T, firstn_skipn; exact Hin].
  intros E. apply (f_equal (@length bool)) in E. rewrite skipn_length in E. cbn in E. lia.
Qed.

Lemma own_of : forall u D, length u = 10 -> sub u D <> [] -> no_short u D -> own u D = true.
Proof.
  intros u D Lu Hs Hn. unfold own. destruct (find (touch u) D) as [[w i]|] eqn:E.
  - apply Nat.ltb_lt. cbn [fst]. apply find_some in E. destruct E as [Hin T].
    destruct (Nat.le_gt_cases (length w) 10) as [Hl|Hl]; [|exact Hl].
    exfalso. apply (Hn w i Hin Hl). apply (touch_short u w i Hl). exact T.
  - apply (untouched u D Lu) in E. destruct E as [E _]. congruence.
Qed.

Lemma own_snoc : forall u D x, own u (D ++ [x]) =
  match find (touch u) D with Some _ => own u D | None => touch u x && (10 <? length (fst x)) end.
Proof.
  intros u D x. unfold own. rewrite find_snoc. destruct (find (touch u) D); [reflexivity|]. destruct (touch u x); reflexivity.
Qed.

Lemma own_none : forall u D, find (touch u) D = None -> own u D = false.
Proof. intros u D H. unfold own. rewrite H. reflexivity. Qed.

Lemma unblk_own : forall B u, unblk B -> length u = 10 -> sub u B <> [] -> own u B = true.
Proof.
  intros B u H Lu Hs. unfold own. destruct (find (touch u) B) as [[w i]|] eqn:E.
  - apply find_split in E. destruct E as [B1 [B2 [E [Hn T]]]]. cbn [fst]. apply Nat.ltb_lt.
    destruct (Nat.le_gt_cases (length w) 10) as [Hl|Hl]; [|exact Hl]. exfalso.
    apply (touch_short u w i Hl) in T. apply (H B1 w i B2 u E Hl T Hs). apply (untouched u B1 Lu). exact Hn.
  - apply (untouched u B Lu) in E. destruct E as [E _]. congruence.
Qed.

Record pass2_inv (m : mode) (B : list item) (cc0 : escape_codes) (D : list item) (t : list N)
    (cc : escape_codes) : Prop := {
  p2_done : exists A, NoDup A /\ incl A (map fst cc0) /\
    (forall u, length u = 10 -> (In (value (reader_for m) u) A <-> own u D = true)) /\
    N.of_nat (length t) = (pow2 (lbits B) + nsum (map (key_size cc0) A))%N;
  p2_keys : map fst cc = map fst cc0;
  p2_back : forall k b, In (k, b) cc -> exists b0, In (k, b0) cc0 /\ b_maxlen b = b_maxlen b0 /\ b_codes b = b_codes b0;
  p2_entries : forall u, length u = lbits B ->
    (exists w i, lastin w i u D /\ length w <= 10 /\ is_prefix w u /\
       nth_error t (slot (reader_for m) 0 u) = Some (lut_entry (N.of_nat i) (length w))) \/
    (sub u D <> [] /\ no_short u D /\ exists b, In (value (reader_for m) u, b) cc /\
       nth_error t (slot (reader_for m) 0 u) = Some (esc_entry (N.of_nat (b_offset b)) (bbits b))) \/
    (sub u D = [] /\ no_short u D /\ nth_error t (slot (reader_for m) 0 u) = Some TABLE_FILL_VALUE);
  p2_zero : forall u b, length u = 10 -> own u D = false -> In (value (reader_for m) u, b) cc -> b_offset b = 0;
  p2_alloc : forall u b, length u = 10 -> own u D = true -> In (value (reader_for m) u, b) cc ->
    lsize B <= b_offset b /\ b_offset b + bsize b <= length t /\ blank t b;
  p2_disjoint : forall u1 u2 b1 b2, length u1 = 10 -> length u2 = 10 -> u1 <> u2 -> own u1 D = true -> own u2 D = true ->
    In (value (reader_for m) u1, b1) cc -> In (value (reader_for m) u2, b2) cc ->
    forall q, in_region b1 q -> ~ in_region b2 q
}.

Lemma nodup_unique : forall (A B : Type) (l : list (A * B)) k b1 b2, NoDup (map fst l) ->
  In (k, b1) l -> In (k, b2) l -> b1 = b2.
Proof.
  intros A B l k b1 b2. induction l as [|[k0 b0] l IH]; intros ND H1 H2; [destruct H1|].
  inversion_clear ND as [|? ? Hn ND']. destruct H1 as [H1|H1], H2 as [H2|H2].
  - congruence.
  - exfalso. apply Hn. injection H1 as -> _. apply (in_map fst) in H2. exact H2.
  - exfalso. apply Hn. injection H2 as -> _. apply (in_map fst) in H1. exact H1.
  - apply IH; assumption.
Qed.

Lemma find_in : forall cc k b, NoDup (map fst cc) -> In (k, b) cc -> find_bucket cc k = Some b.
Proof.
  induction cc as [|[k0 b0] cc IH]; intros k b ND H; [destruct H|]. cbn [find_bucket].
  inversion_clear ND as [|? ? Hn ND']. destruct (N.eqb_spec k0 k) as [->|Hne].
  - destruct H as [H|H]; [congruence|]. exfalso. apply Hn. apply (in_map fst) in H. exact H.
  - destruct H as [H|H]; [congruence|]. apply IH; assumption.
Qed.

Lemma set_bucket_keys : forall cc k b, map fst (set_bucket cc k b) = map fst cc.
Proof.
  induction cc as [|[k0 b0] cc IH]; intros k b; cbn [set_bucket]; [reflexivity|].
  destruct (N.eqb_spec k0 k); cbn [map fst]; [reflexivity|]. rewrite IH. reflexivity.
Qed.

Lemma set_bucket_in : forall cc k b, NoDup (map fst cc) -> In k (map fst cc) ->
  forall k' b', In (k', b') (set_bucket cc k b) <-> (k' = k /\ b' = b) \/ (k' <> k /\ In (k', b') cc).
Proof.
  induction cc as [|[k0 b0] cc IH]; intros k b ND Hk k' b'; [destruct Hk|]. cbn [set_bucket].
  inversion_clear ND as [|? ? Hn ND']. destruct (N.eqb_spec k0 k) as [->|Hne].
  - cbn [In]. split.
    + intros [H|H]; [injection H as <- <-; left; split; reflexivity|].
      right. split; [|right; exact H]. intros ->. apply Hn. apply (in_map fst) in H. exact H.
    + intros [[-> ->]|[H1 [H2|H2]]]; [left; reflexivity|congruence|right; exact H2].
  - cbn [map fst In] in Hk. destruct Hk as [Hk|Hk]; [congruence|]. cbn [In]. rewrite IH by assumption. split.
    + intros [H|[H|[H1 H2]]].
      * injection H as <- <-. right. split; [exact Hne|left; reflexivity].
      * left. exact H.
      * right. split; [exact H1|right; exact H2].
    + intros [H|[H1 [H2|H2]]]; [right; left; exact H|left; exact H2|right; right; split; assumption].
Qed.

Lemma sub_app_nil : forall u A B, sub u (A ++ B) = [] -> sub u A = [].
Proof. intros u A B H. rewrite sub_app in H. apply app_eq_nil in H. apply H. Qed.

Lemma new_pass2_spec : forall (S : Type) m (ds : list (desc S)) B cc0 D t cc,
  codes_fit m ds -> (forall w i, In (w, i) B -> (N.of_nat i < 2 ^ 24)%N) -> esc_ok m B cc0 -> 1 <= maxl B -> (N.of_nat (length D + length (words m ds)) <= 2 ^ 24)%N ->
  B = D ++ items_of m (number (length D) ds) -> (pow2 (lbits B) + cost B <= 2 ^ 24)%N ->
  pass2_inv m B cc0 D t cc ->
  exists t' cc', new_pass2 t m (lbits B) ds (N.of_nat (length D)) cc = Ret (t', cc') /\ pass2_inv m B cc0 B t' cc'.
Proof.
  intros S m ds. induction ds as [|d ds IH]; intros B cc0 D t cc Hfit Hidx He0 Hmax1 H24 HB HC HI.
  - cbn [number items_of map] in HB. rewrite app_nil_r in HB. subst D. exists t, cc. split; [reflexivity|exact HI].
  - assert (Hfit' : codes_fit m ds) by (intros d' Hin; apply Hfit; right; exact Hin).
    cbn [number] in HB. cbn [new_pass2] in *. change MAX_LUT_BITS with 10.
    unfold words in H24. cbn [filter] in H24.
    destruct (Nat.eqb_spec (d_bits d) 0) as [E|E]; destruct (Nat.ltb_spec 0 (d_bits d)) as [Hpos|Hpos]; try lia.
    { apply (IH B cc0 D); assumption. }
    cbn [map length] in H24. fold (words m ds) in H24.
    destruct (Hfit d (or_introl eq_refl)) as [Hb32 [Hcode _]]; [unfold used; lia|].
    set (c := mk_code (d_code d) (d_bits d) (length D)) in *.
    assert (Hc : code_ok m c) by (split; cbn; [lia|exact Hcode]).
    set (D' := D ++ items_of m [c]).
    assert (LD' : length D' = length D + 1) by (unfold D'; rewrite app_length; reflexivity).
    assert (HB' : B = D' ++ items_of m (number (length D') ds)).
    { rewrite LD'. unfold D'. rewrite <- app_assoc. exact HB. }
    assert (Hsym : add32 (N.of_nat (length D)) 1 = Ret (N.of_nat (length D'))).
    { rewrite add32_small; [f_equal; lia|]. change (2 ^ 24)%N with 16777216%N in H24. change (pow2 32) with 4294967296%N. lia. }
    set (w := codeword m (d_code d) (d_bits d)).
    assert (Lw : length w = d_bits d) by apply codeword_length.
    assert (HD' : D' = D ++ [(w, length D)]) by reflexivity.
    assert (HinB : In (w, length D) B).
    { rewrite HB'. apply in_or_app. left. rewrite HD'. apply in_or_app. right. left. reflexivity. }
    assert (HDB : forall x, In x D -> In x B).
    { intros x Hx. rewrite HB. apply in_or_app. left. exact Hx. }
    assert (HsubB : forall u, sub u D <> [] -> sub u B <> []).
    { intros u Hs Hn. apply Hs. rewrite HB in Hn. apply sub_app_nil in Hn. exact Hn. }
    assert (HD'B : forall x, In x D' -> In x B).
    { intros x Hx. rewrite HB'. apply in_or_app. left. exact Hx. }
    assert (HsubB' : forall u, sub u D' <> [] -> sub u B <> []).
    { intros u Hs Hn. apply Hs. rewrite HB' in Hn. apply sub_app_nil in Hn. exact Hn. }
    pose proof (maxl_in _ _ _ HinB) as HmB.
    assert (NDcc : NoDup (map fst cc)) by (rewrite (p2_keys _ _ _ _ _ _ HI); apply He0).
    destruct (p2_done _ _ _ _ _ _ HI) as [A [NDA [HA [HAu HAt]]]].
    assert (Hlow : (lsize B <= length t)%nat) by (unfold lsize; lia).
    assert (Htop : (N.of_nat (length t) <= 2 ^ 24)%N).
    { pose proof (nsum_incl (key_size cc0) A _ NDA HA) as Hsum.
      rewrite key_sizes in Hsum by apply He0. pose proof (esc_cost _ _ _ He0). lia. }
    assert (Hreg : forall u, length u = lbits B -> slot (reader_for m) 0 u < lsize B).
    { intros u Lu. pose proof (slot_bound (reader_for m) 0 u). unfold lsize. rewrite <- Lu. lia. }
    assert (Hstep : exists t1 cc1,
       (if d_bits d <=? 10 then
            let! t0 := fill_lut t m 0 (d_code d) (d_bits d) (lbits B) (N.of_nat (length D)) false in Ret (t0, cc)
          else
            let! ckey := extract_lut_part (d_code d) (d_bits d) 10 m in
            let! x := index_at t (N.to_nat ckey) in
            if (x =? TABLE_FILL_VALUE)%N then
              match find_bucket cc ckey with
              | Some b =>
                  let! (t0, b') := alloc_bucket t m 0 ckey b in
                  Ret (t0, set_bucket cc ckey b')
              | None => Ret (t, cc)
              end
            else Ret (t, cc)) = Ret (t1, cc1) /\ pass2_inv m B cc0 D' t1 cc1).
    2:{ destruct Hstep as [t1 [cc1 [E1 HI1]]]. rewrite E1. cbn [obind]. rewrite Hsym. cbn [obind].
        apply (IH B cc0 D'); try assumption. lia. }
    destruct (Nat.leb_spec (d_bits d) 10) as [Hsh|Hlg].
    + (* a short code *)
      destruct (fill_short_spec m t 0 (d_code d) (d_bits d) (lbits B) (N.of_nat (length D)))
        as [t' [Ef [Lt' [Hyes [Hno Hrest]]]]].
      { unfold lbits. lia. } { unfold lbits. lia. } { exact Hcode. } { unfold lsize in Hlow. lia. }
      rewrite Ef. cbn [obind]. exists t', cc. split; [reflexivity|].
      assert (Hsub : forall u, sub u D' = sub u D).
      { intros u. rewrite HD', sub_app, sub_short by lia. apply app_nil_r. }
      assert (Hown : forall u, length u = 10 -> own u D' = own u D).
      { intros u Lu. rewrite HD', own_snoc. cbn [fst]. rewrite (proj2 (Nat.ltb_ge 10 (length w))), andb_false_r by lia.
        destruct (find (touch u) D) eqn:Ef'; [reflexivity|]. symmetry. apply own_none. exact Ef'. }
      assert (Hhigh : forall q, lsize B <= q -> nth_error t' q = nth_error t q).
      { intros q Hq. apply Hrest. unfold lsize in Hq. lia. }
      constructor.
      * exists A. split; [exact NDA|]. split; [exact HA|]. split; [|rewrite Lt'; exact HAt].
        intros u Lu. rewrite Hown by exact Lu. apply HAu. exact Lu.
      * apply HI.
      * apply HI.
      * intros u Lu. destruct (prefix_dec w u) as [Hp|Hp].
        -- left. exists w, (length D). split; [rewrite HD'; apply lastin_end|].
           split; [lia|]. split; [exact Hp|]. rewrite Lw. apply Hyes; assumption.
        -- rewrite (Hno u Lu Hp). rewrite Hsub.
           assert (Hns : no_short u D -> no_short u D').
           { intros Hn w' i' Hi. rewrite HD' in Hi.
             apply in_app_or in Hi. destruct Hi as [Hi|[Hi|[]]]; [apply (Hn _ _ Hi)|].
             apply pair_equal_spec in Hi. destruct Hi as [<- _]. intros _. exact Hp. }
           destruct (p2_entries _ _ _ _ _ _ HI u Lu) as [[w' [i' [Hi R]]]|[[Hs [Hn R]]|[Hs [Hn En]]]].
           ++ left. exists w', i'. split; [rewrite HD'; apply lastin_more; [exact Hi|intros _; exact Hp]|exact R].
           ++ right. left. split; [exact Hs|]. split; [apply Hns; exact Hn|exact R].
           ++ right. right. split; [exact Hs|]. split; [apply Hns; exact Hn|exact En].
      * intros u b Lu Hs. rewrite (Hown u Lu) in Hs. apply (p2_zero _ _ _ _ _ _ HI u b Lu Hs).
      * intros u b Lu Hs Hi. rewrite (Hown u Lu) in Hs. destruct (p2_alloc _ _ _ _ _ _ HI u b Lu Hs Hi) as [Ho1 [Ho2 Hbl]].
        split; [exact Ho1|]. split; [lia|]. intros q Hq. rewrite Hhigh; [apply Hbl; exact Hq|]. unfold in_region in Hq. lia.
      * intros u1 u2 b1 b2 L1 L2 Hne S1 S2. rewrite (Hown u1 L1) in S1. rewrite (Hown u2 L2) in S2.
        apply (p2_disjoint _ _ _ _ _ _ HI u1 u2); assumption.
    + (* a long code *)
      rewrite (extract_lut_spec m (d_code d) (d_bits d) ltac:(lia) Hcode). cbn [obind]. fold w.
      set (u0 := firstn 10 w). assert (Lu0 : length u0 = 10) by (unfold u0; rewrite firstn_length; lia).
      assert (HL10 : lbits B = 10) by (unfold lbits; lia).
      assert (Hsz : lsize B = 1024) by (unfold lsize; rewrite HL10; reflexivity).
      assert (Hs0 : sub u0 D' <> []).
      { rewrite HD', sub_app, sub_long by lia. fold u0. rewrite (proj2 (bits_eqb_true u0 u0) eq_refl).
        intros Hn. apply app_eq_nil in Hn. destruct Hn as [_ Hn]. discriminate. }
      assert (Hs1 : forall u, u <> u0 -> sub u D' = sub u D).
      { intros u Hne. rewrite HD', sub_app, sub_long by lia. fold u0.
        destruct (bits_eqb u0 u) eqn:Eb; [apply bits_eqb_true in Eb; congruence|apply app_nil_r]. }
      assert (Hsl0 : N.to_nat (value (reader_for m) u0) = slot (reader_for m) 0 u0) by reflexivity.
      assert (Hown1 : forall u, length u = 10 -> u <> u0 -> own u D' = own u D).
      { intros u Lu Hne. rewrite HD', own_snoc. destruct (touch u (w, length D)) eqn:T.
        - apply (touch_long u w (length D) Lu ltac:(lia)) in T. exfalso. apply Hne. symmetry. exact T.
        - cbn [andb]. destruct (find (touch u) D) eqn:Ef'; [reflexivity|]. symmetry. apply own_none. exact Ef'. }
      (* entries for strings other than [u0] carry over whenever nothing was overwritten *)
      assert (Hold : forall w' i', In (w', i') D' -> length w' <= 10 -> In (w', i') D).
      { intros w' i' Hi Hl. rewrite HD' in Hi. apply in_app_or in Hi. destruct Hi as [Hi|[Hi|[]]]; [exact Hi|].
        apply pair_equal_spec in Hi. destruct Hi as [<- _]. lia. }
      assert (Hnew : forall w' i' u, lastin w' i' u D -> lastin w' i' u D').
      { intros w' i' u Hi. rewrite HD'. apply lastin_more; [exact Hi|lia]. }
      assert (Hns : forall u, no_short u D -> no_short u D').
      { intros u Hn w' i' Hi' Hl'. apply (Hn w' i' (Hold _ _ Hi' Hl') Hl'). }
      assert (Hcase : (find (touch u0) D <> None /\ exists x, nth_error t (slot (reader_for m) 0 u0) = Some x /\ (x =? TABLE_FILL_VALUE)%N = false) \/
                      (sub u0 D = [] /\ no_short u0 D /\ nth_error t (slot (reader_for m) 0 u0) = Some TABLE_FILL_VALUE)).
      { destruct (p2_entries _ _ _ _ _ _ HI u0 ltac:(lia)) as [[w' [i' [Hi [Hl' [Hp' En]]]]]|[[Hs [Hn [b [Hi En]]]]|[Hs [Hn En]]]].
        - left. pose proof (lastin_in _ _ _ _ Hi) as HiD. split.
          + intros Hn. apply (untouched u0 D Lu0) in Hn. destruct Hn as [_ Hn]. exact (Hn w' i' HiD Hl' Hp').
          + eexists. split; [exact En|]. apply (lut_entry_fields (N.of_nat i') (length w')); [|exact Hl'].
            apply (Hidx w'). apply HDB. exact HiD.
        - left. split; [intros Hf; apply (untouched u0 D Lu0) in Hf; destruct Hf; congruence|]. eexists. split; [exact En|].
          destruct (p2_alloc _ _ _ _ _ _ HI u0 b Lu0 (own_of u0 D Lu0 Hs Hn) Hi) as [Ho1 [Ho2 _]].
          assert (0 < bsize b) by (unfold bsize; pose proof (pow2_pos (bbits b)); lia).
          apply (esc_entry_fields (N.of_nat (b_offset b)) (bbits b)); [lia|unfold bbits; lia].
        - right. split; [exact Hs|]. split; [exact Hn|exact En]. }
      destruct Hcase as [[Hs [x [En Fx]]]|[Hs [Hn En]]].
      * (* the entry is taken *)
        rewrite Hsl0, (index_nth _ _ _ _ En). cbn [obind]. rewrite Fx.
        exists t, cc. split; [reflexivity|].
        assert (Hown : forall u, length u = 10 -> own u D' = own u D).
        { intros u Lu. destruct (list_eq_dec bool_dec u u0) as [->|Hne]; [|apply Hown1; assumption].
          rewrite HD', own_snoc. destruct (find (touch u0) D); [reflexivity|congruence]. }
        assert (Hsubm : forall u, sub u D <> [] -> sub u D' <> []).
        { intros u Hsu Hn. apply Hsu. rewrite HD' in Hn. apply sub_app_nil in Hn. exact Hn. }
        constructor.
        -- exists A. split; [exact NDA|]. split; [exact HA|]. split; [|exact HAt].
           intros u Lu. rewrite (Hown u Lu). apply HAu. exact Lu.
        -- apply HI.
        -- apply HI.
        -- intros u Lu. destruct (p2_entries _ _ _ _ _ _ HI u Lu) as [[w' [i' [Hi' R]]]|[[Hsu [Hnu R]]|[Hsu [Hnu R]]]].
           ++ left. exists w', i'. split; [apply Hnew; exact Hi'|exact R].
           ++ right. left. split; [apply Hsubm; exact Hsu|]. split; [apply Hns; exact Hnu|exact R].
           ++ right. right. assert (Hne : u <> u0) by (intros ->; apply Hs; apply (untouched u0 D Lu0); split; assumption).
              rewrite (Hs1 u Hne). split; [exact Hsu|]. split; [apply Hns; exact Hnu|exact R].
        -- intros u b Lu Hsu. rewrite (Hown u Lu) in Hsu. apply (p2_zero _ _ _ _ _ _ HI u b Lu Hsu).
        -- intros u b Lu Hsu Hi. rewrite (Hown u Lu) in Hsu. apply (p2_alloc _ _ _ _ _ _ HI u b Lu Hsu Hi).
        -- intros u1 u2 b1 b2 L1 L2 Hne S1 S2. rewrite (Hown u1 L1) in S1. rewrite (Hown u2 L2) in S2.
           apply (p2_disjoint _ _ _ _ _ _ HI u1 u2); assumption.
      * (* first code of its bucket *)
        rewrite Hsl0, (index_nth _ _ _ _ En). cbn [obind]. rewrite N.eqb_refl.
        assert (Hno0 : own u0 D = false) by (apply own_none; apply (untouched u0 D Lu0); split; assumption).
        assert (Ho0 : own u0 D' = true).
        { rewrite HD', own_snoc. rewrite (proj2 (untouched u0 D Lu0) (conj Hs Hn)). cbn [fst].
          rewrite (proj2 (touch_long u0 w (length D) Lu0 ltac:(lia)) eq_refl), (proj2 (Nat.ltb_lt 10 (length w))) by lia. reflexivity. }
        destruct (eo_complete _ _ _ He0 u0 Lu0 (HsubB' u0 Hs0)) as [b00 Hin00].
        assert (Hkin : In (value (reader_for m) u0) (map fst cc)).
        { rewrite (p2_keys _ _ _ _ _ _ HI). apply (in_map fst) in Hin00. exact Hin00. }
        pose proof Hkin as Hkin'. apply in_map_iff in Hkin'. destruct Hkin' as [[k b] [Ek Hin]]. cbn [fst] in Ek. subst k.
        rewrite (find_in cc _ b NDcc Hin).
        assert (HkA : ~ In (value (reader_for m) u0) A).
        { intros HkA. apply (HAu u0 Lu0) in HkA. congruence. }
        assert (NDA' : NoDup (value (reader_for m) u0 :: A)) by (constructor; assumption).
        assert (HA' : incl (value (reader_for m) u0 :: A) (map fst cc0)).
        { intros x [<-|Hx]; [apply (in_map fst) in Hin00; exact Hin00|apply HA; exact Hx]. }
        assert (Hks : key_size cc0 (value (reader_for m) u0) = pow2 (bbits b)).
        { destruct (p2_back _ _ _ _ _ _ HI _ _ Hin) as [b0 [I0 [M0 C0]]]. unfold key_size.
          rewrite (find_in cc0 _ b0 (eo_nodup _ _ _ He0) I0). unfold bbits. rewrite M0. reflexivity. }
        assert (Hroom : (N.of_nat (length t) + pow2 (bbits b) <= 2 ^ 24)%N).
        { pose proof (nsum_incl (key_size cc0) _ _ NDA' HA') as Hsum. cbn [map] in Hsum.
          rewrite nsum_cons, key_sizes, Hks in Hsum by apply He0. pose proof (esc_cost _ _ _ He0). lia. }
        pose proof (pow2_pos (bbits b)) as Hppos.
        destruct (alloc_spec m t 0 u0 b Lu0 ltac:(lia)) as [t1 [b1 [Ea [M1 [C1 [O1 [L1 [B1 [N1 F1]]]]]]]]].
        { lia. }
        rewrite Ea. cbn [obind]. eexists. eexists. split; [reflexivity|].
        pose proof (bsize_le b1) as Hb1.
        pose proof (set_bucket_in cc (value (reader_for m) u0) b1 NDcc Hkin) as Hset.
        assert (Hvne : forall u, length u = 10 -> u <> u0 -> value (reader_for m) u <> value (reader_for m) u0).
        { intros u Lu Hne Heq. apply Hne. apply (value_inj (reader_for m)); [lia|exact Heq]. }
        (* allocated buckets of other strings lie below the old end *)
        assert (Holdb : forall u b', length u = 10 -> u <> u0 -> own u D = true -> In (value (reader_for m) u, b') cc ->
                  b_offset b' + bsize b' <= length t).
        { intros u b' Lu Hne Hsu Hi. apply (p2_alloc _ _ _ _ _ _ HI u b' Lu Hsu Hi). }
        constructor.
        -- exists (value (reader_for m) u0 :: A). split; [exact NDA'|]. split; [exact HA'|]. split.
           ++ intros u Lu. destruct (list_eq_dec bool_dec u u0) as [->|Hne].
              ** split; [intros _; exact Ho0|left; reflexivity].
              ** rewrite (Hown1 u Lu Hne). rewrite <- (HAu u Lu). cbn [In]. split.
                 { intros [Hv|Hv]; [symmetry in Hv; apply (Hvne u Lu Hne) in Hv; contradiction|exact Hv]. }
                 { intros Hv. right. exact Hv. }
           ++ cbn [map]. rewrite nsum_cons, Hks, L1. pose proof (bsize_pow b1) as Hb1p.
              assert (Hbb : bbits b1 = bbits b) by (unfold bbits; rewrite M1; reflexivity). rewrite Hbb in Hb1p. lia.
        -- rewrite set_bucket_keys. apply HI.
        -- intros k' b' Hi'. apply Hset in Hi'. destruct Hi' as [[-> ->]|[_ Hi']].
           ++ destruct (p2_back _ _ _ _ _ _ HI _ _ Hin) as [b0 [I0 [M0 C0]]]. exists b0. split; [exact I0|]. split; congruence.
           ++ apply (p2_back _ _ _ _ _ _ HI _ _ Hi').
        -- intros u Lu. destruct (list_eq_dec bool_dec u u0) as [->|Hne].
           ++ right. left. split; [exact Hs0|]. split; [apply Hns; exact Hn|].
              exists b1. split; [apply Hset; left; split; reflexivity|exact N1].
           ++ assert (Hun : nth_error t1 (slot (reader_for m) 0 u) = nth_error t (slot (reader_for m) 0 u)).
              { apply F1; [specialize (Hreg u Lu); lia|]. intros Heq. apply Hne. apply (slot_inj (reader_for m) 0); [lia|exact Heq]. }
              rewrite Hun, (Hs1 u Hne).
              destruct (p2_entries _ _ _ _ _ _ HI u Lu) as [[w' [i' [Hi' R]]]|[[Hsu [Hnu [b2 [Hi2 En2]]]]|[Hsu [Hnu R]]]].
              ** left. exists w', i'. split; [apply Hnew; exact Hi'|exact R].
              ** right. left. split; [exact Hsu|]. split; [apply Hns; exact Hnu|]. exists b2. split; [|exact En2].
                 apply Hset. right. split; [apply Hvne; [lia|exact Hne]|exact Hi2].
              ** right. right. split; [exact Hsu|]. split; [apply Hns; exact Hnu|exact R].
        -- intros u b2 Lu Hsu Hi2. assert (Hne : u <> u0) by (intros ->; congruence). rewrite (Hown1 u Lu Hne) in Hsu.
           apply Hset in Hi2. destruct Hi2 as [[Ev _]|[_ Hi2]]; [exfalso; exact (Hvne u Lu Hne Ev)|].
           apply (p2_zero _ _ _ _ _ _ HI u b2 Lu Hsu Hi2).
        -- intros u b2 Lu Hsu Hi2. apply Hset in Hi2. destruct Hi2 as [[Ev ->]|[Ev Hi2]].
           ++ split; [lia|]. split; [lia|exact B1].
           ++ assert (Hne : u <> u0) by (intros ->; congruence). rewrite (Hown1 u Lu Hne) in Hsu.
              destruct (p2_alloc _ _ _ _ _ _ HI u b2 Lu Hsu Hi2) as [Ho1 [Ho2 Hbl]].
              split; [exact Ho1|]. split; [lia|]. intros q Hq. rewrite F1; [apply Hbl; exact Hq| |].
              { unfold in_region in Hq. lia. }
              { specialize (Hreg u0 ltac:(lia)). unfold in_region in Hq. lia. }
        -- intros u1 u2 b1' b2' L1' L2' Hne S1 S2 I1 I2 q Q1 Q2. apply Hset in I1, I2.
           destruct I1 as [[V1 ->]|[V1 I1]], I2 as [[V2 ->]|[V2 I2]].
           ++ apply Hne. apply (value_inj (reader_for m)); [lia|congruence].
           ++ assert (Hne2 : u2 <> u0) by (intros ->; congruence). rewrite (Hown1 u2 L2' Hne2) in S2.
              pose proof (Holdb u2 b2' L2' Hne2 S2 I2). unfold in_region in *. lia.
           ++ assert (Hne1 : u1 <> u0) by (intros ->; congruence). rewrite (Hown1 u1 L1' Hne1) in S1.
              pose proof (Holdb u1 b1' L1' Hne1 S1 I1). unfold in_region in *. lia.
           ++ assert (Hne1 : u1 <> u0) by (intros ->; congruence). assert (Hne2 : u2 <> u0) by (intros ->; congruence).
              rewrite (Hown1 u1 L1' Hne1) in S1. rewrite (Hown1 u2 L2' Hne2) in S2.
              exact (p2_disjoint _ _ _ _ _ _ HI u1 u2 b1' b2' L1' L2' Hne S1 S2 I1 I2 q Q1 Q2).
Qed.

Lemma ccost_same : forall m cc l, map fst cc = map fst l -> NoDup (map fst l) ->
  (forall k b, In (k, b) cc -> exists b0, In (k, b0) l /\ b_codes b = b_codes b0) -> ccost m cc = ccost m l.
Proof.
  intros m. induction cc as [|[k b'] cc IH]; intros [|[k0 b0] l] HK ND Hc; try discriminate; [reflexivity|].
  cbn [map fst] in HK, ND. injection HK as <- HK. cbn [ccost]. inversion_clear ND as [|? ? Hn ND'].
  f_equal.
  - destruct (Hc k b' (or_introl eq_refl)) as [b1 [[I1|I1] E]].
    + apply pair_equal_spec in I1. destruct I1 as [_ <-]. rewrite E. reflexivity.
    + exfalso. apply Hn. apply (in_map fst) in I1. exact I1.
  - apply IH; [exact HK|exact ND'|].
    intros k' b1 Hin. destruct (Hc k' b1 (or_intror Hin)) as [b2 [[I1|I1] E]].
    + exfalso. apply Hn. apply pair_equal_spec in I1. destruct I1 as [-> _]. rewrite <- HK.
      apply (in_map fst) in Hin. exact Hin.
    + exists b2. split; assumption.
Qed.

Lemma number_empty : forall (S : Type) (ds : list (desc S)) k, (forall d, In d ds -> ~ used d) -> number k ds = [].
Proof.
  intros S ds. induction ds as [|d ds IH]; intros k H; cbn [number]; [reflexivity|].
  destruct (Nat.eqb_spec (d_bits d) 0).
  - apply IH. intros d' Hin. apply H. right. exact Hin.
  - exfalso. apply (H d (or_introl eq_refl)). unfold used. lia.
Qed.

(** The first two passes. *)
Lemma new_passes : forall (S : Type) m (ds : list (desc S)), codes_fit m ds -> small_enough m ds ->
  (exists d, In d ds /\ used d) ->
  let B := items_of m (number 0 ds) in
  exists cc0 t cc,
    (forall ord, new_codebook ord ds m = (let! table' := build_all (fun t0 key b => build_esc_lut 26 ord [key] t0 m b) t (ord [] cc) in
      Ret (Okay (mk_codebook table' (used_syms ds) (lbits B))))) /\
    esc_ok m B cc0 /\ pass2_inv m B cc0 B t cc /\ ccost m cc = ccost m cc0 /\ NoDup (map fst cc) /\
    (forall w i, In (w, i) B -> (N.of_nat i < 2 ^ 24)%N) /\ 1 <= maxl B <= 255 /\
    (pow2 (lbits B) + csize cc0 + ccost m cc0)%N = table_entries (words m ds).
Proof.
  intros S m ds Hfit [Hcnt Hcost] [d0 [Hd0 Hu0]].
  set (B := items_of m (number 0 ds)). cbv zeta.
  assert (HcB : (pow2 (lbits B) + cost B)%N = table_entries (words m ds)).
  { rewrite <- cost_root. unfold B. rewrite number_words. reflexivity. }
  assert (Hidx : forall w i, In (w, i) B -> (N.of_nat i < 2 ^ 24)%N).
  { apply items_idx. apply (number_idx S m). cbn [plus]. lia. }
  assert (Hmax1 : 1 <= maxl B).
  { apply In_nth_error in Hd0. destruct Hd0 as [j Hj].
    assert (Hin : In (word m d0, 0 + rank ds j) B) by (apply number_in; exists j, d0; repeat split; assumption).
    apply maxl_in in Hin. unfold word in Hin. rewrite codeword_length in Hin. unfold used in Hu0. lia. }
  assert (Hmax32 : maxl B <= 255).
  { apply maxl_le. intros w i Hin. apply number_in in Hin. destruct Hin as [j [d [Hj [Hu [-> _]]]]].
    unfold word. rewrite codeword_length.
    destruct (Hfit d) as [Hle _]; [apply nth_error_In in Hj; exact Hj|exact Hu|]. destruct m; cbn [longest] in Hle; lia. }
  destruct (new_pass1_spec S m ds 0 0 [] [] Hfit (esc_ok_nil m)) as [cc0 [E1 He]]. cbn [app] in He. fold B in E1, He.
  assert (Hmb : (if MAX_LUT_BITS <? maxl B then MAX_LUT_BITS else maxl B) = lbits B).
  { change MAX_LUT_BITS with 10. unfold lbits. destruct (Nat.ltb_spec 10 (maxl B)); lia. }
  assert (Hsz : lsize B <= 1024).
  { unfold lsize, lbits. assert ((pow2 (Nat.min (maxl B) 10) <= pow2 10)%N) by (apply N.pow_le_mono_r; lia).
    change (pow2 10) with 1024%N in *. lia. }
  destruct (new_pass2_spec S m ds B cc0 [] (repeat TABLE_FILL_VALUE (lsize B)) cc0) as [t [cc [E2 HI]]];
    try assumption; try reflexivity.
  - rewrite HcB. exact Hcost.
  - constructor.
    + exists []. split; [constructor|]. split; [intros x []|]. split.
      * intros u _. split; [intros []|intros Hs; discriminate Hs].
      * rewrite repeat_length. unfold lsize. cbn [map]. unfold nsum. cbn [fold_right]. lia.
    + reflexivity.
    + intros k b Hin. exists b. repeat split. exact Hin.
    + intros u Lu. right. right. split; [reflexivity|]. split; [intros w i []|].
      apply nth_error_repeat. pose proof (slot_bound (reader_for m) 0 u). unfold lsize. rewrite <- Lu. lia.
    + intros u b _ _ Hin. apply (new_pass1_zero S m ds 0 0 [] _ _ E1) in Hin; [exact Hin|intros ? ? []].
    + intros u b _ H. discriminate H.
    + intros u1 u2 b1 b2 _ _ _ H. discriminate H.
  - cbn [length] in E2. change (N.of_nat 0) with 0%N in E2.
    pose proof (esc_cost _ _ _ He) as HC0. exists cc0, t, cc. split.
    { intros ord. unfold new_codebook. rewrite E1. cbn [obind]. cbn [Nat.max]. destruct (Nat.eqb_spec (maxl B) 0); [lia|].
      rewrite Hmb. rewrite shl32_one by (unfold lbits; lia). cbn [obind]. fold (lsize B). rewrite E2. reflexivity. }
    split; [exact He|]. split; [exact HI|]. split.
    { apply ccost_same; [apply HI|apply He|]. intros k b Hin. destruct (p2_back _ _ _ _ _ _ HI k b Hin) as [b0 [I0 [_ C0]]].
      exists b0. split; assumption. }
    split; [rewrite (p2_keys _ _ _ _ _ _ HI); apply He|]. split; [exact Hidx|]. split; [lia|]. lia.
Qed.

(** A built codebook serves the items of its description. *)
Lemma new_codebook_decides : forall (S : Type) ord m (ds : list (desc S)), permuting ord -> codes_fit m ds ->
  unblocked m ds -> small_enough m ds ->
  (exists d, In d ds /\ used d) ->
  exists cb lo hi, new_codebook ord ds m = Ret (Okay cb) /\ cb_syms cb = used_syms ds /\
    cb_lut_bits cb = lbits (items_of m (number 0 ds)) /\
    N.of_nat (length (cb_table cb)) = table_entries (words m ds) /\
    decides 27 true (reader_for m) (cb_table cb) lo hi 0 (items_of m (number 0 ds)).
Proof.
  intros S ord m ds Hord Hfit Hlv Hsm Hus.
  destruct (new_passes S m ds Hfit Hsm Hus) as [cc0 [t [cc [E [He [HI [Hcc [NDcc [Hidx [[Hmax1 Hmax32] HcB]]]]]]]]]].
  set (B := items_of m (number 0 ds)) in *. rewrite E. clear E. destruct Hsm as [_ Hcost].
  assert (Hub : unblk B) by (apply number_unblk; exact Hlv).
  assert (Hlen : N.of_nat (length t) = (pow2 (lbits B) + csize cc0)%N).
  { destruct (p2_done _ _ _ _ _ _ HI) as [A [NDA [HA [HAu ->]]]]. f_equal.
    rewrite <- key_sizes by apply He. apply nsum_perm. apply Permutation_map.
    apply NoDup_Permutation; [exact NDA|apply He|]. intros k. split; [apply HA|]. intros Hk.
    apply in_map_iff in Hk. destruct Hk as [[k0 b0] [Ek Hin]]. cbn [fst] in Ek. subst k0.
    destruct (eo_sound _ _ _ He k b0 Hin) as [u [Lu [<- [_ [Hs _]]]]]. apply HAu; [exact Lu|]. apply unblk_own; assumption. }
  assert (Hlow : (lsize B <= length t)%nat) by (unfold lsize; lia).
  assert (Hall : forall k b, In (k, b) cc -> exists u, length u = 10 /\ value (reader_for m) u = k /\ own u B = true /\
            lsize B <= b_offset b /\ b_offset b + bsize b <= length t /\ blank t b /\
            items_of m (b_codes b) = sub u B /\ b_maxlen b = maxl (sub u B)).
  { intros k b Hin. destruct (p2_back _ _ _ _ _ _ HI k b Hin) as [b0 [I0 [M0 C0]]].
    destruct (eo_sound _ _ _ He k b0 I0) as [u [Lu [Ek [Hi [Hs [Hm _]]]]]].
    pose proof (unblk_own B u Hub Lu Hs) as Ho.
    exists u. split; [exact Lu|]. split; [exact Ek|]. split; [exact Ho|].
    rewrite <- Ek in Hin. destruct (p2_alloc _ _ _ _ _ _ HI u b Lu Ho Hin) as [R2 [R3 R4]].
    split; [exact R2|]. split; [exact R3|]. split; [exact R4|]. rewrite C0, M0. split; assumption. }
  assert (HPl : placed t (lsize B) cc).
  { split; [exact NDcc|]. split.
    - intros k b Hin. destruct (Hall k b Hin) as [u [_ [_ [_ [R1 [R2 [R3 _]]]]]]]. split; [exact R1|]. split; assumption.
    - intros k1 b1 k2 b2 I1 I2 Hne. destruct (Hall k1 b1 I1) as [u1 [L1 [V1 [S1 _]]]]. destruct (Hall k2 b2 I2) as [u2 [L2 [V2 [S2 _]]]].
      apply (p2_disjoint _ _ _ _ _ _ HI u1 u2); try assumption; try congruence. }
  assert (Hblank : forall u, length u = lbits B ->
    nth_error (repeat TABLE_FILL_VALUE (lsize B)) (slot (reader_for m) 0 u) = Some TABLE_FILL_VALUE).
  { intros u Lu. apply nth_error_repeat. pose proof (slot_bound (reader_for m) 0 u). unfold lsize. rewrite <- Lu. lia. }
  assert (Hpre : prepared true m (repeat TABLE_FILL_VALUE (lsize B)) t 0 B cc).
  { intros u Lu. destruct (p2_entries _ _ _ _ _ _ HI u Lu) as [R|[[Hs [Hn [b [Hin En]]]]|[Hs [Hn En]]]].
    - left. split; [discriminate|exact R].
    - right. left. split; [exact Hs|]. split; [intros _; exact Hn|]. exists (value (reader_for m) u), b. split; [exact Hin|]. split; [exact En|].
      destruct (Hall _ b Hin) as [v [Lv [Ev [_ [_ [_ [_ [Hi Hm]]]]]]]].
      assert (v = u) by (apply (value_inj (reader_for m)); [apply in_sub_long in Hs; lia|exact Ev]). subst v.
      split; assumption.
    - right. right. split; [exact Hs|]. split; [exact Hn|]. rewrite En. symmetry. apply Hblank. exact Lu. }
  destruct (assemble true m 26 (fun t0 key b => build_esc_lut 26 ord [key] t0 m b)) with
    (t0 := repeat TABLE_FILL_VALUE (lsize B)) (t := t) (off := 0) (B := B) (cc := ord [] cc) (lo := lsize B) as [t3 [E3 [L3 [F3 S3]]]].
  + apply gen_build. apply (build_esc_ok m ord Hord 26 []).
  + apply (placed_perm t (lsize B) cc); [apply Hord|exact HPl].
  + apply (prepared_perm true m _ t 0 B cc); [apply Hord|exact Hpre].
  + lia.
  + lia.
  + intros k b Hin. apply (Permutation_in _ (Permutation_sym (Hord [] cc))) in Hin.
    destruct (p2_back _ _ _ _ _ _ HI k b Hin) as [b0 [I0 [M0 C0]]].
    apply (sub_bucket_ok m 26 B cc0 k b0 b He Hidx ltac:(lia) I0 M0 C0).
  + rewrite <- (ccost_perm m _ _ (Hord [] cc)), Hcc. lia.
  + rewrite E3. cbn [obind]. eexists. exists (lsize B), (length t3). split; [reflexivity|].
    split; [reflexivity|]. split; [reflexivity|]. split; [|apply (covers_decides _ _ _ _ _ _ _ _ _ S3 Hblank)]. cbn [cb_table]. rewrite L3.
    rewrite <- (ccost_perm m _ _ (Hord [] cc)), Hcc. lia.
Qed.

Lemma new_codebook_levels : forall (S : Type) ord m (ds : list (desc S)), permuting ord -> codes_fit m ds ->
  same_level m ds -> small_enough m ds ->
  (exists d, In d ds /\ used d) ->
  exists cb lo hi, new_codebook ord ds m = Ret (Okay cb) /\ cb_syms cb = used_syms ds /\
    cb_lut_bits cb = lbits (items_of m (number 0 ds)) /\
    N.of_nat (length (cb_table cb)) = table_entries (words m ds) /\
    serves 27 (reader_for m) (cb_table cb) lo hi 0 (items_of m (number 0 ds)).
Proof.
  intros S ord m ds Hord Hf Hl Hs Hu.
  destruct (new_codebook_decides S ord m ds Hord Hf (level_unblocked S m ds Hl) Hs Hu) as [cb [lo [hi [H1 [H2 [H3 [H4 H5]]]]]]].
  exists cb, lo, hi. split; [exact H1|]. split; [exact H2|]. split; [exact H3|]. split; [exact H4|].
  apply (decides_serves 27 true). exact H5.
Qed.

Lemma new_codebook_ok : forall (S : Type) ord m (ds : list (desc S)), permuting ord -> valid_description m ds ->
  (exists d, In d ds /\ used d) ->
  exists cb lo hi, new_codebook ord ds m = Ret (Okay cb) /\ cb_syms cb = used_syms ds /\
    cb_lut_bits cb = lbits (items_of m (number 0 ds)) /\
    N.of_nat (length (cb_table cb)) = table_entries (words m ds) /\
    serves 27 (reader_for m) (cb_table cb) lo hi 0 (items_of m (number 0 ds)).
Proof.
  intros S ord m ds Hord [Hfit [Hpfd Hsm]] Hu. apply new_codebook_levels; try assumption.
  apply prefix_free_level. exact Hpfd.
Qed.

Lemma new_codebook_empty : forall (S : Type) ord m (ds : list (desc S)), (forall d, In d ds -> ~ used d) ->
  new_codebook ord ds m = Ret (Error InvalidCodebook).
Proof.
  intros S ord m ds H. unfold new_codebook.
  destruct (new_pass1_spec S m ds 0 0 [] []) as [cc0 [E1 He]].
  - intros d Hin Hu. exfalso. exact (H d Hin Hu).
  - apply esc_ok_nil.
  - rewrite E1. rewrite (number_empty S ds 0 H). reflexivity.
Qed.
