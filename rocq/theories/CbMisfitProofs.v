(** Codebooks of any description at all: the lookup tables are a forest, so reads never
    panic and follow at most as many tables as there are. *)
From Coq Require Import List Arith NArith ZArith Bool Lia Permutation.
From Coq Require Import ZifyBool ZifyNat ZifyN.
From Verif Require Import Base ByteModel ByteSpec ByteProofs BitModel BitSpec BitProofs BitProofs2 CodebookModel
  CodebookSpec CodebookProofs CodebookProofs2 CodebookProofs3 CodebookProofs4 CodebookProofs5 CodebookProofs6
  CbMalformedSpec CbMalformedProofs CbMalformedProofs3 CbMisfitSpec.
Import ListNotations.
Local Open Scope nat_scope.

(** ** Tables *)

Definition sz (k : nat) : nat := N.to_nat (pow2 k).

Lemma sz_pos : forall k, 1 <= sz k.
Proof. intros k. unfold sz. pose proof (pow2_pos k). lia. Qed.

Record forest (n L : nat) (t : list N) (regs : list (nat * nat)) : Prop := {
  f_root : In (0, L) regs;
  f_in : forall o k, In (o, k) regs -> 1 <= k <= 10 /\ o + sz k <= length t;
  f_dis : forall o k o' k', In (o, k) regs -> In (o', k') regs -> (o = o' /\ k = k') \/ o + sz k <= o' \/ o' + sz k' <= o;
  f_ent : forall p x, nth_error t p = Some x -> x = TABLE_FILL_VALUE \/
    (exists j b, j < n /\ 1 <= b <= 10 /\ x = lut_entry (N.of_nat j) b) \/
    (exists o k, In (o, k) regs /\ 0 < o /\ x = esc_entry (N.of_nat o) k);
  f_one : forall p q o k, In (o, k) regs -> nth_error t p = Some (esc_entry (N.of_nat o) k) ->
    nth_error t q = Some (esc_entry (N.of_nat o) k) -> p = q
}.

(** What remains when symbols or offsets exceed 24 bits. *)
Definition sane (n : nat) (t : list N) : Prop := forall p x, nth_error t p = Some x -> x = TABLE_FILL_VALUE \/
  (exists j b, j < n /\ 1 <= b <= 10 /\ x = lut_entry (N.of_nat j mod W32) b) \/
  (exists o k, 1 <= k <= 10 /\ o + sz k <= length t /\ x = esc_entry (N.of_nat o mod W32) k).

Definition planted (n L : nat) (t : list N) : Prop :=
  sane n t /\ (small n -> small (length t) -> exists regs, forest n L t regs).

Lemma small_lt : forall o k len, o + sz k <= len -> small len -> (N.of_nat o < 2 ^ 24)%N.
Proof. intros o k len H Hs. pose proof (sz_pos k). unfold small in Hs. lia. Qed.

(** Entries of short codewords do not matter to the forest. *)
Lemma forest_lut : forall n L t t' regs v, forest n L t regs -> small n -> small (length t) -> length t' = length t ->
  (exists j b, j < n /\ 1 <= b <= 10 /\ v = lut_entry (N.of_nat j) b) ->
  (forall p x, nth_error t' p = Some x -> x = v \/ nth_error t p = Some x) -> forest n L t' regs.
Proof.
  intros n L t t' regs v F Hsn Hst Hl Hv He. destruct F as [F1 F2 F3 F4 F5]. constructor.
  - exact F1.
  - rewrite Hl. exact F2.
  - exact F3.
  - intros p x Hx. destruct (He p x Hx) as [->|Hx']; [right; left; exact Hv|apply (F4 p x Hx')].
  - intros p q o k Hr Hp Hq. destruct Hv as [j [b [Hj [Hb ->]]]].
    assert (Hne : esc_entry (N.of_nat o) k <> lut_entry (N.of_nat j) b).
    { intros Heq. destruct (F2 o k Hr) as [Hk Ho].
      destruct (esc_entry_fields (N.of_nat o) k (small_lt _ _ _ Ho Hst) ltac:(lia)) as [_ [_ [E3 _]]].
      destruct (lut_entry_fields (N.of_nat j) b) as [_ [_ [G3 _]]]; [unfold small in Hsn; lia|lia|].
      rewrite Heq in E3. congruence. }
    destruct (He p _ Hp) as [X|Hp']; [congruence|]. destruct (He q _ Hq) as [X|Hq']; [congruence|].
    apply (F5 p q o k Hr Hp' Hq').
Qed.

(** A new table with the escape that leads to it. *)
Lemma forest_new : forall n L t regs k i, forest n L t regs -> small n -> small (length t + sz k) -> 1 <= k <= 10 -> i < length t + sz k ->
  forest n L (update (t ++ repeat TABLE_FILL_VALUE (sz k)) i (esc_entry (N.of_nat (length t)) k)) ((length t, k) :: regs).
Proof.
  intros n L t regs k i F Hsn Hs Hk Hi. destruct F as [F1 F2 F3 F4 F5].
  set (t1 := t ++ repeat TABLE_FILL_VALUE (sz k)).
  assert (Hl1 : length t1 = length t + sz k) by (unfold t1; rewrite app_length, repeat_length; reflexivity).
  assert (Ht1 : forall p x, nth_error t1 p = Some x -> x = TABLE_FILL_VALUE \/ nth_error t p = Some x).
  { intros p x Hx. unfold t1 in Hx. destruct (Nat.lt_ge_cases p (length t)).
    - rewrite nth_error_app1 in Hx by assumption. right. exact Hx.
    - rewrite nth_error_app2 in Hx by assumption. left. apply repeat_nth in Hx. exact Hx. }
  pose proof (sz_pos L). destruct (F2 0 L F1) as [_ HL]. pose proof (sz_pos k).
  assert (Hlen : (N.of_nat (length t) < 2 ^ 24)%N) by (unfold small in Hs; lia).
  destruct (esc_entry_fields (N.of_nat (length t)) k Hlen ltac:(lia)) as [N1 [N2 [N3 N4]]].
  constructor.
  - right. exact F1.
  - rewrite update_length, Hl1. intros o k' [E|Hin]; [injection E as <- <-; lia|]. destruct (F2 o k' Hin). lia.
  - intros o k1 o' k2 [E|Hin] [E'|Hin'].
    + injection E as <- <-. injection E' as <- <-. left. split; reflexivity.
    + injection E as <- <-. destruct (F2 o' k2 Hin'). right. right. lia.
    + injection E' as <- <-. destruct (F2 o k1 Hin). right. left. lia.
    + apply F3; assumption.
  - intros p x Hx. rewrite update_nth in Hx by lia. destruct (p =? i).
    + injection Hx as <-. right. right. exists (length t), k. split; [left; reflexivity|]. split; [lia|reflexivity].
    + destruct (Ht1 p x Hx) as [->|Hx']; [left; reflexivity|].
      destruct (F4 p x Hx') as [->|[Hj|[o [k' [Hin [Ho ->]]]]]]; [left; reflexivity|right; left; exact Hj|].
      right. right. exists o, k'. split; [right; exact Hin|]. split; [exact Ho|reflexivity].
  - assert (Old : forall p o k', o < length t -> nth_error t1 p = Some (esc_entry (N.of_nat o) k') -> k' <= 10 ->
      nth_error t p = Some (esc_entry (N.of_nat o) k')).
    { intros p o k' Ho Hp Hk'. destruct (Ht1 p _ Hp) as [E|E]; [|exact E]. exfalso.
      destruct (esc_entry_fields (N.of_nat o) k' ltac:(lia) Hk') as [M1 _]. rewrite E, N.eqb_refl in M1. discriminate. }
    intros p q o k' [E|Hin] Hp Hq; rewrite update_nth in Hp, Hq by lia.
    + injection E as <- <-.
      assert (No : forall p, nth_error t1 p <> Some (esc_entry (N.of_nat (length t)) k)).
      { intros p0 Hp0. destruct (Ht1 _ _ Hp0) as [E|E]; [rewrite E, N.eqb_refl in N1; discriminate|].
        destruct (F4 _ _ E) as [X|[[j [b [Hj [Hb X]]]]|[o [k1 [Hin [_ X]]]]]].
        - rewrite X, N.eqb_refl in N1. discriminate.
        - destruct (lut_entry_fields (N.of_nat j) b) as [_ [_ [G3 _]]]; [unfold small in Hsn; lia|lia|].
          rewrite X in N3. congruence.
        - destruct (F2 o k1 Hin) as [Hk1 Ho]. pose proof (sz_pos k1).
          destruct (esc_entry_fields (N.of_nat o) k1 ltac:(lia) ltac:(lia)) as [_ [_ [_ M4]]].
          rewrite <- X, N4 in M4. lia. }
      destruct (Nat.eqb_spec p i); destruct (Nat.eqb_spec q i); try congruence; exfalso; eapply No; eassumption.
    + destruct (F2 o k' Hin) as [Hk' Ho]. pose proof (sz_pos k').
      assert (Hne : esc_entry (N.of_nat (length t)) k <> esc_entry (N.of_nat o) k').
      { intros X. destruct (esc_entry_fields (N.of_nat o) k' ltac:(lia) ltac:(lia)) as [_ [_ [_ M4]]]. rewrite <- X, N4 in M4. lia. }
      destruct (Nat.eqb_spec p i); [congruence|]. destruct (Nat.eqb_spec q i); [congruence|].
      apply (F5 p q o k' Hin); apply Old; try assumption; lia.
Qed.

(** ** Construction *)

Lemma store_inv : forall (A : Type) (l l' : list A) i v, store l i v = Ret l' -> i < length l /\ l' = update l i v.
Proof. intros A l l' i v H. unfold store in H. destruct (Nat.ltb_spec i (length l)); [|discriminate]. injection H as <-. split; [assumption|reflexivity]. Qed.

Lemma fill_loop_entries : forall k t off idx v j t', fill_loop t off idx v j k = Ret t' ->
  length t' = length t /\ forall p x, nth_error t' p = Some x -> x = v \/ nth_error t p = Some x.
Proof.
  induction k as [|k IH]; intros t off idx v j t' H; cbn [fill_loop] in H.
  - injection H as <-. split; [reflexivity|]. intros p x Hx. right. exact Hx.
  - destruct (idx j) as [i| |]; inv_ret H. destruct (store t (N.to_nat i + off) v) as [t1| |] eqn:Es; inv_ret H.
    apply store_inv in Es. destruct Es as [Hi ->]. destruct (IH _ _ _ _ _ _ H) as [Hl He]. rewrite update_length in Hl.
    split; [exact Hl|]. intros p x Hx. destruct (He p x Hx) as [->|Hx']; [left; reflexivity|].
    rewrite update_nth in Hx' by exact Hi. destruct (p =? _); [left; congruence|right; exact Hx'].
Qed.

Lemma fill_lut_entries : forall t m off c bits L s t', fill_lut t m off c bits L s false = Ret t' ->
  length t' = length t /\ forall p x, nth_error t' p = Some x -> x = lut_entry s bits \/ nth_error t p = Some x.
Proof.
  intros t m off c bits L s t' H. unfold fill_lut, fill_lut_msb, fill_lut_lsb in H. cbn [negb] in H. destruct m.
  - destruct (csub L bits) as [fl| |]; inv_ret H. destruct (shl32 1 fl) as [fs| |]; inv_ret H.
    destruct (shl32 c fl) as [fc| |]; inv_ret H. apply (fill_loop_entries _ _ _ _ _ _ _ H).
  - destruct (csub L bits) as [fl| |]; inv_ret H. destruct (shl32 1 fl) as [fs| |]; inv_ret H.
    destruct (csub L fl) as [st| |]; inv_ret H. apply (fill_loop_entries _ _ _ _ _ _ _ H).
Qed.

(** What a step of the construction does to the table. *)
Definition grows (n L : nat) (t t' : list N) : Prop := length t <= length t' /\ (planted n L t -> planted n L t').

Lemma grows_refl : forall n L t, grows n L t t.
Proof. intros n L t. split; [lia|]. intros H. exact H. Qed.

Lemma grows_trans : forall n L a b c, grows n L a b -> grows n L b c -> grows n L a c.
Proof. intros n L a b c [H1 H2] [H3 H4]. split; [lia|]. intros H. apply H4, H2, H. Qed.

Lemma grows_fill : forall n L t m off c bits lb j t', fill_lut t m off c bits lb (N.of_nat j mod W32) false = Ret t' ->
  1 <= bits <= 10 -> j < n -> grows n L t t'.
Proof.
  intros n L t m off c bits lb j t' H Hb Hj. destruct (fill_lut_entries _ _ _ _ _ _ _ _ H) as [Hl He].
  split; [lia|]. intros [Hsane Hp]. split.
  { intros p x Hx. destruct (He p x Hx) as [->|Hx'].
    - right. left. exists j, bits. split; [exact Hj|]. split; [exact Hb|reflexivity].
    - rewrite Hl. apply (Hsane p x Hx'). }
  intros Hsn Hst. rewrite Hl in Hst. destruct (Hp Hsn Hst) as [regs F]. exists regs.
  refine (forest_lut n L t t' regs (lut_entry (N.of_nat j mod W32) bits) F Hsn Hst Hl _ He). exists j, bits. split; [exact Hj|]. split; [exact Hb|].
  rewrite small_mod; [reflexivity|]. apply (small_le j n); [lia|exact Hsn].
Qed.

Lemma grows_alloc : forall n L t m cur key b t' b', alloc_bucket t m cur key b = Ret (t', b') -> 1 <= b_maxlen b ->
  grows n L t t' /\ b_maxlen b' = b_maxlen b /\ b_codes b' = b_codes b.
Proof.
  intros n L t m cur key b t' b' H Hb. unfold alloc_bucket in H. change MAX_LUT_BITS with 10 in H.
  set (k := Nat.min (b_maxlen b) 10) in *. assert (Hk : 1 <= k <= 10) by lia.
  unfold resize_table in H. rewrite shl32_one in H by lia. cbn [obind] in H. fold (sz k) in H.
  destruct (fill_lut _ m cur key k 10 _ true) as [t2| |] eqn:Ef; inv_ret H. injection H as <- <-. cbn [b_maxlen b_codes].
  split; [|split; reflexivity].
  assert (Es : store (t ++ repeat TABLE_FILL_VALUE (sz k)) (N.to_nat key + cur) (esc_entry (N.of_nat (length t) mod W32) k) = Ret t2)
    by (destruct m; exact Ef).
  apply store_inv in Es. destruct Es as [Hi ->]. rewrite app_length, repeat_length in Hi.
  split; [rewrite update_length, app_length; lia|].
  intros [Hsane Hp]. split.
  { intros p x Hx. rewrite update_nth in Hx by (rewrite app_length, repeat_length; exact Hi).
    rewrite update_length, app_length, repeat_length. destruct (p =? _).
    - injection Hx as <-. right. right. exists (length t), k. split; [exact Hk|]. split; [lia|reflexivity].
    - destruct (Nat.lt_ge_cases p (length t)) as [Hlt|Hge].
      + rewrite nth_error_app1 in Hx by exact Hlt.
        destruct (Hsane p x Hx) as [->|[Hj|[o [k' [Hk' [Ho ->]]]]]]; [left; reflexivity|right; left; exact Hj|].
        right. right. exists o, k'. split; [exact Hk'|]. split; [lia|reflexivity].
      + rewrite nth_error_app2 in Hx by exact Hge. left. apply repeat_nth in Hx. exact Hx. }
  intros Hsn Hst. rewrite update_length, app_length, repeat_length in Hst.
  destruct (Hp Hsn ltac:(apply (small_le _ (length t + sz k)); [lia|exact Hst])) as [regs F].
  exists ((length t, k) :: regs). rewrite small_mod by (apply (small_le _ (length t + sz k)); [lia|exact Hst]).
  apply forest_new; assumption.
Qed.

(** Buckets hold codes of at least one bit with indices below [n]. *)
Definition bok (n : nat) (b : bucket) : Prop :=
  1 <= b_maxlen b /\ forall c, In c (b_codes b) -> 1 <= c_bits c /\ c_idx c < n.
Definition ccok (n : nat) (cc : escape_codes) : Prop := forall x, In x cc -> bok n (snd x).

Lemma ccok_add : forall n cc key c, ccok n cc -> 1 <= c_bits c -> c_idx c < n -> ccok n (add_esc_code cc key c).
Proof.
  intros n cc key c. induction cc as [|[k b] cc IH]; intros H Hb Hi x Hx; cbn [add_esc_code] in Hx.
  - destruct Hx as [<-|[]]. cbn [snd]. unfold add_code, new_bucket. split; cbn [b_maxlen b_codes app]; [destruct (Nat.ltb_spec 0 (c_bits c)); lia|].
    intros c' [<-|[]]. split; assumption.
  - destruct (k =? key)%N.
    + destruct Hx as [<-|Hx]; [|apply H; right; exact Hx]. cbn [snd].
      destruct (H (k, b) (or_introl eq_refl)) as [H1 H2]. cbn [snd] in *. unfold add_code. split; cbn [b_maxlen b_codes].
      * destruct (Nat.ltb_spec (b_maxlen b) (c_bits c)); lia.
      * intros c' Hc. apply in_app_iff in Hc. destruct Hc as [Hc|[<-|[]]]; [apply H2; exact Hc|split; assumption].
    + destruct Hx as [<-|Hx]; [apply (H (k, b)); left; reflexivity|].
      apply IH; try assumption. intros y Hy. apply H. right. exact Hy.
Qed.

Lemma ccok_long : forall n cc m c cc', ccok n cc -> 10 < c_bits c -> c_idx c < n -> add_long_code cc m c = Ret cc' -> ccok n cc'.
Proof.
  intros n cc m c cc' H Hb Hi E. unfold add_long_code in E. change MAX_LUT_BITS with 10 in E.
  destruct (extract_lut_part _ _ _ _) as [key| |]; inv_ret E. destruct (extract_esc_part _ _ _ _) as [v| |]; inv_ret E.
  unfold csub in E. destruct (Nat.leb_spec 10 (c_bits c)); [|lia]. cbn [obind] in E. injection E as <-.
  apply ccok_add; cbn [c_bits c_idx]; [exact H|lia|exact Hi].
Qed.

Lemma ccok_perm : forall n cc cc', Permutation cc cc' -> ccok n cc -> ccok n cc'.
Proof. intros n cc cc' P H x Hx. apply H. apply (Permutation_in x (Permutation_sym P) Hx). Qed.

Lemma grows_esc1 : forall n L m off maxlen codes t cc t' cc', (forall c, In c codes -> 1 <= c_bits c /\ c_idx c < n) -> ccok n cc ->
  esc_pass1 t m off maxlen codes cc = Ret (t', cc') -> grows n L t t' /\ ccok n cc'.
Proof.
  intros n L m off maxlen. induction codes as [|c codes IH]; intros t cc t' cc' Hc Hcc H; cbn [esc_pass1] in H.
  - injection H as <- <-. split; [apply grows_refl|exact Hcc].
  - destruct (Hc c (or_introl eq_refl)) as [Hb Hi].
    assert (Hc' : forall c, In c codes -> 1 <= c_bits c /\ c_idx c < n) by (intros c' Hin; apply Hc; right; exact Hin).
    change MAX_LUT_BITS with 10 in H. destruct (Nat.leb_spec (c_bits c) 10).
    + destruct (fill_lut _ _ _ _ _ _ _ _) as [t1| |] eqn:Ef; inv_ret H.
      destruct (IH _ _ _ _ Hc' Hcc H) as [G C]. split; [|exact C].
      apply (grows_trans n L t t1 t'); [|exact G]. apply (grows_fill n L _ _ _ _ _ _ _ _ Ef); [lia|exact Hi].
    + destruct (add_long_code cc m c) as [cc1| |] eqn:Ea; inv_ret H.
      apply (IH _ _ _ _ Hc' (ccok_long n cc m c cc1 Hcc ltac:(lia) Hi Ea) H).
Qed.

Lemma grows_esc2 : forall n L m cur cc t t' cc', ccok n cc -> esc_pass2 t m cur cc = Ret (t', cc') -> grows n L t t' /\ ccok n cc'.
Proof.
  intros n L m cur. induction cc as [|[key b] cc IH]; intros t t' cc' H E; cbn [esc_pass2] in E.
  - injection E as <- <-. split; [apply grows_refl|exact H].
  - destruct (H (key, b) (or_introl eq_refl)) as [H1 H2]. cbn [snd] in *.
    assert (H' : ccok n cc) by (intros x Hx; apply H; right; exact Hx).
    destruct (alloc_bucket t m cur key b) as [[t1 b1]| |] eqn:Ea; inv_ret E.
    destruct (esc_pass2 t1 m cur cc) as [[t2 cc2]| |] eqn:Ee; inv_ret E. injection E as <- <-.
    destruct (grows_alloc n L t m cur key b t1 b1 Ea H1) as [G [M1 M2]].
    destruct (IH _ _ _ H' Ee) as [G' C]. split; [apply (grows_trans n L t t1 t2); assumption|].
    intros x [<-|Hx]; [|apply C; exact Hx]. cbn [snd]. unfold bok. rewrite M1, M2. split; assumption.
Qed.

Lemma grows_build_all : forall n L (build : list N -> N -> bucket -> outcome (list N)),
  (forall t key b t', bok n b -> build t key b = Ret t' -> grows n L t t') ->
  forall cc t t', ccok n cc -> build_all build t cc = Ret t' -> grows n L t t'.
Proof.
  intros n L build Hb. induction cc as [|[key b] cc IH]; intros t t' H E; cbn [build_all] in E.
  - injection E as <-. apply grows_refl.
  - destruct (build t key b) as [t1| |] eqn:E1; inv_ret E.
    apply (grows_trans n L t t1 t'); [apply (Hb _ _ _ _ (H (key, b) (or_introl eq_refl)) E1)|].
    apply IH; [intros x Hx; apply H; right; exact Hx|exact E].
Qed.

Lemma grows_build_esc : forall n L m ord, permuting ord -> forall fuel path t b t', bok n b ->
  build_esc_lut fuel ord path t m b = Ret t' -> grows n L t t'.
Proof.
  intros n L m ord Hord. induction fuel as [|fuel IH]; intros path t b t' Hb H; [discriminate H|]. cbn [build_esc_lut] in H.
  destruct Hb as [Hb1 Hb2].
  destruct (esc_pass1 _ _ _ _ _ _) as [[t1 cc]| |] eqn:E1; inv_ret H.
  destruct (esc_pass2 _ _ _ _) as [[t2 cc2]| |] eqn:E2; inv_ret H.
  destruct (grows_esc1 n L m _ _ _ t [] t1 cc Hb2 ltac:(intros x []) E1) as [G1 C1].
  destruct (grows_esc2 n L m _ _ t1 t2 cc2 (ccok_perm n _ _ (Hord path cc) C1) E2) as [G2 C2].
  pose proof (grows_build_all n L _ (fun t key b t' Hk Hx => IH (key :: path) t b t' Hk Hx) cc2 t2 t' C2 H) as G3.
  apply (grows_trans n L t t1 t' G1). apply (grows_trans n L t1 t2 t' G2 G3).
Qed.

Lemma pass1_ok : forall (S : Type) n m (ds : list (desc S)) mb k cc mb' cc', k + nused ds <= n -> ccok n cc ->
  new_pass1 m ds mb k cc = Ret (mb', cc') -> ccok n cc' /\ mb' = Nat.max mb (list_max (map d_bits ds)).
Proof.
  intros S n m. unfold nused. induction ds as [|d ds IH]; intros mb k cc mb' cc' Hk H E; cbn [new_pass1] in E.
  - injection E as <- <-. cbn [map list_max fold_right]. split; [exact H|lia].
  - change MAX_LUT_BITS with 10 in E. cbn [filter] in Hk.
    destruct (if 10 <? d_bits d then _ else _) as [cc1| |] eqn:E1; inv_ret E.
    assert (C1 : ccok n cc1).
    { destruct (Nat.ltb_spec 10 (d_bits d)); [|injection E1 as <-; exact H].
      destruct (Nat.ltb_spec 0 (d_bits d)); [|lia]. cbn [length] in Hk.
      refine (ccok_long n cc m _ cc1 H _ _ E1); cbn [c_bits c_idx]; lia. }
    assert (Hk' : (if 0 <? d_bits d then k + 1 else k) + length (filter (fun d => 0 <? d_bits d) ds) <= n)
      by (destruct (0 <? d_bits d); cbn [length] in Hk; lia).
    destruct (IH _ _ _ _ _ Hk' C1 E) as [C M].
    split; [exact C|]. rewrite M. cbn [map list_max fold_right]. fold (list_max (map d_bits ds)). lia.
Qed.

Lemma find_in : forall cc key b, find_bucket cc key = Some b -> exists k, In (k, b) cc.
Proof.
  induction cc as [|[k b0] cc IH]; intros key b H; cbn [find_bucket] in H; [discriminate|].
  destruct (k =? key)%N; [injection H as <-; exists k; left; reflexivity|]. destruct (IH key b H) as [k' Hk]. exists k'. right. exact Hk.
Qed.

Lemma set_ok : forall n cc key b, ccok n cc -> bok n b -> ccok n (set_bucket cc key b).
Proof.
  intros n. induction cc as [|[k b0] cc IH]; intros key b H Hb x Hx; cbn [set_bucket] in Hx; [destruct Hx|].
  destruct (k =? key)%N; destruct Hx as [<-|Hx].
  - exact Hb.
  - apply H. right. exact Hx.
  - apply (H (k, b0)). left. reflexivity.
  - apply (IH key b); [intros y Hy; apply H; right; exact Hy|exact Hb|exact Hx].
Qed.

Lemma add32_inv : forall a b c, add32 a b = Ret c -> c = (a + b)%N /\ (a + b < W32)%N.
Proof. intros a b c H. unfold add32 in H. destruct (N.ltb_spec (a + b) W32); [|discriminate]. injection H as <-. split; [reflexivity|assumption]. Qed.

Lemma grows_pass2 : forall (S : Type) n L m mb (ds : list (desc S)) t k cc t' cc', k + nused ds <= n -> ccok n cc ->
  new_pass2 t m mb ds (N.of_nat k) cc = Ret (t', cc') -> grows n L t t' /\ ccok n cc'.
Proof.
  intros S n L m mb. unfold nused. induction ds as [|d ds IH]; intros t k cc t' cc' Hk H E; cbn [new_pass2] in E.
  - injection E as <- <-. split; [apply grows_refl|exact H].
  - cbn [filter] in Hk. change MAX_LUT_BITS with 10 in E. destruct (Nat.eqb_spec (d_bits d) 0) as [E0|E0].
    { apply (IH t k cc t' cc'); [destruct (0 <? d_bits d); cbn [length] in Hk; lia|exact H|exact E]. }
    destruct (Nat.ltb_spec 0 (d_bits d)); [|lia]. cbn [length] in Hk.
    destruct (if d_bits d <=? 10 then _ else _) as [[t1 cc1]| |] eqn:E1; inv_ret E.
    destruct (add32 (N.of_nat k) 1) as [k1| |] eqn:Ek; inv_ret E.
    apply add32_inv in Ek. destruct Ek as [-> HW]. replace (N.of_nat k + 1)%N with (N.of_nat (k + 1)) in E by lia.
    assert (X : grows n L t t1 /\ ccok n cc1).
    { destruct (Nat.leb_spec (d_bits d) 10).
      - destruct (fill_lut _ _ _ _ _ _ _ _) as [t2| |] eqn:Ef; inv_ret E1. injection E1 as <- <-. split; [|exact H].
        apply (grows_fill n L t m 0 (d_code d) (d_bits d) mb k t2); [|lia|lia].
        rewrite N.mod_small by (unfold W32 in *; lia). exact Ef.
      - destruct (extract_lut_part _ _ _ _) as [key| |]; inv_ret E1. destruct (index_at t _) as [x| |]; inv_ret E1.
        destruct (x =? TABLE_FILL_VALUE)%N; [|injection E1 as <- <-; split; [apply grows_refl|exact H]].
        destruct (find_bucket cc key) as [b|] eqn:Eb; [|injection E1 as <- <-; split; [apply grows_refl|exact H]].
        destruct (alloc_bucket t m 0 key b) as [[t2 b2]| |] eqn:Ea; inv_ret E1. injection E1 as <- <-.
        destruct (find_in cc key b Eb) as [k0 Hin]. destruct (H (k0, b) Hin) as [B1 B2]. cbn [snd] in *.
        destruct (grows_alloc n L t m 0 key b t2 b2 Ea B1) as [G [M1 M2]]. split; [exact G|].
        apply set_ok; [exact H|]. unfold bok. rewrite M1, M2. split; assumption. }
    destruct X as [G1 C1]. destruct (IH t1 (k + 1) cc1 t' cc' ltac:(lia) C1 E) as [G2 C2].
    split; [apply (grows_trans n L t t1 t'); assumption|exact C2].
Qed.

Lemma planted_codebook : forall (S : Type) ord m (ds : list (desc S)) cb, permuting ord -> new_codebook ord ds m = Ret (Okay cb) ->
  cb_syms cb = used_syms ds /\ 1 <= cb_lut_bits cb <= 10 /\ sz (cb_lut_bits cb) <= length (cb_table cb) /\
  planted (nused ds) (cb_lut_bits cb) (cb_table cb).
Proof.
  intros S ord m ds cb Hord H. unfold new_codebook in H.
  destruct (new_pass1 m ds 0 0 []) as [[mb cc]| |] eqn:E1; inv_ret H.
  destruct (pass1_ok S (nused ds) m ds 0 0 [] mb cc ltac:(lia) ltac:(intros x []) E1) as [C1 _].
  destruct (Nat.eqb_spec mb 0); [discriminate|]. change MAX_LUT_BITS with 10 in H.
  set (L := if 10 <? mb then 10 else mb) in *. assert (HL : 1 <= L <= 10) by (unfold L; destruct (Nat.ltb_spec 10 mb); lia).
  rewrite shl32_one in H by lia. cbn [obind] in H. fold (sz L) in H.
  destruct (new_pass2 _ _ _ _ _ _) as [[t1 cc1]| |] eqn:E2; inv_ret H.
  destruct (build_all _ _ _) as [t2| |] eqn:E3; inv_ret H. injection H as <-. cbn [cb_syms cb_lut_bits cb_table].
  split; [reflexivity|]. split; [exact HL|].
  destruct (grows_pass2 S (nused ds) L m L ds (repeat TABLE_FILL_VALUE (sz L)) 0 cc t1 cc1 ltac:(lia) C1 E2) as [G1 C2].
  pose proof (grows_build_all (nused ds) L _ (fun t key b t' Hk Hx => grows_build_esc (nused ds) L m ord Hord 26 [key] t b t' Hk Hx)
    (ord [] cc1) t1 t2 (ccok_perm _ _ _ (Hord [] cc1) C2) E3) as G2.
  destruct (grows_trans _ _ _ _ _ G1 G2) as [Hlen K]. rewrite repeat_length in Hlen. split; [exact Hlen|].
  apply K. split; [intros p x Hx; left; apply repeat_nth in Hx; exact Hx|]. intros _ _. exists [(0, L)]. constructor.
  - left. reflexivity.
  - intros o k [E|[]]. injection E as <- <-. rewrite repeat_length. lia.
  - intros o k o' k' [E|[]] [E'|[]]. left. split; congruence.
  - intros p x Hx. left. apply repeat_nth in Hx. exact Hx.
  - intros p q o k [E|[]] Hp _. injection E as <- <-. apply repeat_nth in Hp. exfalso.
    destruct (esc_entry_fields (N.of_nat 0) L ltac:(reflexivity) ltac:(lia)) as [M1 _]. rewrite Hp, N.eqb_refl in M1. discriminate.
Qed.

(** ** Reading *)

Lemma read_loop_more : forall (S : Type) e (cb : codebook S) f f' r idx L x, read_loop f e cb r idx L = Ret x -> f <= f' ->
  read_loop f' e cb r idx L = Ret x.
Proof.
  intros S e cb. induction f as [|f IH]; intros f' r idx L x H Hf; [discriminate H|]. destruct f' as [|f']; [lia|].
  cbn [read_loop] in *. destruct (peek_bits_32 e r L) as [[r0 v]| |]; cbn [obind] in *; [|discriminate|discriminate].
  destruct (index_at _ _) as [y| |]; cbn [obind] in *; [|discriminate|discriminate]. destruct (y =? TABLE_FILL_VALUE)%N; [exact H|].
  destruct (available r) as [a| |]; cbn [obind] in *; [|discriminate|discriminate]. destruct (_ <? _)%N; [exact H|].
  destruct (skip_bits _ _ _) as [r1| |]; cbn [obind] in *; [|discriminate|discriminate]. destruct (negb _); [|exact H]. apply (IH f'); [exact H|lia].
Qed.

Lemma distinct_below : forall l n, NoDup l -> (forall x, In x l -> x < n) -> length l <= n.
Proof.
  intros l n Hn Hl. rewrite <- (seq_length n 0). apply NoDup_incl_length; [exact Hn|].
  intros x Hx. apply in_seq. specialize (Hl x Hx). lia.
Qed.

Definition reached (t : list N) (regs : list (nat * nat)) (V : list nat) (v : nat) : Prop :=
  v = 0 \/ exists p k w kw, In (v, k) regs /\ nth_error t p = Some (esc_entry (N.of_nat v) k) /\ In w V /\ In (w, kw) regs /\ w <= p < w + sz kw.

Lemma read_forest : forall (S : Type) (cb : codebook S) e n L0 regs, forest n L0 (cb_table cb) regs -> small n ->
  small (length (cb_table cb)) -> n <= length (cb_syms cb) ->
  forall fuel cur L V r, In (cur, L) regs -> NoDup (cur :: V) -> (forall v, In v (cur :: V) -> reached (cb_table cb) regs V v) ->
  (forall v, In v V -> v < length (cb_table cb)) ->
  length (cb_table cb) < fuel + length V -> winv r ->
  exists r' s, read_loop fuel e cb r (N.of_nat cur) L = Ret (r', s) /\ wstep r r' /\
    (forall x, s = Okay x -> In x (cb_syms cb)) /\ (forall x, s = Error x -> x = InvalidCode).
Proof.
  intros S cb e n L0 regs F Hn Ht Hs. destruct F as [F1 F2 F3 F4 F5].
  induction fuel as [|fuel IH]; intros cur L V r Hin Hnd HV Hlt Hfuel Hr.
  - inversion Hnd as [|? ? _ Hnd']. pose proof (distinct_below V _ Hnd' Hlt). lia.
  - destruct (F2 cur L Hin) as [HL Hoff]. unfold sz in Hoff. cbn [read_loop].
    destruct (w_get_bits_32 e r L Hr ltac:(lia)) as [r0 [v [Eg _]]].
    assert (Ep : peek_bits_32 e r L = Ret (r, v)) by (unfold peek_bits_32; rewrite Eg; reflexivity).
    rewrite Ep. cbn [obind].
    pose proof (peek_bound e r L r v (winv_cbound r Hr) ltac:(lia) Ep) as Hv.
    set (p := N.to_nat (v + N.of_nat cur)). assert (Hp : cur <= p < cur + sz L) by (unfold p, sz; lia).
    destruct (nth_error (cb_table cb) p) as [x|] eqn:Ex; [|apply nth_error_None in Ex; unfold sz in Hp; lia].
    rewrite (index_nth _ _ _ _ Ex). cbn [obind].
    assert (Fail : exists r' s, @Ret (reader * result S codebook_error) (r, Error InvalidCode) = Ret (r', s) /\ wstep r r' /\
      (forall x, s = Okay x -> In x (cb_syms cb)) /\ (forall x, s = Error x -> x = InvalidCode)).
    { exists r, (Error InvalidCode). split; [reflexivity|]. split; [apply wstep_refl; exact Hr|].
      split; [discriminate|]. intros y Hy. injection Hy as <-. reflexivity. }
    destruct (F4 p x Ex) as [->|[[j [b [Hj [Hb ->]]]]|[o [k [Ho [Hpos ->]]]]]].
    + rewrite N.eqb_refl. exact Fail.
    + destruct (lut_entry_fields (N.of_nat j) b) as [G1 [G2 [G3 G4]]]; [unfold small in Hn; lia|lia|].
      rewrite G1, G2, G3, G4. cbn [negb]. rewrite (w_available r Hr). cbn [obind].
      destruct (_ <? _)%N; [exact Fail|]. rewrite !Nnat.Nat2N.id.
      destruct (w_skip_small e r b Hr ltac:(lia)) as [r1 [E1 S1]]. rewrite E1. cbn [obind].
      destruct (nth_error (cb_syms cb) j) as [s|] eqn:Es; [|apply nth_error_None in Es; lia].
      rewrite (index_nth _ _ _ _ Es). cbn [obind]. exists r1, (Okay s). split; [reflexivity|]. split; [exact S1|].
      split; [|discriminate]. intros y Hy. injection Hy as <-. apply nth_error_In in Es. exact Es.
    + destruct (F2 o k Ho) as [Hk Hok].
      destruct (esc_entry_fields (N.of_nat o) k (small_lt _ _ _ Hok Ht) ltac:(lia)) as [G1 [G2 [G3 G4]]].
      rewrite G1, G2, G3, G4. cbn [negb]. rewrite (w_available r Hr). cbn [obind].
      destruct (_ <? _)%N; [exact Fail|].
      destruct (w_skip_small e r L Hr ltac:(lia)) as [r1 [E1 S1]]. rewrite E1. cbn [obind]. rewrite Nnat.Nat2N.id.
      assert (New : ~ In o (cur :: V)).
      { intros X. destruct (HV o X) as [->|[p' [k' [w [kw [R1 [R2 [R3 [R4 R5]]]]]]]]]; [lia|].
        pose proof (sz_pos k). pose proof (sz_pos k').
        destruct (F3 o k o k' Ho R1) as [[_ <-]|[Y|Y]]; [|lia|lia].
        pose proof (F5 p p' o k Ho Ex R2) as <-.
        destruct (F3 cur L w kw Hin R4) as [[<- _]|[Y|Y]]; [|lia|lia].
        inversion Hnd as [|? ? Hno _]. contradiction. }
      destruct (IH o k (cur :: V) r1 Ho) as [r2 [s [E2 [S2 Hy]]]].
      * constructor; [exact New|exact Hnd].
      * intros y [<-|Hy].
        -- right. exists p, k, cur, L. split; [exact Ho|]. split; [exact Ex|]. split; [left; reflexivity|]. split; [exact Hin|exact Hp].
        -- destruct (HV y Hy) as [->|[p' [k' [w [kw [R1 [R2 [R3 R4]]]]]]]]; [left; reflexivity|].
           right. exists p', k', w, kw. split; [exact R1|]. split; [exact R2|]. split; [right; exact R3|exact R4].
      * intros y [<-|Hy]; [pose proof (pow2_pos L); lia|apply Hlt; exact Hy].
      * cbn [length]. lia.
      * apply S1.
      * exists r2, s. split; [exact E2|]. split; [eapply wstep_trans; eassumption|exact Hy].
Qed.

Lemma any_read : forall (S : Type) ord m (ds : list (desc S)) cb e r, permuting ord ->
  new_codebook ord ds m = Ret (Okay cb) -> (N.of_nat (length (words m ds)) <= 2 ^ 24)%N ->
  (N.of_nat (length (cb_table cb)) <= 2 ^ 24)%N -> winv r ->
  exists r' s, (forall rounds, length (cb_table cb) < rounds -> read_in rounds e cb r = Ret (r', s)) /\ wstep r r' /\
    (forall x, s = Okay x -> exists d, In d ds /\ used d /\ d_sym d = x) /\ (forall x, s = Error x -> x = InvalidCode).
Proof.
  intros S ord m ds cb e r Hord Hcb Hn Ht Hr. rewrite <- (nused_words S m) in Hn.
  destruct (planted_codebook S ord m ds cb Hord Hcb) as [Hs [HL [_ [_ P]]]]. destruct (P Hn Ht) as [regs F].
  assert (Hsl : nused ds <= length (cb_syms cb)) by (rewrite Hs; unfold used_syms, nused; rewrite map_length; lia).
  destruct (read_forest S cb e (nused ds) (cb_lut_bits cb) regs F Hn Ht Hsl (Datatypes.S (length (cb_table cb))) 0 (cb_lut_bits cb) [] r)
    as [r' [s [E' [St [H1 H2]]]]].
  - apply F.
  - constructor; [intros []|constructor].
  - intros v [<-|[]]. left. reflexivity.
  - intros v [].
  - cbn [length]. lia.
  - exact Hr.
  - exists r', s. split; [|split; [exact St|split; [|exact H2]]].
    + intros rounds Hro. unfold read_in. apply (read_loop_more S e cb _ _ _ _ _ _ E'). lia.
    + intros x Hx. specialize (H1 x Hx). rewrite Hs in H1. unfold used_syms in H1. apply in_map_iff in H1.
      destruct H1 as [d [Ed Hd]]. apply filter_In in Hd. destruct Hd as [Hd Hb]. exists d. split; [exact Hd|].
      split; [|exact Ed]. unfold used. apply Nat.ltb_lt. exact Hb.
Qed.

Lemma any_steps : forall (S : Type) ord m (ds : list (desc S)) cb e, permuting ord ->
  new_codebook ord ds m = Ret (Okay cb) -> (N.of_nat (length (words m ds)) <= 2 ^ 24)%N ->
  (N.of_nat (length (cb_table cb)) <= 2 ^ 24)%N -> forall rounds, length (cb_table cb) < rounds ->
  forall steps r, winv r -> ok_in rounds e cb r steps -> exists r' outs, run_in rounds e cb r steps = Ret (r', outs) /\ wstep r r'.
Proof.
  intros S ord m ds cb e Hord Hcb Hn Ht rounds Hro. induction steps as [|[op|d] steps IH]; intros r Hw Hok; cbn [run_in].
  - exists r, []. split; [reflexivity|]. apply wstep_refl. exact Hw.
  - cbn [ok_in] in Hok. destruct Hok as [H1 [H2 H3]].
    destruct (w_run_op e r op Hw H1 H2) as [r1 [o [E1 S1]]]. rewrite E1. cbn [obind].
    destruct (IH r1 (ws_inv _ _ S1) (H3 r1 o E1)) as [r2 [outs [E2 S2]]]. rewrite E2. cbn [obind].
    eexists _, _. split; [reflexivity|]. eapply wstep_trans; eassumption.
  - cbn [ok_in] in Hok.
    destruct (any_read S ord m ds cb e r Hord Hcb Hn Ht Hw) as [r1 [s [E1 [S1 _]]]]. specialize (E1 rounds Hro). rewrite E1. cbn [obind].
    destruct (IH r1 (ws_inv _ _ S1) (Hok r1 s E1)) as [r2 [outs [E2 S2]]]. rewrite E2. cbn [obind].
    eexists _, _. split; [reflexivity|]. eapply wstep_trans; eassumption.
Qed.

Lemma any_reads : forall (S : Type) ord m (ds : list (desc S)) cb e buf r0 steps rounds,
  permuting ord -> new_codebook ord ds m = Ret (Okay cb) ->
  (N.of_nat (length (words m ds)) <= 2 ^ 24)%N -> (N.of_nat (length (cb_table cb)) <= 2 ^ 24)%N ->
  bytes buf -> new e buf = Ret r0 -> length (cb_table cb) < rounds -> ok_in rounds e cb r0 steps ->
  exists r outs r' s c c' a', run_in rounds e cb r0 steps = Ret (r, outs) /\
    (forall k, length (cb_table cb) < k -> read_in k e cb r = Ret (r', s)) /\
    (forall x, s = Okay x -> exists d, In d ds /\ used d /\ d_sym d = x) /\ (forall x, s = Error x -> x = InvalidCode) /\
    consumed r = Ret c /\ consumed r' = Ret c' /\ available r' = Ret a' /\ c <= c' /\ c' + a' = 8 * length buf.
Proof.
  intros S ord m ds cb e buf r0 steps rounds Hord Hcb Hn Ht Hb Hr Hro Hok.
  destruct (new_inv e buf Hb) as [r0' [E0 [I0 B0]]]. rewrite Hr in E0. injection E0 as <-.
  pose proof (inv_winv _ _ _ I0) as Hw0.
  destruct (any_steps S ord m ds cb e Hord Hcb Hn Ht rounds Hro steps r0 Hw0 Hok) as [r [outs [E S1]]].
  destruct (any_read S ord m ds cb e r Hord Hcb Hn Ht (ws_inv _ _ S1)) as [r' [s [E' [S2 [Hx Hy]]]]].
  exists r, outs, r', s, (wpos r), (wpos r'), (8 * length buf - wpos r').
  split; [exact E|]. split; [exact E'|]. split; [exact Hx|]. split; [exact Hy|].
  split; [apply w_consumed; apply S1|]. split; [apply w_consumed; apply S2|].
  assert (Hbuf : buffer r' = buf) by (rewrite (ws_buffer _ _ S2), (ws_buffer _ _ S1); exact B0).
  split; [rewrite <- Hbuf; apply w_available; apply S2|]. split; [apply S2|].
  pose proof (w_index _ (ws_inv _ _ S2)). rewrite Hbuf in *. unfold wpos. lia.
Qed.

(** ** The depth of the recursion *)

Definition capped (B : nat) (cc : escape_codes) : Prop :=
  forall x, In x cc -> 1 <= b_maxlen (snd x) <= B /\ forall c, In c (b_codes (snd x)) -> c_bits c <= B.

Lemma capped_add : forall B cc key c, capped B cc -> 1 <= c_bits c <= B -> capped B (add_esc_code cc key c).
Proof.
  intros B cc key c. induction cc as [|[k b] cc IH]; intros H Hb x Hx; cbn [add_esc_code] in Hx.
  - destruct Hx as [<-|[]]. cbn [snd]. unfold add_code, new_bucket. split; cbn [b_maxlen b_codes app]; [destruct (Nat.ltb_spec 0 (c_bits c)); lia|].
    intros c' [<-|[]]. lia.
  - destruct (k =? key)%N.
    + destruct Hx as [<-|Hx]; [|apply H; right; exact Hx]. cbn [snd].
      destruct (H (k, b) (or_introl eq_refl)) as [H1 H2]. cbn [snd] in *. unfold add_code. split; cbn [b_maxlen b_codes].
      * destruct (Nat.ltb_spec (b_maxlen b) (c_bits c)); lia.
      * intros c' Hc. apply in_app_iff in Hc. destruct Hc as [Hc|[<-|[]]]; [apply H2; exact Hc|lia].
    + destruct Hx as [<-|Hx]; [apply (H (k, b)); left; reflexivity|].
      apply IH; try assumption. intros y Hy. apply H. right. exact Hy.
Qed.

Lemma capped_long : forall B cc m c cc', capped B cc -> 10 < c_bits c <= B + 10 -> add_long_code cc m c = Ret cc' -> capped B cc'.
Proof.
  intros B cc m c cc' H Hb E. unfold add_long_code in E. change MAX_LUT_BITS with 10 in E.
  destruct (extract_lut_part _ _ _ _) as [key| |]; inv_ret E. destruct (extract_esc_part _ _ _ _) as [v| |]; inv_ret E.
  unfold csub in E. destruct (Nat.leb_spec 10 (c_bits c)); [|lia]. cbn [obind] in E. injection E as <-.
  apply capped_add; cbn [c_bits]; [exact H|lia].
Qed.

Lemma capped_esc1 : forall B m off maxlen codes t cc t' cc', (forall c, In c codes -> c_bits c <= B + 10) -> capped B cc ->
  esc_pass1 t m off maxlen codes cc = Ret (t', cc') -> capped B cc'.
Proof.
  intros B m off maxlen. induction codes as [|c codes IH]; intros t cc t' cc' Hc Hcc H; cbn [esc_pass1] in H.
  - injection H as <- <-. exact Hcc.
  - pose proof (Hc c (or_introl eq_refl)) as Hb.
    assert (Hc' : forall c, In c codes -> c_bits c <= B + 10) by (intros c' Hin; apply Hc; right; exact Hin).
    change MAX_LUT_BITS with 10 in H. destruct (Nat.leb_spec (c_bits c) 10).
    + destruct (fill_lut _ _ _ _ _ _ _ _) as [t1| |]; inv_ret H. apply (IH _ _ _ _ Hc' Hcc H).
    + destruct (add_long_code cc m c) as [cc1| |] eqn:Ea; inv_ret H.
      apply (IH _ _ _ _ Hc' (capped_long B cc m c cc1 Hcc ltac:(lia) Ea) H).
Qed.

Lemma alloc_same : forall t m cur key b t' b', alloc_bucket t m cur key b = Ret (t', b') ->
  b_maxlen b' = b_maxlen b /\ b_codes b' = b_codes b.
Proof.
  intros t m cur key b t' b' H. unfold alloc_bucket in H. destruct (resize_table _ _) as [[t1 o]| |]; inv_ret H.
  destruct (fill_lut _ _ _ _ _ _ _ _) as [t2| |]; inv_ret H. injection H as <- <-. split; reflexivity.
Qed.

Lemma capped_esc2 : forall B m cur cc t t' cc', capped B cc -> esc_pass2 t m cur cc = Ret (t', cc') -> capped B cc'.
Proof.
  intros B m cur. induction cc as [|[key b] cc IH]; intros t t' cc' H E; cbn [esc_pass2] in E.
  - injection E as <- <-. exact H.
  - destruct (alloc_bucket t m cur key b) as [[t1 b1]| |] eqn:Ea; inv_ret E.
    destruct (esc_pass2 t1 m cur cc) as [[t2 cc2]| |] eqn:Ee; inv_ret E. injection E as <- <-.
    intros x [<-|Hx]; cbn [snd].
    + destruct (alloc_same _ _ _ _ _ _ _ Ea) as [-> ->]. apply (H (key, b)). left. reflexivity.
    + apply (IH t1 t2 cc2); [intros y Hy; apply H; right; exact Hy|exact Ee|exact Hx].
Qed.

Lemma capped_perm : forall B cc cc', Permutation cc cc' -> capped B cc -> capped B cc'.
Proof. intros B cc cc' P H x Hx. apply H. apply (Permutation_in x (Permutation_sym P) Hx). Qed.

Lemma build_all_same : forall (f g : list N -> N -> bucket -> outcome (list N)) cc t,
  (forall t key b, In (key, b) cc -> f t key b = g t key b) -> build_all f t cc = build_all g t cc.
Proof.
  intros f g. induction cc as [|[key b] cc IH]; intros t H; [reflexivity|]. cbn [build_all].
  rewrite (H t key b (or_introl eq_refl)). destruct (g t key b) as [t1| |]; [|reflexivity|reflexivity]. cbn [obind].
  apply IH. intros t' k b' Hin. apply H. right. exact Hin.
Qed.

Lemma build_esc_depth : forall m ord, permuting ord -> forall f f' path t b, f <= f' -> 1 <= b_maxlen b <= 10 * f ->
  (forall c, In c (b_codes b) -> c_bits c <= 10 * f) ->
  build_esc_lut f ord path t m b = build_esc_lut f' ord path t m b.
Proof.
  intros m ord Hord. induction f as [|f IH]; intros f' path t b Hf Hb Hc; [lia|]. destruct f' as [|f']; [lia|].
  cbn [build_esc_lut].
  destruct (esc_pass1 _ _ _ _ _ _) as [[t1 cc]| |] eqn:E1; [|reflexivity|reflexivity]. cbn [obind].
  destruct (esc_pass2 _ _ _ _) as [[t2 cc2]| |] eqn:E2; [|reflexivity|reflexivity]. cbn [obind].
  assert (C1 : capped (10 * f) cc).
  { refine (capped_esc1 (10 * f) m _ _ _ t [] t1 cc _ _ E1); [|intros x []]. intros c Hin. specialize (Hc c Hin). lia. }
  pose proof (capped_esc2 _ _ _ _ _ _ _ (capped_perm _ _ _ (Hord path cc) C1) E2) as C2.
  apply build_all_same. intros t' key b' Hin. destruct (C2 (key, b') Hin) as [X Y]. cbn [snd] in X, Y.
  apply IH; [lia|exact X|exact Y].
Qed.

Lemma capped_pass1 : forall (S : Type) B m (ds : list (desc S)) mb k cc mb' cc', (forall d, In d ds -> d_bits d <= B + 10) -> capped B cc ->
  new_pass1 m ds mb k cc = Ret (mb', cc') -> capped B cc'.
Proof.
  intros S B m. induction ds as [|d ds IH]; intros mb k cc mb' cc' Hd H E; cbn [new_pass1] in E.
  - injection E as <- <-. exact H.
  - change MAX_LUT_BITS with 10 in E.
    destruct (if 10 <? d_bits d then _ else _) as [cc1| |] eqn:E1; inv_ret E.
    assert (Hd' : forall d, In d ds -> d_bits d <= B + 10) by (intros d' Hin; apply Hd; right; exact Hin).
    refine (IH _ _ _ _ _ Hd' _ E). destruct (Nat.ltb_spec 10 (d_bits d)); [|injection E1 as <-; exact H].
    specialize (Hd d (or_introl eq_refl)). refine (capped_long B cc m _ cc1 H _ E1). cbn [c_bits]. lia.
Qed.

Lemma capped_set : forall B cc key b, capped B cc -> 1 <= b_maxlen b <= B -> (forall c, In c (b_codes b) -> c_bits c <= B) ->
  capped B (set_bucket cc key b).
Proof.
  intros B. induction cc as [|[k b0] cc IH]; intros key b H H1 H2 x Hx; cbn [set_bucket] in Hx; [destruct Hx|].
  destruct (k =? key)%N; destruct Hx as [<-|Hx].
  - split; [exact H1|exact H2].
  - apply H. right. exact Hx.
  - apply (H (k, b0)). left. reflexivity.
  - apply (IH key b); [intros y Hy; apply H; right; exact Hy|exact H1|exact H2|exact Hx].
Qed.

Lemma capped_pass2 : forall (S : Type) B m mb (ds : list (desc S)) t k cc t' cc', capped B cc ->
  new_pass2 t m mb ds k cc = Ret (t', cc') -> capped B cc'.
Proof.
  intros S B m mb. induction ds as [|d ds IH]; intros t k cc t' cc' H E; cbn [new_pass2] in E.
  - injection E as <- <-. exact H.
  - change MAX_LUT_BITS with 10 in E. destruct (d_bits d =? 0); [apply (IH _ _ _ _ _ H E)|].
    destruct (if d_bits d <=? 10 then _ else _) as [[t1 cc1]| |] eqn:E1; inv_ret E.
    destruct (add32 k 1) as [k1| |]; inv_ret E. refine (IH _ _ _ _ _ _ E). clear E.
    destruct (d_bits d <=? 10).
    + destruct (fill_lut _ _ _ _ _ _ _ _) as [t2| |]; inv_ret E1. injection E1 as <- <-. exact H.
    + destruct (extract_lut_part _ _ _ _) as [key| |]; inv_ret E1. destruct (index_at t _) as [x| |]; inv_ret E1.
      destruct (x =? TABLE_FILL_VALUE)%N; [|injection E1 as <- <-; exact H].
      destruct (find_bucket cc key) as [b|] eqn:Eb; [|injection E1 as <- <-; exact H].
      destruct (alloc_bucket t m 0 key b) as [[t2 b2]| |] eqn:Ea; inv_ret E1. injection E1 as <- <-.
      destruct (find_in cc key b Eb) as [k0 Hin]. destruct (H (k0, b) Hin) as [B1 B2]. cbn [snd] in *.
      destruct (alloc_same _ _ _ _ _ _ _ Ea) as [M1 M2]. apply capped_set; [exact H|rewrite M1; exact B1|rewrite M2; exact B2].
Qed.

Lemma any_depth : forall (S : Type) ord m (ds : list (desc S)) depth, permuting ord -> (forall d, In d ds -> d_bits d <= 255) ->
  26 <= depth -> new_in depth ord ds m = new_codebook ord ds m.
Proof.
  intros S ord m ds depth Hord Hd Hdep. unfold new_in, new_codebook.
  destruct (new_pass1 m ds 0 0 []) as [[mb cc]| |] eqn:E1; [|reflexivity|reflexivity]. cbn [obind].
  destruct (mb =? 0); [reflexivity|]. destruct (shl32 1 _) as [tl| |]; [|reflexivity|reflexivity]. cbn [obind].
  destruct (new_pass2 _ _ _ _ _ _) as [[t1 cc1]| |] eqn:E2; [|reflexivity|reflexivity]. cbn [obind].
  assert (C1 : capped 245 cc).
  { apply (capped_pass1 S 245 m ds 0 0 [] mb cc); [|intros x []|exact E1]. intros d Hin. specialize (Hd d Hin). lia. }
  pose proof (capped_perm _ _ _ (Hord [] cc1) (capped_pass2 S 245 m _ ds _ _ cc t1 cc1 C1 E2)) as C2.
  rewrite (build_all_same (fun t key b => build_esc_lut depth ord [key] t m b) (fun t key b => build_esc_lut 26 ord [key] t m b)); [reflexivity|].
  intros t key b Hin. destruct (C2 (key, b) Hin) as [X Y]. cbn [snd] in X, Y. symmetry.
  apply build_esc_depth; [exact Hord|exact Hdep|lia|]. intros c Hc. specialize (Y c Hc). lia.
Qed.

(** ** No undefined behaviour *)


Lemma csub_sound : forall a b, csub a b <> UB.
Proof. intros a b. unfold csub. destruct (_ <=? _); discriminate. Qed.
Lemma shl32_sound : forall a n, shl32 a n <> UB.
Proof. intros a n. unfold shl32. destruct (_ <? _); discriminate. Qed.
Lemma shr32_sound : forall a n, shr32 a n <> UB.
Proof. intros a n. unfold shr32. destruct (_ <? _); discriminate. Qed.
Lemma sub32_sound : forall a b, sub32 a b <> UB.
Proof. intros a b. unfold sub32. destruct (_ <=? _)%N; discriminate. Qed.
Lemma store_sound : forall (A : Type) (l : list A) i v, store l i v <> UB.
Proof. intros A l i v. unfold store. destruct (_ <? _); discriminate. Qed.
Lemma index_sound : forall (A : Type) (l : list A) i, index_at l i <> UB.
Proof. intros A l i. unfold index_at. destruct (nth_error l i); discriminate. Qed.
Lemma obind_sound : forall (A B : Type) (x : outcome A) (f : A -> outcome B), x <> UB -> (forall a, f a <> UB) -> obind x f <> UB.
Proof. intros A B [a| |] f H1 H2; cbn [obind]; [apply H2|discriminate|congruence]. Qed.

Lemma fill_loop_sound : forall k t off idx v j, (forall x, idx x <> UB) -> fill_loop t off idx v j k <> UB.
Proof.
  induction k as [|k IH]; intros t off idx v j H; cbn [fill_loop]; [discriminate|].
  apply obind_sound; [apply H|intros i]. apply obind_sound; [apply store_sound|intros t']. apply IH. exact H.
Qed.
Lemma fill_sound : forall t m off c bits L s esc, fill_lut t m off c bits L s esc <> UB.
Proof.
  intros t m off c bits L s esc. unfold fill_lut, fill_lut_msb, fill_lut_lsb.
  destruct m; destruct (negb esc); try apply store_sound; (apply obind_sound; [apply csub_sound|intros fl]); (apply obind_sound; [apply shl32_sound|intros fs]).
  - apply obind_sound; [apply shl32_sound|intros fc]. apply fill_loop_sound. intros x. apply add32_noub.
  - apply obind_sound; [apply csub_sound|intros st]. apply fill_loop_sound. intros x.
    apply obind_sound; [apply shl32_sound|intros y]. apply add32_noub.
Qed.
Lemma lut_part_sound : forall c b l m, extract_lut_part c b l m <> UB.
Proof.
  intros c b l m. destruct m; cbn [extract_lut_part].
  - apply obind_sound; [apply csub_sound|intros d; apply shr32_sound].
  - apply obind_sound; [apply shl32_sound|intros o]. apply obind_sound; [apply sub32_sound|intros k; discriminate].
Qed.
Lemma esc_part_sound : forall c b l m, extract_esc_part c b l m <> UB.
Proof.
  intros c b l m. destruct m; cbn [extract_esc_part]; [|apply shr32_sound].
  apply obind_sound; [apply csub_sound|intros d]. apply obind_sound; [apply shl32_sound|intros o].
  apply obind_sound; [apply sub32_sound|intros k; discriminate].
Qed.
Lemma long_sound : forall cc m c, add_long_code cc m c <> UB.
Proof.
  intros cc m c. unfold add_long_code. apply obind_sound; [apply lut_part_sound|intros k].
  apply obind_sound; [apply esc_part_sound|intros v]. apply obind_sound; [apply csub_sound|intros r; discriminate].
Qed.
Lemma alloc_sound : forall t m cur key b, alloc_bucket t m cur key b <> UB.
Proof.
  intros t m cur key b. unfold alloc_bucket, resize_table. apply obind_sound.
  - apply obind_sound; [apply shl32_sound|intros a; discriminate].
  - intros [t1 o]. apply obind_sound; [apply fill_sound|intros t2; discriminate].
Qed.
Lemma esc1_sound : forall m off maxlen codes t cc, esc_pass1 t m off maxlen codes cc <> UB.
Proof.
  intros m off maxlen. induction codes as [|c codes IH]; intros t cc; cbn [esc_pass1]; [discriminate|].
  destruct (c_bits c <=? MAX_LUT_BITS).
  - apply obind_sound; [apply fill_sound|intros t']. apply IH.
  - apply obind_sound; [apply long_sound|intros cc']. apply IH.
Qed.
Lemma esc2_sound : forall m cur cc t, esc_pass2 t m cur cc <> UB.
Proof.
  intros m cur. induction cc as [|[key b] cc IH]; intros t; cbn [esc_pass2]; [discriminate|].
  apply obind_sound; [apply alloc_sound|intros [t1 b']]. apply obind_sound; [apply IH|intros [t2 cc2]; discriminate].
Qed.
Lemma build_all_sound : forall (f : list N -> N -> bucket -> outcome (list N)) cc t, (forall t key b, f t key b <> UB) -> build_all f t cc <> UB.
Proof.
  intros f cc. induction cc as [|[key b] cc IH]; intros t H; cbn [build_all]; [discriminate|].
  apply obind_sound; [apply H|intros t']. apply IH. exact H.
Qed.
Lemma build_esc_sound : forall ord m fuel path t b, build_esc_lut fuel ord path t m b <> UB.
Proof.
  intros ord m. induction fuel as [|fuel IH]; intros path t b; cbn [build_esc_lut]; [discriminate|].
  apply obind_sound; [apply esc1_sound|intros [t1 cc]]. apply obind_sound; [apply esc2_sound|intros [t2 cc2]].
  apply build_all_sound. intros t' key b'. apply IH.
Qed.
Lemma pass1_sound : forall (S : Type) m (ds : list (desc S)) mb k cc, new_pass1 m ds mb k cc <> UB.
Proof.
  intros S m. induction ds as [|d ds IH]; intros mb k cc; cbn [new_pass1]; [discriminate|].
  apply obind_sound; [|intros cc'; apply IH]. destruct (_ <? _); [apply long_sound|discriminate].
Qed.
Lemma pass2_sound : forall (S : Type) m mb (ds : list (desc S)) t k cc, new_pass2 t m mb ds k cc <> UB.
Proof.
  intros S m mb. induction ds as [|d ds IH]; intros t k cc; cbn [new_pass2]; [discriminate|].
  destruct (d_bits d =? 0); [apply IH|]. apply obind_sound.
  - destruct (d_bits d <=? MAX_LUT_BITS).
    + apply obind_sound; [apply fill_sound|intros t'; discriminate].
    + apply obind_sound; [apply lut_part_sound|intros key]. apply obind_sound; [apply index_sound|intros x].
      destruct (x =? TABLE_FILL_VALUE)%N; [|discriminate]. destruct (find_bucket cc key) as [b|]; [|discriminate].
      apply obind_sound; [apply alloc_sound|intros [t' b']; discriminate].
  - intros [t' cc']. apply obind_sound; [apply add32_noub|intros k']. apply IH.
Qed.

Lemma pass1_short_used : forall (S : Type) m (ds : list (desc S)) mb k cc, (forall d, In d ds -> ~ used d) ->
  new_pass1 m ds mb k cc = Ret (mb, cc).
Proof.
  intros S m. induction ds as [|d ds IH]; intros mb k cc H; cbn [new_pass1]; [reflexivity|].
  pose proof (H d (or_introl eq_refl)) as Hd. unfold used in Hd. replace (d_bits d) with 0 by lia.
  cbn [Nat.ltb Nat.leb Nat.max obind]. apply IH. intros d' Hin. apply H. right. exact Hin.
Qed.

Lemma any_construction : forall (S : Type) ord m (ds : list (desc S)), permuting ord -> (forall d, In d ds -> d_bits d <= 255) ->
  new_codebook ord ds m <> UB /\
  (forall x, new_codebook ord ds m = Ret (Error x) <-> x = InvalidCodebook /\ forall d, In d ds -> ~ used d) /\
  forall depth, 26 <= depth -> new_in depth ord ds m = new_codebook ord ds m.
Proof.
  intros S ord m ds Hord Hd. split; [|split; [|intros depth Hdep; apply any_depth; assumption]].
  - unfold new_codebook. apply obind_sound; [apply pass1_sound|intros [mb cc]]. destruct (mb =? 0); [discriminate|].
    apply obind_sound; [apply shl32_sound|intros tl]. apply obind_sound; [apply pass2_sound|intros [t cc']].
    apply obind_sound; [|intros t'; discriminate]. apply build_all_sound. intros t' key b. apply build_esc_sound.
  - intros x. split.
    + intros H. unfold new_codebook in H.
      destruct (new_pass1 m ds 0 0 []) as [[mb cc]| |] eqn:E1; inv_ret H.
      destruct (pass1_ok S (nused ds) m ds 0 0 [] mb cc ltac:(lia) ltac:(intros y []) E1) as [_ Hm].
      destruct (Nat.eqb_spec mb 0) as [E0|E0].
      * injection H as <-. split; [reflexivity|]. intros d Hin Hu. unfold used in Hu.
        pose proof (list_max_in (map d_bits ds) (d_bits d) (in_map d_bits ds d Hin)). lia.
      * exfalso. destruct (shl32 1 _) as [tl| |]; inv_ret H. destruct (new_pass2 _ _ _ _ _ _) as [[t1 cc1]| |]; inv_ret H.
        destruct (build_all _ _ _) as [t2| |]; inv_ret H.
    + intros [-> Hn]. unfold new_codebook. rewrite pass1_short_used by exact Hn. reflexivity.
Qed.

(** ** A chain of tables *)

Definition zeros_then_one : list N := ([0; 0; 0; 0; 0; 128] ++ repeat 0 10)%N.

Lemma chain_witness : exists ord (ds : list (desc N)) cb buf r0 r, permuting ord /\ (forall d, In d ds -> d_bits d = 11) /\
  new_codebook ord ds MSB = Ret (Okay cb) /\ bytes buf /\ new BE buf = Ret r0 /\
  (forall rounds, 32 <= rounds -> read_in rounds BE cb r0 = Ret (r, Okay 30%N)) /\ consumed r = Ret 41 /\
  read_in 31 BE cb r0 = Panic.
Proof.
  exists id_order, (chained 30). eexists. exists zeros_then_one. eexists _, _.
  split; [exact id_permuting|]. split.
  { assert (H : forallb (fun d => d_bits d =? 11) (chained 30) = true) by (vm_compute; reflexivity).
    intros d Hd. rewrite forallb_forall in H. apply Nat.eqb_eq. apply H. exact Hd. }
  split; [vm_compute; reflexivity|]. split; [repeat constructor|]. split; [vm_compute; reflexivity|].
  split.
  { intros rounds Hr. unfold read_in. refine (read_loop_more N BE _ 32 rounds _ _ _ _ _ Hr). vm_compute. reflexivity. }
  split; vm_compute; reflexivity.
Qed.

(** ** How far a read goes *)

Lemma skip_at_most : forall e r n r', winv r -> n <= 64 -> skip_bits e r n = Ret r' -> wpos r' <= wpos r + n.
Proof.
  intros e r n r' H Hn E. unfold skip_bits in E. pose proof (w_left _ H). pose proof (w_pos _ H).
  destruct (Nat.ltb_spec (left r) n).
  - destruct (Nat.ltb_spec 64 (n - left r)); [lia|].
    pose proof (wstep_skip_rem e r (n - left r) H) as S2. pose proof (ws_inv _ _ S2) as W2. pose proof (w_bytes _ W2) as Wb2.
    destruct (can_refill (skip_rem e r (n - left r))) eqn:Hc.
    + destruct (refill64_some e _ Wb2 Hc) as [r3 [E3 [I3 [L3 [X3 B3]]]]].
      rewrite E3 in E. cbn [obind] in E. injection E as <-. unfold wpos.
      destruct e; cbn [skip_rem index left] in *; lia.
    + rewrite (refill64_none e _ Hc) in E. cbn [obind] in E. injection E as <-. unfold wpos.
      destruct e; cbn [skip_rem index left]; lia.
  - injection E as <-. unfold wpos. destruct e; cbn [skip_rem index left]; lia.
Qed.

Lemma read_loop_most : forall (S : Type) (cb : codebook S) e n lab, wf n (cb_table cb) lab -> small n -> small (length (cb_table cb)) ->
  forall fuel off L r X r' s, L <= 10 ->
  (forall q, off <= q < off + N.to_nat (pow2 L) -> lab q <= X) -> winv r ->
  read_loop fuel e cb r (N.of_nat off) L = Ret (r', s) -> wpos r' <= wpos r + X.
Proof.
  intros S cb e n lab Hw Hn Ht. induction fuel as [|fuel IH]; intros off L r X r' s HL Hlab Hr E; [discriminate E|].
  cbn [read_loop] in E.
  destruct (w_get_bits_32 e r L Hr ltac:(lia)) as [r0 [v [Eg _]]].
  assert (Ep : peek_bits_32 e r L = Ret (r, v)) by (unfold peek_bits_32; rewrite Eg; reflexivity).
  rewrite Ep in E. cbn [obind] in E.
  pose proof (peek_bound e r L r v (winv_cbound r Hr) ltac:(lia) Ep) as Hv.
  set (p := N.to_nat (v + N.of_nat off)) in *. assert (Hp : off <= p < off + N.to_nat (pow2 L)) by (unfold p; lia).
  destruct (nth_error (cb_table cb) p) as [x|] eqn:Ex; [|unfold index_at in E; rewrite Ex in E; discriminate E].
  rewrite (index_nth _ _ _ _ Ex) in E. cbn [obind] in E.
  destruct (Hw p x Ex) as [->|[[j [b [Hj [Hb [-> Hbl]]]]]|[o [k [Hk [Ho [-> Hq]]]]]]].
  - rewrite N.eqb_refl in E. injection E as <- _. lia.
  - destruct (lut_entry_fields (N.of_nat j) b) as [F1 [F2 [F3 F4]]]; [unfold small in Hn; lia|lia|].
    rewrite F1, F2, F3, F4 in E. cbn [negb] in E. rewrite (w_available r Hr) in E. cbn [obind] in E.
    destruct (_ <? _)%N; [injection E as <- _; lia|]. rewrite !Nnat.Nat2N.id in E.
    destruct (skip_bits e r b) as [r1| |] eqn:E1; inv_ret E. pose proof (skip_at_most e r b r1 Hr ltac:(lia) E1).
    destruct (index_at (cb_syms cb) j) as [y| |]; inv_ret E. injection E as <- _.
    specialize (Hlab p Hp). lia.
  - pose proof (pow2_pos k).
    destruct (esc_entry_fields (N.of_nat o) k) as [F1 [F2 [F3 F4]]]; [unfold small in Ht; lia|lia|].
    rewrite F1, F2, F3, F4 in E. cbn [negb] in E. rewrite (w_available r Hr) in E. cbn [obind] in E.
    destruct (_ <? _)%N; [injection E as <- _; lia|].
    destruct (w_skip_small e r L Hr ltac:(lia)) as [r1 [E1 S1]]. rewrite E1 in E. cbn [obind] in E. rewrite Nnat.Nat2N.id in E.
    pose proof (skip_at_most e r L r1 Hr ltac:(lia) E1) as H1.
    specialize (Hlab p Hp). pose proof (Hq o ltac:(lia)).
    assert (H2 : wpos r' <= wpos r1 + (X - 10)); [|lia].
    apply (IH o k r1 (X - 10) r' s); [lia| |apply S1|exact E].
    intros q Hqr. specialize (Hq q Hqr). lia.
Qed.

Lemma fitting_reads : forall (S : Type) ord m (ds : list (desc S)) cb e buf r0 steps r outs r' s c c',
  permuting ord -> codes_fit m ds -> new_codebook ord ds m = Ret (Okay cb) ->
  (N.of_nat (length (words m ds)) <= 2 ^ 24)%N -> (N.of_nat (length (cb_table cb)) <= 2 ^ 24)%N ->
  bytes buf -> new e buf = Ret r0 -> mixed_ok e cb r0 steps -> run_mixed e cb r0 steps = Ret (r, outs) ->
  read_cb e cb r = Ret (r', s) -> consumed r = Ret c -> consumed r' = Ret c' ->
  c' <= c + list_max (map d_bits ds).
Proof.
  intros S ord m ds cb e buf r0 steps r outs r' s c c' Hord Hf Hcb Hn Ht Hb Hr Hok Hrun Hread Hc Hc'.
  destruct (new_inv e buf Hb) as [r0' [E0 [I0 B0]]]. rewrite Hr in E0. injection E0 as <-.
  pose proof (inv_winv _ _ _ I0) as Hw0.
  destruct (malformed_mixed S ord m ds cb e Hord Hf Hcb Hn Ht steps r0 Hw0 Hok) as [r1 [outs1 [E S1]]].
  rewrite Hrun in E. injection E as <- <-. pose proof (ws_inv _ _ S1) as Hw.
  destruct (malformed_read S ord m ds cb e r Hord Hf Hcb Hn Ht Hw) as [r2 [s2 [E2 [S2 _]]]].
  rewrite Hread in E2. injection E2 as <- <-.
  rewrite (w_consumed _ Hw) in Hc. injection Hc as <-. rewrite (w_consumed _ (ws_inv _ _ S2)) in Hc'. injection Hc' as <-.
  assert (Hu : exists d, In d ds /\ used d) by exact (codebook_used S ord m ds cb Hcb).
  rewrite <- (nused_words S m) in Hn.
  destruct (malformed_built S ord m ds Hord Hf ltac:(change (2 ^ 32)%N with 4294967296%N; change (2 ^ 24)%N with 16777216%N in Hn; lia) Hu)
    as [cb' [E [Hs [_ [HL [Hlen K]]]]]].
  rewrite E in Hcb. injection Hcb as ->. destruct (K Hn Ht) as [lab [Hwf Hlab]].
  apply (read_loop_most S cb e (nused ds) lab Hwf Hn Ht 27 0 (cb_lut_bits cb) r _ r' s HL); [|exact Hw|exact Hread].
  intros q Hq. apply Hlab. lia.
Qed.
