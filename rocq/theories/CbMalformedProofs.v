(** Codebooks of descriptions that need not be prefix-free: construction succeeds and
    reads never panic.  Every table position gets a label that falls by at least 10
    along an escape, so chains of escapes end. *)
From Coq Require Import List Arith NArith ZArith Bool Lia Permutation.
From Coq Require Import ZifyBool ZifyNat ZifyN.
From Verif Require Import Base ByteModel ByteSpec ByteProofs BitModel BitSpec BitProofs BitProofs2 CodebookModel
  CodebookSpec CodebookProofs CodebookProofs2 CodebookProofs3 CodebookProofs4 CodebookProofs5 CodebookProofs6.
Import ListNotations.
Local Open Scope nat_scope.
Ltac Zify.zify_post_hook ::= Z.div_mod_to_equations.

Definition small (k : nat) : Prop := (N.of_nat k <= 2 ^ 24)%N.

Lemma small_le : forall a b, a <= b -> small b -> small a.
Proof. unfold small. intros. lia. Qed.

Lemma small_mod : forall k, small k -> (N.of_nat k mod W32 = N.of_nat k)%N.
Proof.
  intros k H. apply N.mod_small. unfold small in H. unfold W32. change (2 ^ 24)%N with 16777216%N in H.
  change (2 ^ 32)%N with 4294967296%N. lia.
Qed.

Definition entry_ok (n : nat) (len : nat) (lab : nat -> nat) (p : nat) (x : N) : Prop :=
  x = TABLE_FILL_VALUE \/
  (exists j b, j < n /\ 1 <= b <= 10 /\ x = lut_entry (N.of_nat j) b /\ b <= lab p) \/
  (exists o k, 1 <= k <= 10 /\ o + N.to_nat (pow2 k) <= len /\ x = esc_entry (N.of_nat o) k /\
     forall q, o <= q < o + N.to_nat (pow2 k) -> lab q + 10 <= lab p).

Definition wf (n : nat) (t : list N) (lab : nat -> nat) : Prop :=
  forall p x, nth_error t p = Some x -> entry_ok n (length t) lab p x.

Definition agree (len : nat) (lab lab' : nat -> nat) : Prop := forall q, q < len -> lab' q = lab q.

Lemma agree_refl : forall len lab, agree len lab lab.
Proof. intros len lab q _. reflexivity. Qed.

Lemma agree_trans : forall l1 l2 a b c, l1 <= l2 -> agree l1 a b -> agree l2 b c -> agree l1 a c.
Proof. intros l1 l2 a b c H H1 H2 q Hq. rewrite H2 by lia. apply H1. exact Hq. Qed.

Lemma fill_loose : forall m t off c bits L idx, bits <= L -> L <= 10 -> (c < pow2 bits)%N ->
  off + N.to_nat (pow2 L) <= length t ->
  exists t', fill_lut t m off c bits L idx false = Ret t' /\ length t' = length t /\
    forall q, nth_error t' q = nth_error t q \/
      (nth_error t' q = Some (lut_entry idx bits) /\ off <= q < off + N.to_nat (pow2 L)).
Proof.
  intros m t off c bits L idx Hb HL Hc Ht.
  destruct (fill_short_spec m t off c bits L idx Hb HL Hc Ht) as [t' [E [Hl [Hyes [Hno Hout]]]]].
  exists t'. split; [exact E|]. split; [exact Hl|]. intros q.
  destruct (le_lt_dec off q) as [H1|H1]; [|left; apply Hout; lia].
  destruct (lt_dec q (off + N.to_nat (pow2 L))) as [H2|H2]; [|left; apply Hout; lia].
  destruct (slot_surj (reader_for m) off q L ltac:(lia)) as [u [Lu ->]].
  destruct (prefix_dec (codeword m c bits) u) as [Hp|Hp].
  - right. split; [apply Hyes; assumption|lia].
  - left. apply Hno; assumption.
Qed.

Lemma wf_fill : forall n t t' lab j bits, wf n t lab -> length t' = length t -> j < n -> 1 <= bits <= 10 ->
  (forall q, nth_error t' q = nth_error t q \/ (nth_error t' q = Some (lut_entry (N.of_nat j) bits) /\ bits <= lab q)) -> wf n t' lab.
Proof.
  intros n t t' lab j bits Hw Hl Hj Hb H p x Hx. rewrite Hl. destruct (H p) as [E|[E Hp]]; rewrite E in Hx.
  - apply Hw. exact Hx.
  - injection Hx as <-. right. left. exists j, bits. auto.
Qed.

(** ** Buckets *)

Definition bok (m : mode) (n : nat) (b : bucket) : Prop :=
  1 <= b_maxlen b /\
  Forall (fun c => code_ok m c /\ c_bits c <= b_maxlen b /\ c_idx c < n) (b_codes b).
Definition roomy (lab : nat -> nat) (b : bucket) : Prop := forall q, in_region b q -> b_maxlen b <= lab q.
Definition fits (t : list N) (b : bucket) : Prop := b_offset b + bsize b <= length t.

Lemma alloc_loose : forall m t off key b, (key < 1024)%N -> off + 1024 <= length t ->
  exists t' b', alloc_bucket t m off key b = Ret (t', b') /\ length t' = length t + bsize b /\
    b_maxlen b' = b_maxlen b /\ b_codes b' = b_codes b /\ fits t' b' /\
    (small (length t') -> forall n lab, wf n t lab -> 1 <= b_maxlen b -> b_maxlen b + 10 <= lab (off + N.to_nat key) ->
     exists lab', agree (length t) lab lab' /\ wf n t' lab' /\ roomy lab' b').
Proof.
  intros m t off key b Hk Ht. unfold alloc_bucket, resize_table. change MAX_LUT_BITS with 10. fold (bbits b).
  rewrite shl32_one by (unfold bbits; lia). cbn [obind]. fold (bsize b).
  set (new_off := (N.of_nat (length t) mod W32)%N).
  assert (Hno : (new_off <= N.of_nat (length t))%N) by (apply N.mod_le; discriminate).
  assert (Hfl : forall t1, fill_lut t1 m off key (bbits b) 10 new_off true =
            store t1 (off + N.to_nat key) (esc_entry new_off (bbits b))).
  { intros t1. rewrite Nat.add_comm. destruct m; reflexivity. }
  rewrite Hfl.
  assert (Hln : length (t ++ repeat TABLE_FILL_VALUE (bsize b)) = length t + bsize b)
    by (rewrite app_length, repeat_length; reflexivity).
  assert (Hlt : off + N.to_nat key < length (t ++ repeat TABLE_FILL_VALUE (bsize b))) by lia.
  rewrite store_ok by exact Hlt. cbn [obind].
  set (t' := update (t ++ repeat TABLE_FILL_VALUE (bsize b)) (off + N.to_nat key) (esc_entry new_off (bbits b))).
  assert (Hl' : length t' = length t + bsize b) by (unfold t'; rewrite update_length; exact Hln).
  exists t'. eexists. split; [reflexivity|]. split; [exact Hl'|]. cbn [b_maxlen b_codes]. split; [reflexivity|].
  split; [reflexivity|]. split.
  { unfold fits, bsize, bbits. cbn [b_maxlen b_offset]. fold (bbits b). fold (bsize b). lia. }
  intros Hsm n lab Hw Hm Hlab.
  assert (Eno : new_off = N.of_nat (length t)) by (apply small_mod; apply (small_le _ (length t')); [lia|exact Hsm]).
  exists (fun q => if q <? length t then lab q else b_maxlen b). split; [|split].
  - intros q Hq. destruct (Nat.ltb_spec q (length t)); [reflexivity|lia].
  - intros p x Hx. unfold t' in Hx. rewrite update_nth in Hx by exact Hlt.
    destruct (Nat.eqb_spec p (off + N.to_nat key)) as [->|Hne].
    + injection Hx as <-. right. right. exists (length t), (bbits b). split; [unfold bbits; lia|].
      split; [unfold bsize in Hl'; lia|]. split; [rewrite Eno; reflexivity|].
      intros q Hq. destruct (Nat.ltb_spec q (length t)); [lia|].
      destruct (Nat.ltb_spec (off + N.to_nat key) (length t)); [exact Hlab|lia].
    + destruct (le_lt_dec (length t) p) as [Hge|Hp].
      * rewrite nth_error_app2 in Hx by exact Hge. left.
        apply nth_error_In in Hx. apply repeat_spec in Hx. exact Hx.
      * rewrite nth_error_app1 in Hx by exact Hp.
        destruct (Hw p x Hx) as [->|[[j [w [Hj [Hwb [He Hwl]]]]]|[o [k [H1 [H2 [H3 H4]]]]]]]; [left; reflexivity| |].
        { right. left. exists j, w. split; [exact Hj|]. split; [exact Hwb|]. split; [exact He|].
          destruct (Nat.ltb_spec p (length t)); [exact Hwl|lia]. }
        right. right. exists o, k. split; [exact H1|]. split; [lia|]. split; [exact H3|].
        intros q Hq. specialize (H4 q Hq). destruct (Nat.ltb_spec q (length t)); [|lia].
        destruct (Nat.ltb_spec p (length t)); [exact H4|lia].
  - intros q Hq. unfold in_region in Hq. cbn [b_offset b_maxlen] in *.
    destruct (Nat.ltb_spec q (length t)); [lia|]. lia.
Qed.

Lemma roomy_agree : forall len lab lab' b, b_offset b + bsize b <= len -> agree len lab lab' -> roomy lab b -> roomy lab' b.
Proof. intros len lab lab' b H Ha Hr q Hq. rewrite Ha by (unfold in_region in Hq; lia). apply Hr. exact Hq. Qed.

Definition cw (c : code) : nat := (c_bits c - 1) / 10.
Definition bw (b : bucket) : nat := list_sum (map cw (b_codes b)).
Definition ccw (cc : escape_codes) : nat := list_sum (map (fun x => S (bw (snd x))) cc).
Definition csum (cc : escape_codes) : nat := list_sum (map (fun x => bw (snd x)) cc).

Lemma ccw_csum : forall cc, ccw cc = length cc + csum cc.
Proof. unfold ccw, csum, list_sum. induction cc as [|x cc IH]; [reflexivity|]. cbn [map fold_right length] in *. lia. Qed.

Lemma list_sum_perm : forall a b, Permutation a b -> list_sum a = list_sum b.
Proof. intros a b H. unfold list_sum. induction H; cbn [fold_right] in *; lia. Qed.

Lemma ccw_perm : forall a b, Permutation a b -> ccw a = ccw b.
Proof. intros a b H. apply list_sum_perm. apply Permutation_map. exact H. Qed.

(** The buckets that the long codes of a bucket of length [M] are filed in. *)
Definition cok (m : mode) (n M : nat) (x : N * bucket) : Prop :=
  (fst x < 1024)%N /\ bok m n (snd x) /\ b_maxlen (snd x) + 10 <= M.

Definition unplaced (x : N * bucket) : Prop := b_offset (snd x) = 0.

Lemma ccw_app : forall a b, ccw (a ++ b) = ccw a + ccw b.
Proof. intros a b. unfold ccw. rewrite map_app, list_sum_app. reflexivity. Qed.

Lemma bw_add : forall b c, bw (add_code b c) = bw b + cw c.
Proof. intros b c. unfold bw, add_code. cbn [b_codes]. rewrite map_app, list_sum_app. cbn. lia. Qed.

Lemma add_long_loose : forall m n M cc c, Forall (cok m n M) cc -> Forall unplaced cc -> code_ok m c -> 10 < c_bits c ->
  c_bits c <= M -> c_idx c < n ->
  exists cc', add_long_code cc m c = Ret cc' /\ Forall (cok m n M) cc' /\ Forall unplaced cc' /\
    ccw cc' <= ccw cc + cw c /\ csum cc' + 1 <= csum cc + cw c.
Proof.
  intros m n M cc c Hcc Hun [Hb Hc] H10 HM Hn. unfold add_long_code. change MAX_LUT_BITS with 10.
  rewrite (extract_lut_spec m (c_code c) (c_bits c) ltac:(lia) Hc). cbn [obind].
  destruct (extract_esc_spec m (c_code c) (c_bits c) ltac:(lia) Hc) as [c' [E [Hc' _]]]. rewrite E. cbn [obind].
  unfold csub. destruct (Nat.leb_spec 10 (c_bits c)); [|lia]. cbn [obind].
  set (key := value (reader_for m) _).
  assert (Hkey : (key < 1024)%N).
  { unfold key. pose proof (value_bound (reader_for m) (firstn 10 (codeword m (c_code c) (c_bits c)))) as Hv.
    rewrite firstn_length_le in Hv by (rewrite codeword_length; lia). exact Hv. }
  set (nc := mk_code c' (c_bits c - 10) (c_idx c)).
  assert (Hnc : code_ok m nc) by (split; cbn [nc c_bits c_code]; [lia|exact Hc']).
  assert (Hcw : cw c = S (cw nc)) by (unfold cw, nc; cbn [c_bits]; lia).
  eexists. split; [reflexivity|].
  destruct (add_esc_cases cc key nc) as [[l1 [b [l2 [E1 E2]]]]|[_ E2]]; rewrite E2.
  - subst cc. apply Forall_app in Hcc. destruct Hcc as [A1 A2]. inversion_clear A2 as [|? ? A3 A4].
    apply Forall_app in Hun. destruct Hun as [U1 U2]. inversion_clear U2 as [|? ? U3 U4].
    destruct A3 as [B1 [[B2 B3] B4]]. cbn [fst snd] in *. split; [|split; [|split]].
    + apply Forall_app. split; [exact A1|]. constructor; [|exact A4]. split; [exact B1|].
      unfold bok, add_code. cbn [b_maxlen b_codes fst snd]. rewrite maxlen_max. cbn [nc c_bits]. split; [|lia].
      split; [lia|]. apply Forall_app. split.
      * eapply Forall_impl; [|exact B3]. cbn beta. intros a [X1 [X2 X3]]. split; [exact X1|]. split; [lia|exact X3].
      * constructor; [|constructor]. split; [exact Hnc|]. cbn [nc c_bits c_idx]. split; [lia|exact Hn].
    + apply Forall_app. split; [exact U1|]. constructor; [exact U3|exact U4].
    + rewrite !ccw_app. unfold ccw at 2 4. cbn [map list_sum fold_right snd]. unfold bw, add_code. cbn [b_codes].
      rewrite map_app, list_sum_app. cbn [map list_sum fold_right]. unfold list_sum. lia.
    + unfold csum. rewrite !map_app, !list_sum_app. cbn [map snd]. pose proof (bw_add b nc) as Hbw.
      unfold list_sum at 2 4. cbn [fold_right]. lia.
  - split; [|split; [|split]].
    + apply Forall_app. split; [exact Hcc|]. constructor; [|constructor]. split; [exact Hkey|].
      unfold bok, add_code, new_bucket. cbn [b_maxlen b_codes fst snd]. rewrite maxlen_max. cbn [nc c_bits app]. split; [|lia].
      split; [lia|]. constructor; [|constructor]. split; [exact Hnc|]. cbn [nc c_bits c_idx]. split; [lia|exact Hn].
    + apply Forall_app. split; [exact Hun|]. constructor; [reflexivity|constructor].
    + rewrite ccw_app. unfold ccw at 2. cbn [map list_sum fold_right snd]. unfold bw, add_code, new_bucket. cbn [b_codes app].
      cbn [map list_sum fold_right]. lia.
    + unfold csum. rewrite map_app, list_sum_app. cbn [map snd]. unfold bw, add_code, new_bucket. cbn [b_codes app map].
      unfold list_sum. cbn [fold_right]. lia.
Qed.

(** ** The passes of [build_esc_lut] *)

Lemma pass1_loose : forall m n off M cs t cc,
  Forall (fun c => code_ok m c /\ c_bits c <= M /\ c_idx c < n) cs -> off + N.to_nat (pow2 (Nat.min M 10)) <= length t ->
  Forall (cok m n M) cc -> Forall unplaced cc ->
  exists t' cc', esc_pass1 t m off (Nat.min M 10) cs cc = Ret (t', cc') /\ length t' = length t /\
    Forall (cok m n M) cc' /\ Forall unplaced cc' /\ ccw cc' <= ccw cc + list_sum (map cw cs) /\
    (small n -> forall lab, wf n t lab -> (forall q, off <= q < off + N.to_nat (pow2 (Nat.min M 10)) -> M <= lab q) -> wf n t' lab).
Proof.
  intros m n off M. induction cs as [|c cs IH]; intros t cc Hcs Ht Hcc Hun; cbn [esc_pass1].
  - exists t, cc. split; [reflexivity|]. split; [reflexivity|]. split; [exact Hcc|]. split; [exact Hun|].
    split; [cbn; lia|]. intros _ lab Hw _. exact Hw.
  - inversion_clear Hcs as [|? ? [Hc [HM Hn]] Hcs']. change MAX_LUT_BITS with 10.
    destruct (Nat.leb_spec (c_bits c) 10) as [Hle|Hgt].
    + destruct Hc as [Hb Hc].
      destruct (fill_loose m t off (c_code c) (c_bits c) (Nat.min M 10) (N.of_nat (c_idx c) mod W32) ltac:(lia) ltac:(lia) Hc Ht)
        as [t1 [E [L1 F1]]]. rewrite E. cbn [obind].
      destruct (IH t1 cc Hcs' ltac:(lia) Hcc Hun) as [t' [cc' [E' [L' [H1 [H2 [H3 H4]]]]]]].
      exists t', cc'. split; [exact E'|]. split; [lia|]. split; [exact H1|]. split; [exact H2|].
      split; [cbn [map list_sum fold_right] in *; unfold list_sum in *; lia|].
      intros Hs lab Hw HL. apply H4; [exact Hs| |exact HL]. apply (wf_fill n t t1 lab (c_idx c) (c_bits c) Hw L1 Hn ltac:(lia)).
      intros q. rewrite <- (small_mod (c_idx c)); [|apply (small_le _ n); [lia|exact Hs]].
      destruct (F1 q) as [F|[F Hq]]; [left; exact F|]. right. split; [exact F|]. specialize (HL q Hq). lia.
    + destruct (add_long_loose m n M cc c Hcc Hun Hc Hgt HM Hn) as [cc1 [E [A1 [A2 [A3 _]]]]]. rewrite E. cbn [obind].
      destruct (IH t cc1 Hcs' Ht A1 A2) as [t' [cc' [E' [L' [H1 [H2 [H3 H4]]]]]]].
      exists t', cc'. split; [exact E'|]. split; [lia|]. split; [exact H1|]. split; [exact H2|].
      split; [cbn [map list_sum fold_right] in *; unfold list_sum in *; lia|exact H4].
Qed.

Definition same_shape (x y : N * bucket) : Prop :=
  fst x = fst y /\ b_maxlen (snd x) = b_maxlen (snd y) /\ b_codes (snd x) = b_codes (snd y).

Lemma same_cok : forall m n M x y, same_shape x y -> cok m n M y -> cok m n M x.
Proof. intros m n M [k b] [k' b'] [H1 [H2 H3]]. unfold cok, bok. cbn [fst snd] in *. rewrite H1, H2, H3. tauto. Qed.

Lemma pass2_loose : forall m n M off cc t, Forall (cok m n M) cc -> (cc <> [] -> off + 1024 <= length t) ->
  exists t' cc', esc_pass2 t m off cc = Ret (t', cc') /\ length t <= length t' <= length t + 1024 * length cc /\
    Forall2 same_shape cc' cc /\ Forall (fun x => fits t' (snd x)) cc' /\
    (small (length t') -> forall lab, wf n t lab -> (cc <> [] -> forall q, off <= q < off + 1024 -> M <= lab q) ->
     exists lab', agree (length t) lab lab' /\ wf n t' lab' /\ Forall (fun x => roomy lab' (snd x)) cc').
Proof.
  intros m n M off. induction cc as [|[key b] cc IH]; intros t Hcc Ht; cbn [esc_pass2].
  - exists t, []. split; [reflexivity|]. split; [cbn; lia|]. split; [constructor|]. split; [constructor|].
    intros _ lab Hw _. exists lab. split; [apply agree_refl|]. split; [exact Hw|constructor].
  - apply Forall_cons_iff in Hcc. destruct Hcc as [[Hk [[Hb1 Hb2] HM]] Hcc']. cbn [fst snd] in *. specialize (Ht ltac:(discriminate)).
    destruct (alloc_loose m t off key b Hk Ht) as [t1 [b' [E [L1 [Hm [Hc [Hf Hlab]]]]]]]. rewrite E. cbn [obind].
    destruct (IH t1 Hcc' ltac:(intros; lia)) as [t' [cc' [E' [L' [Hs [Hfs Hlabs]]]]]]. rewrite E'. cbn [obind].
    pose proof (bsize_le b). exists t', ((key, b') :: cc'). split; [reflexivity|]. split; [cbn [length]; lia|].
    split; [constructor; [split; [reflexivity|split; assumption]|exact Hs]|].
    split; [constructor; [unfold fits in *; cbn [snd]; lia|exact Hfs]|].
    intros Hsm lab Hw HMl.
    destruct (Hlab ltac:(apply (small_le _ (length t')); [lia|exact Hsm]) n lab Hw Hb1) as [lab1 [A1 [W1 R1]]].
    { specialize (HMl ltac:(discriminate) (off + N.to_nat key) ltac:(lia)). lia. }
    destruct (Hlabs Hsm lab1 W1) as [lab2 [A2 [W2 R2]]].
    { intros _ q Hq. rewrite A1 by lia. apply HMl; [discriminate|exact Hq]. }
    exists lab2. split; [apply (agree_trans (length t) (length t1) lab lab1 lab2); [lia|assumption|assumption]|].
    split; [exact W2|]. constructor; [|exact R2]. cbn [snd]. apply (roomy_agree (length t1) lab1); assumption.
Qed.

Definition builds (m : mode) (n M : nat) (build : list N -> N -> bucket -> outcome (list N)) : Prop :=
  forall t key b, bok m n b -> b_maxlen b <= M -> fits t b ->
  exists t', build t key b = Ret t' /\ length t <= length t' <= length t + 1024 * bw b /\
    (small n -> small (length t') -> forall lab, wf n t lab -> roomy lab b ->
     exists lab', agree (length t) lab lab' /\ wf n t' lab').

Lemma build_all_loose : forall m n M build, builds m n M build -> forall cc t,
  Forall (fun x => bok m n (snd x) /\ b_maxlen (snd x) <= M /\ fits t (snd x)) cc ->
  exists t', build_all build t cc = Ret t' /\ length t <= length t' <= length t + 1024 * csum cc /\
    (small n -> small (length t') -> forall lab, wf n t lab -> Forall (fun x => roomy lab (snd x)) cc ->
     exists lab', agree (length t) lab lab' /\ wf n t' lab').
Proof.
  intros m n M build Hb. induction cc as [|[key b] cc IH]; intros t Hcc; cbn [build_all].
  - exists t. split; [reflexivity|]. split; [cbn; lia|]. intros _ _ lab Hw _. exists lab. split; [apply agree_refl|exact Hw].
  - apply Forall_cons_iff in Hcc. destruct Hcc as [[H1 [H2 H3]] Hcc']. cbn [snd] in *.
    destruct (Hb t key b H1 H2 H3) as [t1 [E [L1 Hl1]]]. rewrite E. cbn [obind].
    destruct (IH t1) as [t' [E' [L' Hl']]].
    { eapply Forall_impl; [|exact Hcc']. cbn beta. intros a [X1 [X2 X3]]. split; [exact X1|]. split; [exact X2|].
      unfold fits in *. lia. }
    exists t'. split; [exact E'|]. split; [unfold csum in *; cbn [map list_sum fold_right snd] in *; unfold list_sum in *; lia|].
    intros Hn Hsm lab Hw Hr. apply Forall_cons_iff in Hr. destruct Hr as [R1 R2]. cbn [snd] in *.
    destruct (Hl1 Hn ltac:(apply (small_le _ (length t')); [lia|exact Hsm]) lab Hw R1) as [lab1 [A1 W1]].
    destruct (Hl' Hn Hsm lab1 W1) as [lab2 [A2 W2]].
    { rewrite Forall_forall in *. intros x Hx. apply (roomy_agree (length t) lab); [|exact A1|apply R2; exact Hx].
      destruct (Hcc' x Hx) as [_ [_ X]]. exact X. }
    exists lab2. split; [apply (agree_trans (length t) (length t1) lab lab1 lab2); [lia|assumption|assumption]|exact W2].
Qed.

Lemma Forall2_same_cok : forall m n M cc' cc, Forall2 same_shape cc' cc -> Forall (cok m n M) cc -> Forall (cok m n M) cc'.
Proof.
  intros m n M cc' cc H. induction H as [|x y l l' Hxy H IH]; intros Hc; [constructor|].
  inversion_clear Hc. constructor; [apply (same_cok m n M x y); assumption|apply IH; assumption].
Qed.

Lemma Forall2_same_csum : forall cc' cc, Forall2 same_shape cc' cc -> csum cc' = csum cc.
Proof.
  intros cc' cc H. unfold csum. induction H as [|x y l l' [_ [_ Hxy]] H IH]; [reflexivity|].
  cbn [map list_sum fold_right]. unfold bw at 1 3. rewrite Hxy. unfold list_sum in *. lia.
Qed.

Lemma build_esc_loose : forall m n ord, permuting ord -> forall fuel M path, M <= 10 * fuel ->
  builds m n M (fun t key b => build_esc_lut fuel ord (path key) t m b).
Proof.
  intros m n ord Hord. induction fuel as [|fuel IH]; intros M path HM t key b [Hb1 Hb2] HbM Hf; cbn [build_esc_lut].
  - lia.
  - change MAX_LUT_BITS with 10.
    assert (Hsz : bsize b = N.to_nat (pow2 (Nat.min (b_maxlen b) 10))) by reflexivity.
    destruct (pass1_loose m n (b_offset b) (b_maxlen b) (b_codes b) t [] Hb2) as [t1 [cc [E1 [L1 [C1 [_ [W1 K1]]]]]]];
      [unfold fits in Hf; lia|constructor|constructor|].
    rewrite E1. cbn [obind].
    assert (Hcc : Forall (cok m n (b_maxlen b)) (ord (path key) cc)).
    { eapply Permutation_Forall; [apply Hord|exact C1]. }
    assert (H1024 : ord (path key) cc <> [] -> bsize b = 1024).
    { intros Hne. destruct (ord (path key) cc) as [|x l]; [congruence|]. apply Forall_cons_iff in Hcc. destruct Hcc as [[_ [[X1 _] X2]] _].
      rewrite Hsz. replace (Nat.min (b_maxlen b) 10) with 10 by lia. reflexivity. }
    destruct (pass2_loose m n (b_maxlen b) (b_offset b) (ord (path key) cc) t1 Hcc) as [t2 [cc2 [E2 [L2 [S2 [F2 K2]]]]]].
    { intros Hne. specialize (H1024 Hne). unfold fits in Hf. lia. }
    rewrite E2. cbn [obind].
    pose proof (Forall2_same_cok _ _ _ _ _ S2 Hcc) as C2.
    destruct (build_all_loose m n (b_maxlen b - 10) (fun t key0 b' => build_esc_lut fuel ord (key0 :: path key) t m b')
                (IH (b_maxlen b - 10) (fun key0 => key0 :: path key) ltac:(lia)) cc2 t2) as [t3 [E3 [L3 K3]]].
    { rewrite Forall_forall in *. intros x Hx. destruct (C2 x Hx) as [_ [X1 X2]]. split; [exact X1|]. split; [lia|apply F2; exact Hx]. }
    exists t3. split; [exact E3|].
    pose proof (ccw_perm _ _ (Hord (path key) cc)) as Hp. rewrite !ccw_csum in Hp.
    rewrite (Forall2_same_csum _ _ S2) in L3. rewrite ccw_csum in W1. cbn [ccw map list_sum fold_right] in W1.
    change (ccw []) with 0 in W1.
    split; [unfold bw; lia|].
    intros Hn Hsm lab Hw Hr.
    assert (HL1 : forall q, b_offset b <= q < b_offset b + N.to_nat (pow2 (Nat.min (b_maxlen b) 10)) -> b_maxlen b <= lab q)
      by (intros q Hq; apply Hr; unfold in_region; lia).
    destruct (K2 ltac:(apply (small_le _ (length t3)); [lia|exact Hsm]) lab (K1 Hn lab Hw HL1)) as [lab1 [A1 [V1 R1]]].
    { intros Hne q Hq. specialize (H1024 Hne). apply Hr. unfold in_region. lia. }
    destruct (K3 Hn Hsm lab1 V1 R1) as [lab2 [A2 V2]].
    exists lab2. split; [|exact V2]. apply (agree_trans (length t) (length t2) lab lab1 lab2); [lia| |assumption].
    rewrite <- L1. exact A1.
Qed.

(** ** The passes over the description *)

Definition dw {S : Type} (ds : list (desc S)) : nat := list_sum (map (fun d => (d_bits d - 1) / 10) ds).
Definition longs {S : Type} (ds : list (desc S)) : nat := length (filter (fun d => 10 <? d_bits d) ds).
Definition nused {S : Type} (ds : list (desc S)) : nat := length (filter (fun d => 0 <? d_bits d) ds).

Lemma new_pass1_loose : forall (S : Type) m n M (ds : list (desc S)) mb k cc, codes_fit m ds ->
  (forall d, In d ds -> d_bits d <= M) -> k + nused ds <= n -> Forall (cok m n M) cc -> Forall unplaced cc ->
  exists cc', new_pass1 m ds mb k cc = Ret (Nat.max mb (list_max (map d_bits ds)), cc') /\
    Forall (cok m n M) cc' /\ Forall unplaced cc' /\ csum cc' + longs ds <= csum cc + dw ds.
Proof.
  intros S m n M. unfold nused, longs, dw. induction ds as [|d ds IH]; intros mb k cc Hf HM Hn Hcc Hun; cbn [new_pass1].
  - exists cc. cbn [map list_max fold_right filter length list_sum]. rewrite Nat.max_0_r. split; [reflexivity|].
    split; [exact Hcc|]. split; [exact Hun|]. lia.
  - assert (Hf' : codes_fit m ds) by (intros d' Hin; apply Hf; right; exact Hin).
    assert (HM' : forall d, In d ds -> d_bits d <= M) by (intros d' Hin; apply HM; right; exact Hin).
    cbn [filter length map list_max fold_right] in *. fold (list_max (map d_bits ds)). change MAX_LUT_BITS with 10.
    unfold list_sum. cbn [fold_right]. fold (list_sum (map (fun d => (d_bits d - 1) / 10) ds)).
    destruct (Nat.ltb_spec 10 (d_bits d)) as [Hl|Hl].
    + destruct (Nat.ltb_spec 0 (d_bits d)); [|lia]. cbn [length] in *.
      destruct (Hf d (or_introl eq_refl)) as [F1 [F2 _]]; [unfold used; lia|].
      destruct (add_long_loose m n M cc (mk_code (d_code d) (d_bits d) k) Hcc Hun) as [cc1 [E [C1 [U1 [_ W1]]]]];
        cbn [c_bits c_code c_idx].
      { split; cbn [c_bits c_code]; [lia|exact F2]. }
      { exact Hl. } { apply HM. left. reflexivity. } { lia. }
      rewrite E. cbn [obind].
      destruct (IH (Nat.max (d_bits d) mb) (k + 1) cc1 Hf' HM' ltac:(lia) C1 U1) as [cc' [E' [C' [U' W']]]].
      exists cc'. rewrite E'. split; [f_equal; f_equal; lia|]. split; [exact C'|]. split; [exact U'|].
      unfold cw in W1. cbn [c_bits] in W1. lia.
    + cbn [obind].
      destruct (IH (Nat.max (d_bits d) mb) (if 0 <? d_bits d then k + 1 else k) cc Hf' HM') as [cc' [E' [C' [U' W']]]].
      { destruct (0 <? d_bits d); cbn [length] in Hn; lia. } { exact Hcc. } { exact Hun. }
      exists cc'. rewrite E'. split; [f_equal; f_equal; lia|]. split; [exact C'|]. split; [exact U'|]. lia.
Qed.

Lemma find_bucket_in : forall cc k b, find_bucket cc k = Some b -> In (k, b) cc.
Proof.
  induction cc as [|[k0 b0] cc IH]; intros k b H; cbn [find_bucket] in H; [discriminate|].
  destruct (N.eqb_spec k0 k) as [->|]; [injection H as ->; left; reflexivity|right; apply IH; exact H].
Qed.

Lemma set_bucket_shape : forall cc k b b', find_bucket cc k = Some b -> b_maxlen b' = b_maxlen b -> b_codes b' = b_codes b ->
  Forall2 same_shape (set_bucket cc k b') cc /\ (forall x, In x (set_bucket cc k b') -> x = (k, b') \/ In x cc).
Proof.
  induction cc as [|[k0 b0] cc IH]; intros k b b' H H1 H2; cbn [find_bucket set_bucket] in *; [discriminate|].
  destruct (N.eqb_spec k0 k) as [->|Hne].
  - injection H as ->. split.
    + constructor; [split; [reflexivity|split; assumption]|]. clear. induction cc; constructor; auto. split; [reflexivity|split; reflexivity].
    + intros x [<-|Hx]; [left; reflexivity|right; right; exact Hx].
  - destruct (IH k b b' H H1 H2) as [A B]. split.
    + constructor; [split; [reflexivity|split; reflexivity]|exact A].
    + intros x [<-|Hx]; [right; left; reflexivity|]. destruct (B x Hx) as [->|Hx']; [left; reflexivity|right; right; exact Hx'].
Qed.

Lemma same_trans : forall a b c, Forall2 same_shape a b -> Forall2 same_shape b c -> Forall2 same_shape a c.
Proof.
  intros a b c H. revert c. induction H as [|x y l l' [H1 [H2 H3]] H IH]; intros c Hc; inversion Hc as [|y' z l1 l2 [G1 [G2 G3]] G]; subst; [constructor|].
  constructor; [|apply IH; exact G]. split; [congruence|]. split; congruence.
Qed.

Lemma same_refl : forall a, Forall2 same_shape a a.
Proof. induction a; constructor; auto. split; [reflexivity|split; reflexivity]. Qed.

Lemma new_pass2_loose : forall (S : Type) m n M (ds : list (desc S)) t k cc, codes_fit m ds ->
  (forall d, In d ds -> d_bits d <= M) -> k + nused ds <= n -> (N.of_nat (k + nused ds) < 2 ^ 32)%N ->
  Forall (cok m n M) cc -> Forall (fun x => fits t (snd x)) cc -> N.to_nat (pow2 (Nat.min M 10)) <= length t ->
  exists t' cc', new_pass2 t m (Nat.min M 10) ds (N.of_nat k) cc = Ret (t', cc') /\
    length t <= length t' <= length t + 1024 * longs ds /\ Forall2 same_shape cc' cc /\
    Forall (fun x => fits t' (snd x)) cc' /\
    (small n -> small (length t') -> forall lab, wf n t lab -> (forall q, q < N.to_nat (pow2 (Nat.min M 10)) -> M <= lab q) ->
     Forall (fun x => roomy lab (snd x)) cc ->
     exists lab', agree (length t) lab lab' /\ wf n t' lab' /\ Forall (fun x => roomy lab' (snd x)) cc').
Proof.
  intros S m n M. unfold nused, longs. induction ds as [|d ds IH]; intros t k cc Hf HM Hn H32 Hcc Hfit Ht; cbn [new_pass2].
  - exists t, cc. split; [reflexivity|]. split; [cbn; lia|]. split; [apply same_refl|]. split; [exact Hfit|].
    intros _ _ lab Hw _ Hr. exists lab. split; [apply agree_refl|]. split; assumption.
  - assert (Hf' : codes_fit m ds) by (intros d' Hin; apply Hf; right; exact Hin).
    assert (HM' : forall d, In d ds -> d_bits d <= M) by (intros d' Hin; apply HM; right; exact Hin).
    pose proof (HM d (or_introl eq_refl)) as HdM.
    cbn [filter length] in *. change MAX_LUT_BITS with 10.
    destruct (Nat.eqb_spec (d_bits d) 0) as [E0|E0].
    { destruct (Nat.ltb_spec 0 (d_bits d)); [lia|]. destruct (Nat.ltb_spec 10 (d_bits d)); [lia|].
      apply IH; assumption. }
    destruct (Nat.ltb_spec 0 (d_bits d)); [|lia]. cbn [length] in *.
    destruct (Hf d (or_introl eq_refl)) as [F1 [F2 _]]; [unfold used; lia|].
    assert (Hadd : add32 (N.of_nat k) 1 = Ret (N.of_nat (k + 1))).
    { rewrite add32_small; [f_equal; lia|]. change (pow2 32) with (2 ^ 32)%N. lia. }
    (* the rest of the description, once this entry has been dealt with *)
    assert (Next : forall t1 cc1, length t <= length t1 <= length t + (if 10 <? d_bits d then 1024 else 0) ->
      Forall2 same_shape cc1 cc -> Forall (fun x => fits t1 (snd x)) cc1 ->
      (small n -> small (length t1) -> forall lab, wf n t lab -> (forall q, q < N.to_nat (pow2 (Nat.min M 10)) -> M <= lab q) ->
       Forall (fun x => roomy lab (snd x)) cc ->
       exists lab', agree (length t) lab lab' /\ wf n t1 lab' /\ Forall (fun x => roomy lab' (snd x)) cc1) ->
      exists t' cc', (let! symidx' := add32 (N.of_nat k) 1 in new_pass2 t1 m (Nat.min M 10) ds symidx' cc1) = Ret (t', cc') /\
        length t <= length t' <= length t + 1024 * length (if 10 <? d_bits d then d :: filter (fun d => 10 <? d_bits d) ds else filter (fun d => 10 <? d_bits d) ds) /\
        Forall2 same_shape cc' cc /\
        Forall (fun x => fits t' (snd x)) cc' /\
        (small n -> small (length t') -> forall lab, wf n t lab -> (forall q, q < N.to_nat (pow2 (Nat.min M 10)) -> M <= lab q) ->
         Forall (fun x => roomy lab (snd x)) cc ->
         exists lab', agree (length t) lab lab' /\ wf n t' lab' /\ Forall (fun x => roomy lab' (snd x)) cc')).
    { intros t1 cc1 L1 S1 Fit1 K1. rewrite Hadd. cbn [obind].
      destruct (IH t1 (k + 1) cc1 Hf' HM' ltac:(lia) ltac:(lia) (Forall2_same_cok _ _ _ _ _ S1 Hcc) Fit1 ltac:(lia))
        as [t' [cc' [E [L' [S' [Fit' K']]]]]].
      exists t', cc'. split; [exact E|]. split; [destruct (10 <? d_bits d); cbn [length]; lia|].
      split; [eapply same_trans; eassumption|]. split; [exact Fit'|].
      intros Hsn Hsl lab Hw HL Hr.
      destruct (K1 Hsn ltac:(apply (small_le _ (length t')); [lia|exact Hsl]) lab Hw HL Hr) as [lab1 [A1 [W1 R1]]].
      destruct (K' Hsn Hsl lab1 W1) as [lab2 [A2 [W2 R2]]].
      { intros q Hq. rewrite A1 by lia. apply HL. exact Hq. } { exact R1. }
      exists lab2. split; [apply (agree_trans (length t) (length t1) lab lab1 lab2); [lia|assumption|assumption]|].
      split; assumption. }
    destruct (Nat.leb_spec (d_bits d) 10) as [Hle|Hgt].
    + destruct (fill_loose m t 0 (d_code d) (d_bits d) (Nat.min M 10) (N.of_nat k) ltac:(lia) ltac:(lia) F2 Ht)
        as [t1 [E [L1 Q1]]]. rewrite E. cbn [obind].
      apply Next; [destruct (10 <? d_bits d); lia|apply same_refl| |].
      * eapply Forall_impl; [|exact Hfit]. unfold fits. intros a. cbn beta. lia.
      * intros Hsn _ lab Hw HL Hr. exists lab. split; [apply agree_refl|]. split; [|exact Hr].
        apply (wf_fill n t t1 lab k (d_bits d) Hw L1); [lia|lia|].
        intros q. destruct (Q1 q) as [F|[F Hq]]; [left; exact F|]. right. split; [exact F|]. specialize (HL q ltac:(lia)). lia.
    + rewrite (extract_lut_spec m (d_code d) (d_bits d) ltac:(lia) F2). cbn [obind].
      set (key := value (reader_for m) _).
      assert (Hkey : (key < 1024)%N).
      { unfold key. pose proof (value_bound (reader_for m) (firstn 10 (codeword m (d_code d) (d_bits d)))) as Hv.
        rewrite firstn_length_le in Hv by (rewrite codeword_length; lia). exact Hv. }
      assert (Hmin : Nat.min M 10 = 10) by lia.
      assert (Ht1024 : 1024 <= length t) by (rewrite Hmin in Ht; exact Ht).
      destruct (nth_error t (N.to_nat key)) as [x|] eqn:Ex; [|apply nth_error_None in Ex; lia].
      rewrite (index_nth _ _ _ _ Ex). cbn [obind].
      assert (Same : exists t' cc', (let! symidx' := add32 (N.of_nat k) 1 in new_pass2 t m (Nat.min M 10) ds symidx' cc) = Ret (t', cc') /\
        length t <= length t' <= length t + 1024 * length (if 10 <? d_bits d then d :: filter (fun d => 10 <? d_bits d) ds else filter (fun d => 10 <? d_bits d) ds) /\
        Forall2 same_shape cc' cc /\
        Forall (fun x => fits t' (snd x)) cc' /\
        (small n -> small (length t') -> forall lab, wf n t lab -> (forall q, q < N.to_nat (pow2 (Nat.min M 10)) -> M <= lab q) ->
         Forall (fun x => roomy lab (snd x)) cc ->
         exists lab', agree (length t) lab lab' /\ wf n t' lab' /\ Forall (fun x => roomy lab' (snd x)) cc')).
      { apply Next; [destruct (10 <? d_bits d); lia|apply same_refl|exact Hfit|].
        intros _ _ lab Hw HL Hr. exists lab. split; [apply agree_refl|]. split; assumption. }
      destruct (x =? TABLE_FILL_VALUE)%N; [|exact Same].
      destruct (find_bucket cc key) as [b|] eqn:Eb; [|exact Same].
      destruct (alloc_loose m t 0 key b Hkey ltac:(lia)) as [t1 [b' [E [L1 [Hm [Hc [Hfb Hlab]]]]]]]. rewrite E. cbn [obind].
      destruct (set_bucket_shape cc key b b' Eb Hm Hc) as [S1 In1].
      pose proof (bsize_le b) as Hbs.
      assert (Hb : cok m n M (key, b)) by (rewrite Forall_forall in Hcc; apply Hcc; apply find_bucket_in; exact Eb).
      destruct Hb as [_ [[Hb1 _] Hb2]]. cbn [snd] in *.
      apply Next; [destruct (Nat.ltb_spec 10 (d_bits d)); lia|exact S1| |].
      * apply Forall_forall. intros y Hy. destruct (In1 y Hy) as [->|Hy']; [exact Hfb|].
        rewrite Forall_forall in Hfit. specialize (Hfit y Hy'). unfold fits in *. lia.
      * intros Hsn Hsl lab Hw HL Hr.
        destruct (Hlab Hsl n lab Hw Hb1) as [lab1 [A1 [W1 R1]]].
        { rewrite Hmin in HL. change (N.to_nat (pow2 10)) with 1024 in HL. specialize (HL (0 + N.to_nat key) ltac:(lia)). lia. }
        exists lab1. split; [exact A1|]. split; [exact W1|]. apply Forall_forall. intros y Hy.
        destruct (In1 y Hy) as [->|Hy']; [exact R1|].
        rewrite Forall_forall in Hr, Hfit. apply (roomy_agree (length t) lab); [apply Hfit; exact Hy'|exact A1|apply Hr; exact Hy'].
Qed.

Lemma repeat_nth : forall (A : Type) (a : A) n p x, nth_error (repeat a n) p = Some x -> x = a.
Proof. intros A a n p x H. apply nth_error_In in H. apply repeat_spec in H. exact H. Qed.

Lemma list_max_in : forall l x, In x l -> x <= list_max l.
Proof. intros l x H. pose proof (proj1 (list_max_le l (list_max l)) (le_n _)) as F. rewrite Forall_forall in F. apply F. exact H. Qed.

Lemma malformed_built : forall (S : Type) ord m (ds : list (desc S)), permuting ord -> codes_fit m ds ->
  (N.of_nat (nused ds) < 2 ^ 32)%N -> (exists d, In d ds /\ used d) ->
  exists cb, new_codebook ord ds m = Ret (Okay cb) /\ cb_syms cb = used_syms ds /\
    length (cb_table cb) <= 1024 * (1 + dw ds) /\ cb_lut_bits cb <= 10 /\
    N.to_nat (pow2 (cb_lut_bits cb)) <= length (cb_table cb) /\
    (small (nused ds) -> small (length (cb_table cb)) -> exists lab, wf (nused ds) (cb_table cb) lab /\
       forall q, q < N.to_nat (pow2 (cb_lut_bits cb)) -> lab q <= list_max (map d_bits ds) /\ lab q <= 255).
Proof.
  intros S ord m ds Hord Hf H32 [d0 [Hd0 Hu0]]. unfold new_codebook.
  set (M := list_max (map d_bits ds)).
  assert (HM : forall d, In d ds -> d_bits d <= M) by (intros d Hd; apply list_max_in; apply in_map; exact Hd).
  assert (HM255 : M <= 255).
  { unfold M. apply list_max_le. apply Forall_forall. intros x Hx. apply in_map_iff in Hx. destruct Hx as [d [<- Hd]].
    destruct (Nat.eq_dec (d_bits d) 0) as [->|Hne]; [lia|]. destruct (Hf d Hd) as [F _]; [unfold used; lia|].
    destruct m; cbn [longest] in F; lia. }
  destruct (new_pass1_loose S m (nused ds) M ds 0 0 [] Hf HM ltac:(lia) ltac:(constructor) ltac:(constructor))
    as [cc [E1 [C1 [U1 W1]]]].
  rewrite E1. cbn [obind Nat.max]. fold M.
  assert (HM0 : 1 <= M) by (unfold used in Hu0; specialize (HM d0 Hd0); lia).
  destruct (Nat.eqb_spec M 0); [lia|]. change MAX_LUT_BITS with 10.
  assert (Hmb : (if 10 <? M then 10 else M) = Nat.min M 10) by (destruct (Nat.ltb_spec 10 M); lia).
  rewrite Hmb. rewrite shl32_one by lia. cbn [obind].
  set (t0 := repeat TABLE_FILL_VALUE (N.to_nat (pow2 (Nat.min M 10)))).
  assert (L0 : length t0 = N.to_nat (pow2 (Nat.min M 10))) by apply repeat_length.
  assert (Hp : (pow2 (Nat.min M 10) <= pow2 10)%N) by (apply N.pow_le_mono_r; lia). change (pow2 10) with 1024%N in Hp.
  assert (Hun : forall x, In x cc -> b_offset (snd x) + bsize (snd x) <= N.to_nat (pow2 (Nat.min M 10)) /\ b_maxlen (snd x) + 10 <= M).
  { intros x Hx. rewrite Forall_forall in C1, U1. destruct (C1 x Hx) as [_ [[X1 _] X2]]. pose proof (U1 x Hx) as X3. unfold unplaced in X3.
    pose proof (bsize_le (snd x)). replace (Nat.min M 10) with 10 by lia. change (N.to_nat (pow2 10)) with 1024. lia. }
  destruct (new_pass2_loose S m (nused ds) M ds t0 0 cc Hf HM ltac:(lia) ltac:(cbn [plus]; exact H32) C1) as [t1 [cc1 [E2 [L1 [S1 [Fit1 K1]]]]]].
  { apply Forall_forall. intros x Hx. unfold fits. rewrite L0. apply Hun. exact Hx. } { lia. }
  change (N.of_nat 0) with 0%N in E2. rewrite E2. cbn [obind].
  pose proof (Forall2_same_cok _ _ _ _ _ S1 C1) as C2.
  destruct (build_all_loose m (nused ds) M (fun t key b => build_esc_lut 26 ord [key] t m b)
              (build_esc_loose m (nused ds) ord Hord 26 M (fun key => [key]) ltac:(lia)) (ord [] cc1) t1) as [t2 [E3 [L2 K2]]].
  { eapply Permutation_Forall; [apply Hord|]. rewrite Forall_forall in *. intros x Hx. destruct (C2 x Hx) as [_ [X1 X2]].
    split; [exact X1|]. split; [lia|apply Fit1; exact Hx]. }
  rewrite E3. cbn [obind]. eexists. split; [reflexivity|]. cbn [cb_syms cb_table cb_lut_bits].
  split; [reflexivity|].
  assert (Hcs : csum (ord [] cc1) = csum cc).
  { rewrite <- (Forall2_same_csum _ _ S1). unfold csum. apply list_sum_perm. apply Permutation_map. apply Permutation_sym. apply Hord. }
  rewrite Hcs in L2. change (csum []) with 0 in W1.
  split; [lia|]. split; [lia|]. split; [lia|].
  intros Hsn Hsl.
  destruct (K1 Hsn ltac:(apply (small_le _ (length t2)); [lia|exact Hsl]) (fun _ => M)) as [lab1 [A1 [W2 R1]]].
  { intros p x Hx. left. apply repeat_nth in Hx. exact Hx. }
  { intros q Hq. lia. }
  { apply Forall_forall. intros x Hx q Hq. destruct (Hun x Hx). lia. }
  destruct (K2 Hsn Hsl lab1 W2) as [lab2 [A2 W3]].
  { eapply Permutation_Forall; [apply Hord|exact R1]. }
  exists lab2. split; [exact W3|]. intros q Hq. rewrite A2 by lia. rewrite A1 by lia. split; [apply le_n|exact HM255].
Qed.

(** ** Reading *)

Lemma read_loop_loose : forall (S : Type) (cb : codebook S) e n lab, wf n (cb_table cb) lab -> small n -> small (length (cb_table cb)) ->
  n <= length (cb_syms cb) ->
  forall fuel off L r, L <= 10 -> off + N.to_nat (pow2 L) <= length (cb_table cb) ->
  (forall q, off <= q < off + N.to_nat (pow2 L) -> lab q + 10 <= 10 * fuel) -> winv r ->
  exists r' s, read_loop fuel e cb r (N.of_nat off) L = Ret (r', s) /\ wstep r r' /\
    (forall x, s = Okay x -> In x (cb_syms cb)) /\ (forall x, s = Error x -> x = InvalidCode).
Proof.
  intros S cb e n lab Hw Hn Ht Hs. induction fuel as [|fuel IH]; intros off L r HL Hoff Hlab Hr.
  - pose proof (pow2_pos L). specialize (Hlab off ltac:(lia)). lia.
  - cbn [read_loop].
    destruct (w_get_bits_32 e r L Hr ltac:(lia)) as [r0 [v [Eg _]]].
    assert (Ep : peek_bits_32 e r L = Ret (r, v)) by (unfold peek_bits_32; rewrite Eg; reflexivity).
    rewrite Ep. cbn [obind].
    pose proof (peek_bound e r L r v (winv_cbound r Hr) ltac:(lia) Ep) as Hv.
    set (p := N.to_nat (v + N.of_nat off)). assert (Hp : off <= p < off + N.to_nat (pow2 L)) by (unfold p; lia).
    destruct (nth_error (cb_table cb) p) as [x|] eqn:Ex; [|apply nth_error_None in Ex; lia].
    rewrite (index_nth _ _ _ _ Ex). cbn [obind].
    assert (Fail : exists r' s, @Ret (reader * result S codebook_error) (r, Error InvalidCode) = Ret (r', s) /\ wstep r r' /\
      (forall x, s = Okay x -> In x (cb_syms cb)) /\ (forall x, s = Error x -> x = InvalidCode)).
    { exists r, (Error InvalidCode). split; [reflexivity|]. split; [apply wstep_refl; exact Hr|].
      split; [discriminate|]. intros y Hy. injection Hy as <-. reflexivity. }
    destruct (Hw p x Ex) as [->|[[j [b [Hj [Hb [-> _]]]]]|[o [k [Hk [Ho [-> Hq]]]]]]].
    + rewrite N.eqb_refl. exact Fail.
    + destruct (lut_entry_fields (N.of_nat j) b) as [F1 [F2 [F3 F4]]]; [unfold small in Hn; lia|lia|].
      rewrite F1, F2, F3, F4. cbn [negb]. rewrite (w_available r Hr). cbn [obind].
      destruct (_ <? _)%N; [exact Fail|]. rewrite !Nnat.Nat2N.id.
      destruct (w_skip_small e r b Hr ltac:(lia)) as [r1 [E1 S1]]. rewrite E1. cbn [obind].
      destruct (nth_error (cb_syms cb) j) as [s|] eqn:Es; [|apply nth_error_None in Es; lia].
      rewrite (index_nth _ _ _ _ Es). cbn [obind]. exists r1, (Okay s). split; [reflexivity|]. split; [exact S1|].
      split; [|discriminate]. intros y Hy. injection Hy as <-. apply nth_error_In in Es. exact Es.
    + pose proof (pow2_pos k).
      destruct (esc_entry_fields (N.of_nat o) k) as [F1 [F2 [F3 F4]]]; [unfold small in Ht; lia|lia|].
      rewrite F1, F2, F3, F4. cbn [negb]. rewrite (w_available r Hr). cbn [obind].
      destruct (_ <? _)%N; [exact Fail|].
      destruct (w_skip_small e r L Hr ltac:(lia)) as [r1 [E1 S1]]. rewrite E1. cbn [obind]. rewrite Nnat.Nat2N.id.
      destruct (IH o k r1 ltac:(lia) Ho) as [r2 [s [E2 [S2 Hy]]]].
      * intros q Hqr. specialize (Hq q Hqr). specialize (Hlab p Hp). lia.
      * apply S1.
      * exists r2, s. split; [exact E2|]. split; [eapply wstep_trans; eassumption|exact Hy].
Qed.
