(** The bit reader on machine words does what the one on numbers does. *)
From Coq Require Import List Arith NArith ZArith Bool Lia.
From Coq Require Import ZifyBool ZifyNat ZifyN.
From Verif Require Import Base ByteModel BitModel WordBitModel WordSpec.
Import ListNotations.
Local Open Scope N_scope.
Ltac Zify.zify_post_hook ::= Z.div_mod_to_equations.

Definition omap {A B : Type} (f : A -> B) (m : outcome A) : outcome B :=
  match m with Ret a => Ret (f a) | Panic => Panic | UB => UB end.
Definition wr1 {A : Type} (p : reader * A) : wreader * A := (word_reader (fst p), snd p).

Lemma W64_eq : W64 = 18446744073709551616. Proof. reflexivity. Qed.
Lemma W32_eq : W32 = 4294967296. Proof. reflexivity. Qed.

Lemma uadd_ok a b : a + b < W64 -> uadd a b = Ret (a + b).
Proof. intros H. unfold uadd. destruct (N.ltb_spec (a + b) W64); [reflexivity|lia]. Qed.
Lemma umul_ok a b : a * b < W64 -> umul a b = Ret (a * b).
Proof. intros H. unfold umul. destruct (N.ltb_spec (a * b) W64); [reflexivity|lia]. Qed.
Lemma usub_csub a b : usub (N.of_nat a) (N.of_nat b) = omap N.of_nat (csub a b).
Proof.
  unfold usub, csub. destruct (N.leb_spec (N.of_nat b) (N.of_nat a)); destruct (Nat.leb_spec b a); try lia; [|reflexivity].
  cbn [omap]. f_equal. lia.
Qed.
Lemma ushl_shl64 a n : ushl a (N.of_nat n) = shl64 a n.
Proof. unfold ushl, shl64. destruct (N.ltb_spec (N.of_nat n) 64); destruct (Nat.ltb_spec n 64); try lia; reflexivity. Qed.

Lemma peek_word e r n : w_peek_val e (word_reader r) (N.of_nat n) = peek_val e r n.
Proof. reflexivity. Qed.
Lemma rem_word e r n : w_skip_rem e (word_reader r) (N.of_nat n) = word_reader (skip_rem e r n).
Proof. destruct e; unfold w_skip_rem, skip_rem, word_reader; cbn [w_left w_buffer w_index w_cache buffer index cache left]; f_equal; lia. Qed.
Lemma val_word e r n : w_get_val e (word_reader r) (N.of_nat n) = omap wr1 (get_val e r n).
Proof. unfold w_get_val, get_val. rewrite peek_word. destruct (peek_val e r n); cbn [obind omap]; [|reflexivity..]. rewrite rem_word. reflexivity. Qed.
Lemma merge_word e a b m l : w_merge_val e a b (N.of_nat m) (N.of_nat l) = merge_val e a b m l.
Proof. destruct e; cbn [w_merge_val merge_val]; [rewrite ushl_shl64|]; reflexivity. Qed.
Lemma cache_word e c v l : w_build_cache e c v (N.of_nat l) = build_cache e c v l.
Proof.
  destruct e; cbn [w_build_cache build_cache]; [rewrite ushl_shl64; reflexivity|].
  change 32 with (N.of_nat 32) at 1. rewrite usub_csub. destruct (csub 32 l) as [d| |]; cbn [omap obind]; [|reflexivity..].
  rewrite ushl_shl64. reflexivity.
Qed.

(** The index leaves room for everything that is done to it. *)
Definition safe (r : reader) : Prop := N.of_nat (index r) + 64 < W64 /\ (left r <= 95)%nat.

Lemma can_word r : safe r -> w_can_refill (word_reader r) = Ret (can_refill r).
Proof.
  intros [H _]. unfold w_can_refill, can_refill, w_len. cbn [w_index w_buffer word_reader].
  rewrite uadd_ok by lia. cbn [obind]. f_equal.
  destruct (N.leb_spec (N.of_nat (index r) + 8) (N.of_nat (length (buffer r)))); destruct (Nat.leb_spec (index r + 8) (length (buffer r))); lia.
Qed.
Lemma rest_word r : w_rest (word_reader r) = slice (buffer r) (index r) (length (buffer r)).
Proof.
  unfold w_rest, slice, w_len. cbn [w_index w_buffer word_reader]. rewrite Nat.leb_refl, andb_true_r, Nat2N.id.
  destruct (N.leb_spec (N.of_nat (index r)) (N.of_nat (length (buffer r)))); destruct (Nat.leb_spec (index r) (length (buffer r))); try lia; [|reflexivity].
  rewrite firstn_all2; [reflexivity|]. rewrite skipn_length. lia.
Qed.
Lemma fill32_word e r : w_fill32 e (word_reader r) = fill32 e r.
Proof. unfold w_fill32, fill32. rewrite rest_word. reflexivity. Qed.
Lemma fill64_word e r : w_fill64 e (word_reader r) = fill64 e r.
Proof. unfold w_fill64, fill64. rewrite rest_word. reflexivity. Qed.

Lemma refill64_word e r : safe r -> w_refill64 e (word_reader r) = omap word_reader (refill64 e r).
Proof.
  intros H. unfold w_refill64, refill64. rewrite can_word by exact H. cbn [obind].
  destruct (can_refill r); cbn [negb]; [|reflexivity]. rewrite fill64_word. destruct (fill64 e r); cbn [obind omap]; [|reflexivity..].
  destruct H as [H _]. cbn [w_index w_buffer word_reader]. rewrite uadd_ok by lia. cbn [obind]. unfold word_reader.
  cbn [buffer index cache left]. do 2 f_equal; lia.
Qed.
Lemma build_bound e c v l c' : build_cache e c v l = Ret c' -> (l < 64)%nat.
Proof.
  destruct e; cbn [build_cache]; unfold shl64, csub.
  - destruct (Nat.ltb_spec l 64); [intros _; exact H|discriminate].
  - destruct (Nat.leb_spec l 32); [intros _; lia|discriminate].
Qed.
Lemma refill32_word e r : safe r -> w_refill32 e (word_reader r) = omap word_reader (refill32 e r).
Proof.
  intros H. unfold w_refill32, refill32. rewrite can_word by exact H. cbn [obind].
  destruct (can_refill r); cbn [negb]; [|reflexivity]. rewrite fill32_word. destruct (fill32 e r); cbn [obind omap]; [|reflexivity..].
  cbn [w_index w_buffer w_cache w_left word_reader]. rewrite cache_word. destruct (build_cache e (cache r) a (left r)) eqn:E; cbn [obind omap]; [|reflexivity..].
  apply build_bound in E. destruct H as [H _]. rewrite uadd_ok by lia. cbn [obind]. rewrite uadd_ok by (rewrite W64_eq; lia). cbn [obind].
  unfold word_reader. cbn [buffer index cache left]. do 2 f_equal; lia.
Qed.

(** What the functions do to the index: it goes at most [k] beyond where it was, or beyond
    the end. *)
Definition within (r r' : reader) (k : nat) : Prop :=
  buffer r' = buffer r /\ (left r' <= 95)%nat /\ (left r' <= 8 * index r')%nat /\
  (index r' <= Nat.max (index r) (length (buffer r)) + k)%nat.
Definition fine (r : reader) : Prop := (left r <= 95)%nat /\ (left r <= 8 * index r)%nat.

Lemma within_trans r1 r2 r3 a b : within r1 r2 a -> within r2 r3 b -> within r1 r3 (a + b).
Proof. intros [A1 [A2 [A3 A4]]] [B1 [B2 [B3 B4]]]. rewrite A1 in *. unfold within. split; [congruence|]. split; [exact B2|]. split; [exact B3|]. lia. Qed.
Lemma within_fine r r' k : within r r' k -> fine r'.
Proof. intros [_ [H [H' _]]]. split; assumption. Qed.
Lemma within_refl r : fine r -> within r r 0.
Proof. intros [A B]. unfold within. split; [reflexivity|]. split; [exact A|]. split; [exact B|]. lia. Qed.
Lemma within_step r1 r2 r3 : within r1 r2 0 -> within r2 r3 0 -> within r1 r3 0.
Proof. exact (within_trans r1 r2 r3 0 0). Qed.

Lemma rem_within e r n : fine r -> within r (skip_rem e r n) 0.
Proof. intros [A B]. destruct e; unfold within; cbn [skip_rem buffer index left]; (split; [reflexivity|]; split; [lia|]; split; lia). Qed.
Lemma val_within e r n r' v : fine r -> get_val e r n = Ret (r', v) -> within r r' 0.
Proof.
  intros H. unfold get_val. destruct (peek_val e r n); cbn [obind]; intros E; try discriminate.
  injection E as <- _. apply rem_within. exact H.
Qed.
Lemma refill64_within e r r' : fine r -> refill64 e r = Ret r' -> within r r' 0.
Proof.
  intros H. unfold refill64, can_refill. destruct (Nat.leb_spec (index r + 8) (length (buffer r))); cbn [negb].
  - destruct (fill64 e r); cbn [obind]; intros E; try discriminate. injection E as <-.
    unfold within; cbn [buffer index left]. split; [reflexivity|]. split; [lia|]. split; lia.
  - intros E. injection E as <-. apply within_refl. exact H.
Qed.
Lemma refill32_within e r r' : fine r -> refill32 e r = Ret r' -> within r r' 0.
Proof.
  intros H. unfold refill32, can_refill. destruct (Nat.leb_spec (index r + 8) (length (buffer r))); cbn [negb].
  - destruct (fill32 e r); cbn [obind]; intros E; try discriminate.
    destruct (build_cache e (cache r) a (left r)) eqn:B; cbn [obind] in E; try discriminate. apply build_bound in B. injection E as <-.
    destruct H as [H1 H2]. unfold within; cbn [buffer index left]. split; [reflexivity|]. split; [lia|]. split; lia.
  - intros E. injection E as <-. apply within_refl. exact H.
Qed.
Lemma safe_within r r' k : within r r' k -> N.of_nat (Nat.max (index r) (length (buffer r)) + k) + 64 < W64 -> safe r'.
Proof. intros [_ [H [_ H']]] B. split; [lia|exact H]. Qed.

Lemma obind_omap {A B C : Type} (f : A -> B) (m : outcome A) (k : B -> outcome C) : obind (omap f m) k = obind m (fun a => k (f a)).
Proof. destruct m; reflexivity. Qed.
Lemma obind_ext {A B : Type} (m : outcome A) (k k' : A -> outcome B) : (forall a, m = Ret a -> k a = k' a) -> obind m k = obind m k'.
Proof. destruct m; intros H; cbn [obind]; [apply H; reflexivity|reflexivity..]. Qed.
Lemma omap_obind {A B C : Type} (f : B -> C) (m : outcome A) (k : A -> outcome B) : omap f (obind m k) = obind m (fun a => omap f (k a)).
Proof. destruct m; reflexivity. Qed.

Lemma ltb_word a b : (N.of_nat a <? N.of_nat b) = (a <? b)%nat.
Proof. destruct (N.ltb_spec (N.of_nat a) (N.of_nat b)); destruct (Nat.ltb_spec a b); lia. Qed.
Lemma leb_word a b : (N.of_nat a <=? N.of_nat b) = (a <=? b)%nat.
Proof. destruct (N.leb_spec (N.of_nat a) (N.of_nat b)); destruct (Nat.leb_spec a b); lia. Qed.
Lemma eqb0_word a : (N.of_nat a =? 0) = (a =? 0)%nat.
Proof. destruct (N.eqb_spec (N.of_nat a) 0); destruct (Nat.eqb_spec a 0); lia. Qed.
Lemma usub_word a b : (b <= a)%nat -> usub (N.of_nat a) (N.of_nat b) = Ret (N.of_nat (a - b)).
Proof. intros H. rewrite usub_csub. unfold csub. destruct (Nat.leb_spec b a); [reflexivity|lia]. Qed.

Definition roomy (r : reader) (k : nat) : Prop := N.of_nat (Nat.max (index r) (length (buffer r)) + k) + 64 < W64.

Lemma roomy_safe r : fine r -> roomy r 0 -> safe r.
Proof. intros H R. apply (safe_within r r 0 (within_refl r H)). exact R. Qed.
Lemma roomy_within r r' k j : within r r' k -> roomy r (k + j) -> roomy r' j.
Proof. intros [A [_ [_ B]]]. unfold roomy. rewrite A. lia. Qed.

Lemma get_bit_word e r : fine r -> roomy r 0 -> w_get_bit e (word_reader r) = omap wr1 (get_bit e r).
Proof.
  intros F R. unfold w_get_bit, get_bit. cbn [w_left word_reader]. rewrite eqb0_word. rewrite omap_obind.
  replace (if (left r =? 0)%nat then w_refill64 e (word_reader r) else Ret (word_reader r))
    with (omap word_reader (if (left r =? 0)%nat then refill64 e r else Ret r))
    by (destruct (left r =? 0)%nat; [symmetry; apply refill64_word; apply roomy_safe; assumption|reflexivity]).
  rewrite obind_omap. apply obind_ext. intros r1 _. change 1 with (N.of_nat 1) at 1. rewrite val_word, obind_omap, omap_obind.
  apply obind_ext. intros [r2 v] _. reflexivity.
Qed.
Lemma get_bit_within e r r' b : fine r -> get_bit e r = Ret (r', b) -> within r r' 0.
Proof.
  intros F. unfold get_bit. destruct (if (left r =? 0)%nat then refill64 e r else Ret r) as [r1| |] eqn:E1; cbn [obind]; try discriminate.
  assert (within r r1 0) as W1.
  { destruct (left r =? 0)%nat; [apply (refill64_within e); assumption|]. injection E1 as <-. apply within_refl. exact F. }
  destruct (get_val e r1 1) as [[r2 v]| |] eqn:E2; cbn [obind]; intros E; try discriminate. injection E as <- _.
  apply (within_step r r1 r2 W1). apply (val_within e r1 1 r2 v); [exact (within_fine _ _ _ W1)|exact E2].
Qed.

Lemma get32_word e r n : fine r -> roomy r 0 -> w_get_bits_32 e (word_reader r) (N.of_nat n) = omap wr1 (get_bits_32 e r n).
Proof.
  intros F R. unfold w_get_bits_32, get_bits_32. cbn [w_left word_reader]. rewrite eqb0_word, leb_word.
  destruct (n =? 0)%nat; [reflexivity|]. rewrite omap_obind.
  replace (if (left r <=? n)%nat then w_refill32 e (word_reader r) else Ret (word_reader r))
    with (omap word_reader (if (left r <=? n)%nat then refill32 e r else Ret r))
    by (destruct (left r <=? n)%nat; [symmetry; apply refill32_word; apply roomy_safe; assumption|reflexivity]).
  rewrite obind_omap. apply obind_ext. intros r1 _. rewrite val_word, obind_omap, omap_obind. apply obind_ext. intros [r2 v] _. reflexivity.
Qed.
Lemma get32_within e r n r' v : fine r -> get_bits_32 e r n = Ret (r', v) -> within r r' 0.
Proof.
  intros F. unfold get_bits_32. destruct (n =? 0)%nat; [intros E; injection E as <- _; apply within_refl; exact F|].
  destruct (if (left r <=? n)%nat then refill32 e r else Ret r) as [r1| |] eqn:E1; cbn [obind]; try discriminate.
  assert (within r r1 0) as W1.
  { destruct (left r <=? n)%nat; [apply (refill32_within e); assumption|]. injection E1 as <-. apply within_refl. exact F. }
  destruct (get_val e r1 n) as [[r2 x]| |] eqn:E2; cbn [obind]; intros E; try discriminate. injection E as <- _.
  apply (within_step r r1 r2 W1). apply (val_within e r1 n r2 x); [exact (within_fine _ _ _ W1)|exact E2].
Qed.

Lemma get64_word e r n : fine r -> roomy r 0 -> w_get_bits_64 e (word_reader r) (N.of_nat n) = omap wr1 (get_bits_64 e r n).
Proof.
  intros F R. unfold w_get_bits_64, get_bits_64. cbn [w_left word_reader]. rewrite eqb0_word, ltb_word.
  destruct (n =? 0)%nat; [reflexivity|]. destruct (Nat.ltb_spec (left r) n) as [L|L].
  - rewrite usub_word by lia. cbn [obind]. fold (word_reader r). rewrite val_word, obind_omap, omap_obind. apply obind_ext. intros [r1 ret] E1.
    cbn [wr1 fst snd]. assert (within r r1 0) as W1 by (apply (val_within e r (left r) r1 ret); assumption).
    rewrite refill64_word by (apply roomy_safe; [exact (within_fine _ _ _ W1)|apply (roomy_within r r1 0 0 W1 R)]).
    rewrite obind_omap, omap_obind. apply obind_ext. intros r2 E2. rewrite val_word, obind_omap, omap_obind. apply obind_ext. intros [r3 v] E3.
    cbn [wr1 fst snd]. rewrite merge_word, omap_obind. reflexivity.
  - fold (word_reader r). rewrite val_word, obind_omap, omap_obind. apply obind_ext. intros [r1 v] _. cbn [wr1 fst snd].
    change 0 with (N.of_nat 0) at 2. rewrite merge_word, omap_obind. reflexivity.
Qed.
Lemma get64_within e r n r' v : fine r -> get_bits_64 e r n = Ret (r', v) -> within r r' 0.
Proof.
  intros F. unfold get_bits_64. destruct (n =? 0)%nat; [intros E; injection E as <- _; apply within_refl; exact F|].
  destruct (left r <? n)%nat.
  - destruct (get_val e r (left r)) as [[r1 a]| |] eqn:E1; cbn [obind]; try discriminate.
    pose proof (val_within e r (left r) r1 a F E1) as W1.
    destruct (refill64 e r1) as [r2| |] eqn:E2; cbn [obind]; try discriminate.
    pose proof (refill64_within e r1 r2 (within_fine _ _ _ W1) E2) as W2.
    destruct (get_val e r2 (n - left r)) as [[r3 b]| |] eqn:E3; cbn [obind]; try discriminate.
    pose proof (val_within e r2 _ r3 b (within_fine _ _ _ W2) E3) as W3.
    destruct (merge_val e b a (left r) (n - left r)) as [m| |]; cbn [obind]; try discriminate.
    intros E. injection E as <- _. apply (within_step r r1 r3 W1). apply (within_step r1 r2 r3 W2 W3).
  - destruct (get_val e r n) as [[r1 a]| |] eqn:E1; cbn [obind]; try discriminate.
    destruct (merge_val e a 0 0 n) as [m| |]; cbn [obind]; try discriminate. intros E. injection E as <- _.
    apply (val_within e r n r1 a F E1).
Qed.

Lemma skip_word e r n : fine r -> roomy r (n / 8) -> N.of_nat n < W64 -> w_skip_bits e (word_reader r) (N.of_nat n) = omap word_reader (skip_bits e r n).
Proof.
  intros F R B. unfold w_skip_bits, skip_bits. cbn [w_left word_reader]. rewrite ltb_word. destruct (Nat.ltb_spec (left r) n) as [L|L].
  - rewrite usub_word by lia. cbn [obind]. change 64 with (N.of_nat 64) at 1. rewrite ltb_word.
    assert (forall r1 n2, fine r1 -> roomy r1 0 ->
      (let r2 := w_skip_rem e (word_reader r1) (N.of_nat n2) in let! r3 := w_refill64 e r2 in Ret (w_skip_rem e r3 (N.of_nat n2))) =
      omap word_reader (let r2 := skip_rem e r1 n2 in let! r3 := refill64 e r2 in Ret (skip_rem e r3 n2))) as A.
    { intros r1 n2 F1 R1. cbv zeta. rewrite rem_word. pose proof (rem_within e r1 n2 F1) as W.
      rewrite refill64_word by (apply roomy_safe; [exact (within_fine _ _ _ W)|apply (roomy_within r1 _ 0 0 W R1)]).
      rewrite obind_omap, omap_obind. apply obind_ext. intros r3 _. rewrite rem_word. reflexivity. }
    destruct (Nat.ltb_spec 64 (n - left r)) as [L2|L2].
    + cbv zeta. set (k := ((n - left r) / 8)%nat).
      assert (N.of_nat (n - left r) / 8 = N.of_nat k) as -> by (unfold k; lia).
      assert ((k * 8 <= n - left r)%nat) as K1 by (unfold k; lia).
      assert (k <= n / 8)%nat as K2 by (unfold k; apply Nat.div_le_mono; lia).
      assert (N.of_nat k * 8 < W64) as K3 by (clearbody k; clear - K1 B; rewrite W64_eq in *; lia).
      rewrite umul_ok by exact K3. cbn [obind]. replace (N.of_nat k * 8) with (N.of_nat (k * 8)) by lia.
      rewrite usub_word by lia. cbn [obind]. cbn [w_index]. unfold roomy in R.
      clearbody k. set (q := (n / 8)%nat) in *. clearbody q.
      assert (N.of_nat (index r) + N.of_nat k < W64) as K4 by (clear - R K2; lia).
      change (w_index (word_reader r)) with (N.of_nat (index r)). rewrite uadd_ok by exact K4. cbn [obind].
      change (w_buffer (word_reader r)) with (buffer r). change (w_cache (word_reader r)) with (cache r).
      replace (mk_wreader (buffer r) (N.of_nat (index r) + N.of_nat k) (cache r) (N.of_nat (left r)))
        with (word_reader (mk_reader (buffer r) (index r + k) (cache r) (left r))) by (unfold word_reader; cbn; f_equal; lia).
      refine (eq_trans (A (mk_reader (buffer r) (index r + k) (cache r) (left r)) (n - left r - k * 8)%nat _ _) eq_refl).
      * destruct F as [F1 F2]. split; cbn [left index]; lia.
      * unfold roomy. cbn [index buffer]. lia.
    + refine (eq_trans (A r (n - left r)%nat F _) eq_refl). unfold roomy in *. lia.
  - fold (word_reader r). rewrite rem_word. reflexivity.
Qed.
Lemma skip_within e r n r' : fine r -> skip_bits e r n = Ret r' -> within r r' (n / 8).
Proof.
  intros F. unfold skip_bits. destruct (Nat.ltb_spec (left r) n) as [L|L].
  - assert (forall r1 n2, fine r1 -> (let r2 := skip_rem e r1 n2 in let! r3 := refill64 e r2 in Ret (skip_rem e r3 n2)) = Ret r' -> within r1 r' 0) as A.
    { intros r1 n2 F1. cbv zeta. pose proof (rem_within e r1 n2 F1) as W1.
      destruct (refill64 e (skip_rem e r1 n2)) as [r3| |] eqn:E3; cbn [obind]; try discriminate. intros E. injection E as <-.
      pose proof (refill64_within e _ r3 (within_fine _ _ _ W1) E3) as W3.
      apply (within_step _ _ _ W1). apply (within_step _ _ _ W3). apply rem_within. exact (within_fine _ _ _ W3). }
    destruct (Nat.ltb_spec 64 (n - left r)) as [L2|L2].
    + intros E. apply A in E; [|destruct F as [F1 F2]; split; cbn [left index]; lia].
      destruct E as [E1 [E2 [E3 E4]]]. cbn [buffer index] in *. unfold within. split; [exact E1|]. split; [exact E2|]. split; [exact E3|].
      assert ((n - left r) / 8 <= n / 8)%nat by (apply Nat.div_le_mono; lia). lia.
    + intros E. apply A in E; [|exact F]. destruct E as [E1 [E2 [E3 E4]]]. unfold within. split; [exact E1|]. split; [exact E2|]. split; [exact E3|]. lia.
  - intros E. injection E as <-. destruct (rem_within e r n F) as [E1 [E2 [E3 E4]]]. unfold within. split; [exact E1|]. split; [exact E2|]. split; [exact E3|]. lia.
Qed.

Lemma align_word e r : w_align_bits e (word_reader r) = omap word_reader (align_bits e r).
Proof.
  unfold w_align_bits, align_bits. cbn [w_left word_reader]. change 7 with (N.ones 3). rewrite N.land_ones.
  replace (N.of_nat (left r) mod 2 ^ 3) with (N.of_nat (left r mod 8)) by (change (2 ^ 3) with 8; lia).
  unfold w_skip_bits, skip_bits. cbn [w_left word_reader]. rewrite ltb_word.
  destruct (Nat.ltb_spec (left r) (left r mod 8)) as [L|L]; [exfalso; lia|].
  fold (word_reader r). rewrite rem_word. reflexivity.
Qed.
Lemma align_within e r r' : fine r -> align_bits e r = Ret r' -> within r r' 0.
Proof.
  intros F. unfold align_bits, skip_bits. destruct (Nat.ltb_spec (left r) (left r mod 8)) as [L|L]; [exfalso; lia|].
  intros E. injection E as <-. apply rem_within. exact F.
Qed.

Definition op_skip (op : bit_op) : N := match op with OpSkip n => N.of_nat n | _ => 0 end.
Definition budget (r : reader) (s : N) : Prop := 8 * N.of_nat (Nat.max (index r) (length (buffer r))) + s < W64.

Lemma budget_roomy r s k : budget r s -> 8 * N.of_nat k <= s -> roomy r k.
Proof. unfold budget, roomy. rewrite W64_eq. lia. Qed.

Lemma op_word e r op : fine r -> budget r (op_skip op) -> w_run_op e (word_reader r) op = omap wr1 (run_op e r op).
Proof.
  intros F B. assert (roomy r 0) as R by (apply (budget_roomy r (op_skip op)); [exact B|lia]).
  assert (forall X Y (m : outcome X) (f : X -> Y), omap f m = obind m (fun x => Ret (f x))) as OM by (intros X Y m f; destruct m; reflexivity).
  destruct op as [|n|n| |n|n|n| | |]; cbn [w_run_op run_op op_skip] in *; rewrite omap_obind.
  - rewrite get_bit_word by assumption. rewrite obind_omap. apply obind_ext. intros [r1 v] _. reflexivity.
  - rewrite get32_word by assumption. rewrite obind_omap. apply obind_ext. intros [r1 v] _. reflexivity.
  - rewrite get64_word by assumption. rewrite obind_omap. apply obind_ext. intros [r1 v] _. reflexivity.
  - rewrite get_bit_word by assumption. rewrite obind_omap. unfold peek_bit. destruct (get_bit e r) as [[r1 v]| |]; reflexivity.
  - rewrite get32_word by assumption. rewrite obind_omap. unfold peek_bits_32. destruct (get_bits_32 e r n) as [[r1 v]| |]; reflexivity.
  - rewrite get64_word by assumption. rewrite obind_omap. unfold peek_bits_64. destruct (get_bits_64 e r n) as [[r1 v]| |]; reflexivity.
  - rewrite skip_word; [|exact F|apply (budget_roomy r (N.of_nat n) _ B); lia|unfold budget in B; lia].
    rewrite obind_omap. apply obind_ext. reflexivity.
  - rewrite align_word, obind_omap. apply obind_ext. reflexivity.
  - unfold w_consumed, consumed. cbn [w_index w_left word_reader]. unfold budget in B. rewrite umul_ok by lia. cbn [obind].
    replace (N.of_nat (index r) * 8) with (N.of_nat (index r * 8)) by lia. rewrite usub_csub, obind_omap. apply obind_ext. intros c _. unfold wr1. cbn [fst snd]. rewrite Nat2N.id. reflexivity.
  - unfold w_available, available, w_len. cbn [w_index w_left w_buffer word_reader]. rewrite usub_csub.
    destruct (csub (length (buffer r)) (index r)) as [d| |] eqn:E; cbn [omap obind]; [|reflexivity..].
    assert (d + index r = length (buffer r))%nat as D by (unfold csub in E; destruct (Nat.leb_spec (index r) (length (buffer r))); [injection E as <-; lia|discriminate]).
    destruct F as [F1 F2]. unfold budget in B. rewrite umul_ok by lia. cbn [obind]. rewrite uadd_ok by lia. cbn [obind]. unfold wr1. cbn [fst snd].
    do 3 f_equal. lia.
Qed.

Lemma op_within e r op r' o : fine r -> run_op e r op = Ret (r', o) -> within r r' (N.to_nat (op_skip op / 8)).
Proof.
  intros F. pose proof (within_refl r F) as W0.
  destruct op as [|n|n| |n|n|n| | |]; cbn [run_op op_skip]; change (N.to_nat (0 / 8)) with 0%nat.
  - destruct (get_bit e r) as [[r1 v]| |] eqn:E; cbn [obind]; intros X; try discriminate. injection X as <- _. exact (get_bit_within e r r1 v F E).
  - destruct (get_bits_32 e r n) as [[r1 v]| |] eqn:E; cbn [obind]; intros X; try discriminate. injection X as <- _. exact (get32_within e r n r1 v F E).
  - destruct (get_bits_64 e r n) as [[r1 v]| |] eqn:E; cbn [obind]; intros X; try discriminate. injection X as <- _. exact (get64_within e r n r1 v F E).
  - unfold peek_bit. destruct (get_bit e r) as [[r1 v]| |]; cbn [obind]; intros X; try discriminate. injection X as <- _. exact W0.
  - unfold peek_bits_32. destruct (get_bits_32 e r n) as [[r1 v]| |]; cbn [obind]; intros X; try discriminate. injection X as <- _. exact W0.
  - unfold peek_bits_64. destruct (get_bits_64 e r n) as [[r1 v]| |]; cbn [obind]; intros X; try discriminate. injection X as <- _. exact W0.
  - destruct (skip_bits e r n) as [r1| |] eqn:E; cbn [obind]; intros X; try discriminate. injection X as <- _.
    replace (N.to_nat (N.of_nat n / 8)) with (n / 8)%nat by lia. exact (skip_within e r n r1 F E).
  - destruct (align_bits e r) as [r1| |] eqn:E; cbn [obind]; intros X; try discriminate. injection X as <- _. exact (align_within e r r1 F E).
  - destruct (consumed r); cbn [obind]; intros X; try discriminate. injection X as <- _. exact W0.
  - destruct (available r); cbn [obind]; intros X; try discriminate. injection X as <- _. exact W0.
Qed.

Lemma total_cons op ops : total_skip (op :: ops) = op_skip op + total_skip ops.
Proof. destruct op; cbn [total_skip op_skip]; lia. Qed.

Lemma ops_word e : forall ops r, fine r -> budget r (total_skip ops) -> w_run_ops e (word_reader r) ops = omap wr1 (run_ops e r ops).
Proof.
  induction ops as [|op ops IH]; intros r F B; cbn [w_run_ops run_ops]; [reflexivity|].
  rewrite total_cons in B. rewrite op_word; [|exact F|unfold budget in *; lia]. rewrite obind_omap, omap_obind. apply obind_ext. intros [r1 o] E.
  unfold wr1 at 1. cbn [fst snd]. pose proof (op_within e r op r1 o F E) as W.
  rewrite IH; [|exact (within_fine _ _ _ W)|destruct W as [W1 [_ [_ W2]]]; unfold budget in *; rewrite W1 in *; lia].
  rewrite obind_omap, omap_obind. apply obind_ext. intros [r2 os] _. reflexivity.
Qed.

Lemma run_word e buf ops : 8 * N.of_nat (length buf) + total_skip ops < 2 ^ 64 ->
  w_run_from_new e buf ops = (let! (r, outs) := run_from_new e buf ops in Ret (word_reader r, outs)).
Proof.
  intros B. change (2 ^ 64) with W64 in B. set (r0 := mk_reader buf 0 0%N 0).
  assert (fine r0) as F0 by (split; cbn; lia). unfold w_run_from_new, run_from_new, w_new, new.
  change (mk_wreader buf 0 0 0) with (word_reader r0). fold r0.
  rewrite refill64_word; [|apply roomy_safe; [exact F0|apply (budget_roomy r0 (total_skip ops)); [unfold budget, r0; cbn [index buffer]; lia|lia]]].
  rewrite obind_omap. destruct (refill64 e r0) as [r| |] eqn:E; cbn [obind]; [|reflexivity..].
  pose proof (refill64_within e r0 r F0 E) as W.
  rewrite ops_word; [|exact (within_fine _ _ _ W)|].
  - destruct (run_ops e r ops) as [[r1 outs]| |]; reflexivity.
  - destruct W as [W1 [_ [_ W2]]]. unfold budget. rewrite W1 in *. unfold r0 in *. cbn [index buffer] in *. lia.
Qed.

(** ** Outside the bound *)

Lemma skip_nothing e r n : buffer r = [] -> left r = 0%nat ->
  exists r', skip_bits e r n = Ret r' /\ buffer r' = [] /\ left r' = 0%nat.
Proof.
  intros Hb Hl. unfold skip_bits. rewrite Hl, Nat.sub_0_r.
  assert (S : forall s m, buffer s = [] -> left s = 0%nat -> buffer (skip_rem e s m) = [] /\ left (skip_rem e s m) = 0%nat).
  { intros s m H1 H2. destruct e; cbn [skip_rem buffer left]; rewrite H2; split; try exact H1; apply Nat.sub_0_l. }
  destruct (0 <? n)%nat; [|eexists; split; [reflexivity|]; apply S; assumption].
  set (p := if (64 <? n)%nat then _ else _). assert (P : buffer (fst p) = [] /\ left (fst p) = 0%nat).
  { unfold p. destruct (64 <? n)%nat; cbn [fst buffer left]; split; assumption || reflexivity. }
  destruct p as [r1 n2]. cbn [fst] in P. destruct P as [P1 P2]. destruct (S r1 n2 P1 P2) as [Q1 Q2].
  unfold refill64, can_refill. rewrite Q1. cbn [length].
  destruct (Nat.leb_spec (index (skip_rem e r1 n2) + 8) 0); [lia|]. cbn [negb obind].
  eexists. split; [reflexivity|]. apply S; assumption.
Qed.

Lemma overflow_refuted : exists e buf ops r outs,
  Forall (fun op => match op with OpSkip n => N.of_nat n < 2 ^ 64 | _ => True end) ops /\
  run_from_new e buf ops = Ret (r, outs) /\ w_run_from_new e buf ops = Panic.
Proof.
  set (n := N.to_nat (2 ^ 64 - 1)). assert (En : N.of_nat n = 2 ^ 64 - 1) by apply N2Nat.id. clearbody n.
  assert (H : exists r outs, run_from_new BE [] [OpSkip n; OpSkip n; OpConsumed] = Ret (r, outs)).
  { unfold run_from_new, new. unfold refill64, can_refill. cbn [buffer index length Nat.add Nat.leb negb obind run_ops run_op].
    destruct (skip_nothing BE (mk_reader [] 0 0 0) n eq_refl eq_refl) as [r1 [E1 [B1 L1]]]. rewrite E1. cbn [obind].
    destruct (skip_nothing BE r1 n B1 L1) as [r2 [E2 [B2 L2]]]. rewrite E2. cbn [obind].
    unfold consumed. rewrite L2. unfold csub. cbn [Nat.leb obind]. eauto. }
  destruct H as [r [outs H]]. exists BE, [], [OpSkip n; OpSkip n; OpConsumed], r, outs. split; [|split; [exact H|]].
  - repeat constructor; rewrite En; reflexivity.
  - unfold w_run_from_new. cbn [w_run_ops w_run_op]. rewrite En. vm_compute. reflexivity.
Qed.
