(** The checked bit reader on any width of [usize] does what the one on numbers does. *)
From Coq Require Import List Arith NArith ZArith Bool Lia.
From Coq Require Import ZifyBool ZifyNat ZifyN.
From Verif Require Import Base ByteModel BitModel WordBitModel WordSpec WordBitProofs ReleaseModel MachineModel MachineBitModel MachineBitSpec.
Import ListNotations.
Local Open Scope N_scope.
Ltac Zify.zify_post_hook ::= Z.div_mod_to_equations.

Section Any.
Variable m : machine.
Hypothesis Hc : checked m = true.
Hypothesis Hb : 8 <= bits m.

Lemma modulus_256 : 256 <= modulus m.
Proof. unfold modulus. change 256 with (2 ^ 8). apply N.pow_le_mono_r; [discriminate|exact Hb]. Qed.
Lemma in_add a b : a + b < modulus m -> madd m a b = Ret (a + b).
Proof. intros H. unfold madd, ranged. destruct (N.ltb_spec (a + b) (modulus m)); [reflexivity|lia]. Qed.
Lemma in_mul a b : a * b < modulus m -> mmul m a b = Ret (a * b).
Proof. intros H. unfold mmul, ranged. destruct (N.ltb_spec (a * b) (modulus m)); [reflexivity|lia]. Qed.
Lemma shl_any a n : mb_shl m a (N.of_nat n) = shl64 a n.
Proof. unfold mb_shl. rewrite Hc. apply ushl_shl64. Qed.
Lemma peek_any e r n : mb_peek_val m e (word_reader r) (N.of_nat n) = peek_val e r n.
Proof. destruct e; cbn [mb_peek_val peek_val]; [reflexivity|]. rewrite Hc. reflexivity. Qed.
Lemma msub_csub a b : msub m (N.of_nat a) (N.of_nat b) = omap N.of_nat (csub a b).
Proof.
  unfold msub, csub. destruct (N.leb_spec (N.of_nat b) (N.of_nat a)); destruct (Nat.leb_spec b a); try lia; [cbn [omap]; f_equal; lia|]. rewrite Hc. reflexivity.
Qed.

Lemma val_any e r n : mb_get_val m e (word_reader r) (N.of_nat n) = omap wr1 (get_val e r n).
Proof. unfold mb_get_val, get_val. rewrite peek_any. destruct (peek_val e r n); cbn [obind omap]; [|reflexivity..]. rewrite rem_word. reflexivity. Qed.
Lemma merge_any e a b k l : mb_merge_val m e a b (N.of_nat k) (N.of_nat l) = merge_val e a b k l.
Proof. destruct e; cbn [mb_merge_val merge_val]; [rewrite shl_any|]; reflexivity. Qed.
Lemma cache_any e c v l : mb_build_cache m e c v (N.of_nat l) = build_cache e c v l.
Proof.
  destruct e; cbn [mb_build_cache build_cache]; [rewrite shl_any; reflexivity|].
  change 32 with (N.of_nat 32) at 1. rewrite msub_csub. destruct (csub 32 l) as [d| |]; cbn [omap obind]; [|reflexivity..].
  rewrite shl_any. reflexivity.
Qed.

(** The index leaves room for everything that is done to it. *)
Definition safe_m (r : reader) : Prop := N.of_nat (index r) + 64 < modulus m /\ (left r <= 95)%nat.

Lemma can_any r : safe_m r -> mb_can_refill m (word_reader r) = Ret (can_refill r).
Proof.
  intros [H _]. unfold mb_can_refill, can_refill, w_len. cbn [w_index w_buffer word_reader].
  rewrite in_add by lia. cbn [obind]. f_equal.
  destruct (N.leb_spec (N.of_nat (index r) + 8) (N.of_nat (length (buffer r)))); destruct (Nat.leb_spec (index r + 8) (length (buffer r))); lia.
Qed.

Lemma refill64_any e r : safe_m r -> mb_refill64 m e (word_reader r) = omap word_reader (refill64 e r).
Proof.
  intros H. unfold mb_refill64, refill64. rewrite can_any by exact H. cbn [obind].
  destruct (can_refill r); cbn [negb]; [|reflexivity]. rewrite fill64_word. destruct (fill64 e r); cbn [obind omap]; [|reflexivity..].
  destruct H as [H _]. cbn [w_index w_buffer word_reader]. rewrite in_add by lia. cbn [obind]. unfold word_reader.
  cbn [buffer index cache left]. do 2 f_equal; lia.
Qed.
Lemma refill32_any e r : safe_m r -> mb_refill32 m e (word_reader r) = omap word_reader (refill32 e r).
Proof.
  intros H. unfold mb_refill32, refill32. rewrite can_any by exact H. cbn [obind].
  destruct (can_refill r); cbn [negb]; [|reflexivity]. rewrite fill32_word. destruct (fill32 e r); cbn [obind omap]; [|reflexivity..].
  cbn [w_index w_buffer w_cache w_left word_reader]. rewrite cache_any. destruct (build_cache e (cache r) a (left r)) eqn:E; cbn [obind omap]; [|reflexivity..].
  apply build_bound in E. destruct H as [H _]. rewrite in_add by lia. cbn [obind]. rewrite in_add by (pose proof modulus_256; lia). cbn [obind].
  unfold word_reader. cbn [buffer index cache left]. do 2 f_equal; lia.
Qed.

(** What the functions do to the index: it goes at most [k] beyond where it was, or beyond
    the end. *)


Lemma safe_within r r' k : within r r' k -> N.of_nat (Nat.max (index r) (length (buffer r)) + k) + 64 < modulus m -> safe_m r'.
Proof. intros [_ [H [_ H']]] B. split; [lia|exact H]. Qed.


Lemma msub_word a b : (b <= a)%nat -> msub m (N.of_nat a) (N.of_nat b) = Ret (N.of_nat (a - b)).
Proof. intros H. rewrite msub_csub. unfold csub. destruct (Nat.leb_spec b a); [reflexivity|lia]. Qed.

Definition roomy_m (r : reader) (k : nat) : Prop := N.of_nat (Nat.max (index r) (length (buffer r)) + k) + 64 < modulus m.

Lemma roomy_safe r : fine r -> roomy_m r 0 -> safe_m r.
Proof. intros H R. apply (safe_within r r 0 (within_refl r H)). exact R. Qed.
Lemma roomy_within r r' k j : within r r' k -> roomy_m r (k + j) -> roomy_m r' j.
Proof. intros [A [_ [_ B]]]. unfold roomy_m. rewrite A. lia. Qed.

Lemma get_bit_any e r : fine r -> roomy_m r 0 -> mb_get_bit m e (word_reader r) = omap wr1 (get_bit e r).
Proof.
  intros F R. unfold mb_get_bit, get_bit. cbn [w_left word_reader]. rewrite eqb0_word. rewrite omap_obind.
  replace (if (left r =? 0)%nat then mb_refill64 m e (word_reader r) else Ret (word_reader r))
    with (omap word_reader (if (left r =? 0)%nat then refill64 e r else Ret r))
    by (destruct (left r =? 0)%nat; [symmetry; apply refill64_any; apply roomy_safe; assumption|reflexivity]).
  rewrite obind_omap. apply obind_ext. intros r1 _. change 1 with (N.of_nat 1) at 1. rewrite val_any, obind_omap, omap_obind.
  apply obind_ext. intros [r2 v] _. reflexivity.
Qed.

Lemma get32_any e r n : fine r -> roomy_m r 0 -> mb_get_bits_32 m e (word_reader r) (N.of_nat n) = omap wr1 (get_bits_32 e r n).
Proof.
  intros F R. unfold mb_get_bits_32, get_bits_32. cbn [w_left word_reader]. rewrite eqb0_word, leb_word.
  destruct (n =? 0)%nat; [reflexivity|]. rewrite omap_obind.
  replace (if (left r <=? n)%nat then mb_refill32 m e (word_reader r) else Ret (word_reader r))
    with (omap word_reader (if (left r <=? n)%nat then refill32 e r else Ret r))
    by (destruct (left r <=? n)%nat; [symmetry; apply refill32_any; apply roomy_safe; assumption|reflexivity]).
  rewrite obind_omap. apply obind_ext. intros r1 _. rewrite val_any, obind_omap, omap_obind. apply obind_ext. intros [r2 v] _. reflexivity.
Qed.

Lemma get64_any e r n : fine r -> roomy_m r 0 -> mb_get_bits_64 m e (word_reader r) (N.of_nat n) = omap wr1 (get_bits_64 e r n).
Proof.
  intros F R. unfold mb_get_bits_64, get_bits_64. cbn [w_left word_reader]. rewrite eqb0_word, ltb_word.
  destruct (n =? 0)%nat; [reflexivity|]. destruct (Nat.ltb_spec (left r) n) as [L|L].
  - rewrite msub_word by lia. cbn [obind]. fold (word_reader r). rewrite val_any, obind_omap, omap_obind. apply obind_ext. intros [r1 ret] E1.
    cbn [wr1 fst snd]. assert (within r r1 0) as W1 by (apply (val_within e r (left r) r1 ret); assumption).
    rewrite refill64_any by (apply roomy_safe; [exact (within_fine _ _ _ W1)|apply (roomy_within r r1 0 0 W1 R)]).
    rewrite obind_omap, omap_obind. apply obind_ext. intros r2 E2. rewrite val_any, obind_omap, omap_obind. apply obind_ext. intros [r3 v] E3.
    cbn [wr1 fst snd]. rewrite merge_any, omap_obind. reflexivity.
  - fold (word_reader r). rewrite val_any, obind_omap, omap_obind. apply obind_ext. intros [r1 v] _. cbn [wr1 fst snd].
    change 0 with (N.of_nat 0) at 2. rewrite merge_any, omap_obind. reflexivity.
Qed.

Lemma skip_any e r n : fine r -> roomy_m r (n / 8) -> N.of_nat n < modulus m -> mb_skip_bits m e (word_reader r) (N.of_nat n) = omap word_reader (skip_bits e r n).
Proof.
  intros F R B. unfold mb_skip_bits, skip_bits. cbn [w_left word_reader]. rewrite ltb_word. destruct (Nat.ltb_spec (left r) n) as [L|L].
  - rewrite msub_word by lia. cbn [obind]. change 64 with (N.of_nat 64) at 1. rewrite ltb_word.
    assert (forall r1 n2, fine r1 -> roomy_m r1 0 ->
      (let r2 := w_skip_rem e (word_reader r1) (N.of_nat n2) in let! r3 := mb_refill64 m e r2 in Ret (w_skip_rem e r3 (N.of_nat n2))) =
      omap word_reader (let r2 := skip_rem e r1 n2 in let! r3 := refill64 e r2 in Ret (skip_rem e r3 n2))) as A.
    { intros r1 n2 F1 R1. cbv zeta. rewrite rem_word. pose proof (rem_within e r1 n2 F1) as W.
      rewrite refill64_any by (apply roomy_safe; [exact (within_fine _ _ _ W)|apply (roomy_within r1 _ 0 0 W R1)]).
      rewrite obind_omap, omap_obind. apply obind_ext. intros r3 _. rewrite rem_word. reflexivity. }
    destruct (Nat.ltb_spec 64 (n - left r)) as [L2|L2].
    + cbv zeta. set (k := ((n - left r) / 8)%nat).
      assert (N.of_nat (n - left r) / 8 = N.of_nat k) as -> by (unfold k; lia).
      assert ((k * 8 <= n - left r)%nat) as K1 by (unfold k; lia).
      assert (k <= n / 8)%nat as K2 by (unfold k; apply Nat.div_le_mono; lia).
      assert (N.of_nat k * 8 < modulus m) as K3 by (clearbody k; clear - K1 B; lia).
      rewrite in_mul by exact K3. cbn [obind]. replace (N.of_nat k * 8) with (N.of_nat (k * 8)) by lia.
      rewrite msub_word by lia. cbn [obind]. cbn [w_index]. unfold roomy_m in R.
      clearbody k. set (q := (n / 8)%nat) in *. clearbody q.
      assert (N.of_nat (index r) + N.of_nat k < modulus m) as K4 by (clear - R K2; lia).
      change (w_index (word_reader r)) with (N.of_nat (index r)). rewrite in_add by exact K4. cbn [obind].
      change (w_buffer (word_reader r)) with (buffer r). change (w_cache (word_reader r)) with (cache r).
      replace (mk_wreader (buffer r) (N.of_nat (index r) + N.of_nat k) (cache r) (N.of_nat (left r)))
        with (word_reader (mk_reader (buffer r) (index r + k) (cache r) (left r))) by (unfold word_reader; cbn; f_equal; lia).
      refine (eq_trans (A (mk_reader (buffer r) (index r + k) (cache r) (left r)) (n - left r - k * 8)%nat _ _) eq_refl).
      * destruct F as [F1 F2]. split; cbn [left index]; lia.
      * unfold roomy_m. cbn [index buffer]. lia.
    + refine (eq_trans (A r (n - left r)%nat F _) eq_refl). unfold roomy_m in *. lia.
  - fold (word_reader r). rewrite rem_word. reflexivity.
Qed.

Lemma align_any e r : mb_align_bits m e (word_reader r) = omap word_reader (align_bits e r).
Proof.
  unfold mb_align_bits, align_bits. cbn [w_left word_reader]. change 7 with (N.ones 3). rewrite N.land_ones.
  replace (N.of_nat (left r) mod 2 ^ 3) with (N.of_nat (left r mod 8)) by (change (2 ^ 3) with 8; lia).
  unfold mb_skip_bits, skip_bits. cbn [w_left word_reader]. rewrite ltb_word.
  destruct (Nat.ltb_spec (left r) (left r mod 8)) as [L|L]; [exfalso; lia|].
  fold (word_reader r). rewrite rem_word. reflexivity.
Qed.

(** Room for reading, and for counting bits. *)
Definition spare (r : reader) (s : N) : Prop := 8 * N.of_nat (Nat.max (index r) (length (buffer r))) + s + 512 < 8 * modulus m.
Definition budget_m (r : reader) (s : N) : Prop := 8 * N.of_nat (Nat.max (index r) (length (buffer r))) + s < modulus m.

Lemma budget_spare r s : budget_m r s -> spare r s.
Proof. unfold budget_m, spare. pose proof modulus_256. lia. Qed.
Lemma spare_roomy r s k : spare r s -> 8 * N.of_nat k <= s -> roomy_m r k.
Proof. unfold spare, roomy_m. lia. Qed.
Lemma spare_within r r' s k : within r r' (N.to_nat (s / 8)) -> spare r (s + k) -> spare r' k.
Proof. intros [A [_ [_ B]]]. unfold spare. rewrite A. lia. Qed.
Lemma budget_within r r' s k : within r r' (N.to_nat (s / 8)) -> budget_m r (s + k) -> budget_m r' k.
Proof. intros [A [_ [_ B]]]. unfold budget_m. rewrite A. lia. Qed.

Lemma available_any r s : fine r -> budget_m r s -> mb_available m (word_reader r) = omap N.of_nat (available r).
Proof.
  intros F B. unfold mb_available, available, w_len. cbn [w_index w_left w_buffer word_reader]. rewrite msub_csub.
  destruct (csub (length (buffer r)) (index r)) as [d| |] eqn:E; cbn [omap obind]; [|reflexivity..].
  assert (d + index r = length (buffer r))%nat as D by (unfold csub in E; destruct (Nat.leb_spec (index r) (length (buffer r))); [injection E as <-; lia|discriminate]).
  destruct F as [F1 F2]. unfold budget_m in B. rewrite in_mul by lia. cbn [obind]. rewrite in_add by lia. f_equal. lia.
Qed.

Lemma op_any e r op : fine r -> spare r (op_skip op) -> arg_on m op -> reads op \/ budget_m r (op_skip op) ->
  mb_run_op m e (word_reader r) op = omap wr1 (run_op e r op).
Proof.
  intros F S A B. assert (roomy_m r 0) as R by (apply (spare_roomy r (op_skip op)); [exact S|lia]).
  destruct op as [|n|n| |n|n|n| | |]; cbn [mb_run_op run_op op_skip reads arg_on] in *; rewrite omap_obind.
  - rewrite get_bit_any by assumption. rewrite obind_omap. apply obind_ext. intros [r1 v] _. reflexivity.
  - rewrite get32_any by assumption. rewrite obind_omap. apply obind_ext. intros [r1 v] _. reflexivity.
  - rewrite get64_any by assumption. rewrite obind_omap. apply obind_ext. intros [r1 v] _. reflexivity.
  - rewrite get_bit_any by assumption. rewrite obind_omap. unfold peek_bit. destruct (get_bit e r) as [[r1 v]| |]; reflexivity.
  - rewrite get32_any by assumption. rewrite obind_omap. unfold peek_bits_32. destruct (get_bits_32 e r n) as [[r1 v]| |]; reflexivity.
  - rewrite get64_any by assumption. rewrite obind_omap. unfold peek_bits_64. destruct (get_bits_64 e r n) as [[r1 v]| |]; reflexivity.
  - rewrite skip_any; [|exact F|apply (spare_roomy r (N.of_nat n) _ S); lia|exact A].
    rewrite obind_omap. apply obind_ext. reflexivity.
  - rewrite align_any, obind_omap. apply obind_ext. reflexivity.
  - destruct B as [[]|B]. unfold mb_consumed, consumed. cbn [w_index w_left word_reader]. unfold budget_m in B. rewrite in_mul by lia. cbn [obind].
    replace (N.of_nat (index r) * 8) with (N.of_nat (index r * 8)) by lia. rewrite msub_csub, obind_omap. apply obind_ext. intros c _. unfold wr1. cbn [fst snd]. rewrite Nat2N.id. reflexivity.
  - destruct B as [[]|B]. rewrite (available_any r _ F B), obind_omap. apply obind_ext. intros c _. unfold wr1. cbn [fst snd]. rewrite Nat2N.id. reflexivity.
Qed.

Lemma ops_any e : forall ops r, fine r -> spare r (total_skip ops) -> Forall (arg_on m) ops -> Forall reads ops \/ budget_m r (total_skip ops) ->
  mb_run_ops m e (word_reader r) ops = omap wr1 (run_ops e r ops).
Proof.
  induction ops as [|op ops IH]; intros r F S A B; cbn [mb_run_ops run_ops]; [reflexivity|]. inversion A as [|? ? A1 A2]; subst.
  rewrite total_cons in S, B. rewrite op_any; [|exact F|unfold spare in *; lia|exact A1|].
  2:{ destruct B as [B|B]; [left; inversion B; assumption|right; unfold budget_m in *; lia]. }
  rewrite obind_omap, omap_obind. apply obind_ext. intros [r1 o] E.
  unfold wr1 at 1. cbn [fst snd]. pose proof (op_within e r op r1 o F E) as W.
  rewrite IH; [|exact (within_fine _ _ _ W)|exact (spare_within _ _ _ _ W S)|exact A2|].
  2:{ destruct B as [B|B]; [left; inversion B; assumption|right; exact (budget_within _ _ _ _ W B)]. }
  rewrite obind_omap, omap_obind. apply obind_ext. intros [r2 os] _. reflexivity.
Qed.

Lemma start_fine buf : fine (mk_reader buf 0 0 0).
Proof. split; cbn; lia. Qed.
Lemma new_any e buf : 8 * N.of_nat (length buf) + 512 < 8 * modulus m -> mb_new m e buf = omap word_reader (new e buf).
Proof.
  intros S. unfold mb_new, new. change (mk_wreader buf 0 0 0) with (word_reader (mk_reader buf 0 0 0)).
  apply refill64_any. apply roomy_safe; [apply start_fine|]. unfold roomy_m. cbn [index buffer]. lia.
Qed.
Lemma new_within e buf r : new e buf = Ret r -> within (mk_reader buf 0 0 0) r 0.
Proof. intros E. exact (refill64_within e _ r (start_fine buf) E). Qed.

Lemma run_any e buf ops : N.of_nat (length buf) + total_skip ops / 8 + 64 < 2 ^ bits m -> Forall (arg_on m) ops ->
  Forall reads ops \/ 8 * N.of_nat (length buf) + total_skip ops < 2 ^ bits m ->
  mb_run_from_new m e buf ops = (let! (r, outs) := run_from_new e buf ops in Ret (word_reader r, outs)).
Proof.
  intros S A B. change (2 ^ bits m) with (modulus m) in *. unfold mb_run_from_new, run_from_new.
  assert (S' : 8 * N.of_nat (length buf) + total_skip ops + 512 < 8 * modulus m) by lia.
  rewrite new_any by lia. rewrite obind_omap. destruct (new e buf) as [r| |] eqn:E; cbn [obind]; [|reflexivity..].
  pose proof (new_within e buf r E) as W. change 0%nat with (N.to_nat (0 / 8)) in W.
  rewrite ops_any; [|exact (within_fine _ _ _ W)| |exact A|].
  - destruct (run_ops e r ops) as [[r1 outs]| |]; reflexivity.
  - apply (spare_within _ _ _ _ W). unfold spare. cbn [index buffer]. lia.
  - destruct B as [B|B]; [left; exact B|right]. apply (budget_within _ _ _ _ W). unfold budget_m. cbn [index buffer]. lia.
Qed.
End Any.
