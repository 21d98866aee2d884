(** Lemmas about the bit reader. *)
From Coq Require Import List Arith NArith ZArith Bool Lia.
From Coq Require Import ZifyBool ZifyNat ZifyN.
From Verif Require Import Base ByteModel ByteSpec ByteProofs BitModel BitSpec.
Import ListNotations.
Local Open Scope nat_scope.
Ltac Zify.zify_post_hook ::= Z.div_mod_to_equations.

Definition zeros (k : nat) : list bool := repeat false k.
Notation pow2 k := (2 ^ N.of_nat k)%N.

Lemma zeros_length : forall k, length (zeros k) = k.
Proof. intros. apply repeat_length. Qed.

Lemma pow2_S : forall k, pow2 (S k) = (2 * pow2 k)%N.
Proof. intros. rewrite Nat2N.inj_succ, N.pow_succ_r'. reflexivity. Qed.

Lemma pow2_add : forall a b, pow2 (a + b) = (pow2 a * pow2 b)%N.
Proof. intros. rewrite Nat2N.inj_add, N.pow_add_r. reflexivity. Qed.

Lemma pow2_pos : forall k, (0 < pow2 k)%N.
Proof. intros. apply N.neq_0_lt_0. apply N.pow_nonzero. lia. Qed.

(** ** Values of bit strings *)

Lemma value_le_app : forall a b, value_le (a ++ b) = (value_le a + pow2 (length a) * value_le b)%N.
Proof.
  induction a as [|x a IH]; intros b.
  - cbn [app value_le length]. change (pow2 0) with 1%N. lia.
  - cbn [app value_le length]. rewrite IH, pow2_S. lia.
Qed.

Lemma value_be_acc : forall l a, fold_left (fun acc b => 2 * acc + N.b2n b)%N l a
  = (a * pow2 (length l) + value_be l)%N.
Proof.
  unfold value_be. induction l as [|x l IH]; intros a.
  - cbn [fold_left length]. change (pow2 0) with 1%N. lia.
  - cbn [fold_left length]. rewrite IH, (IH (2 * 0 + N.b2n x)%N), pow2_S. lia.
Qed.

Lemma value_be_app : forall a b, value_be (a ++ b) = (value_be a * pow2 (length b) + value_be b)%N.
Proof. intros. unfold value_be at 1. rewrite fold_left_app. apply value_be_acc. Qed.

Lemma value_be_cons : forall x l, value_be (x :: l) = (N.b2n x * pow2 (length l) + value_be l)%N.
Proof. intros. change (x :: l) with ([x] ++ l). rewrite value_be_app. destruct x; reflexivity. Qed.

Lemma b2n_bound : forall b, (N.b2n b <= 1)%N.
Proof. destruct b; cbn; lia. Qed.

Lemma value_bound : forall e l, (value e l < pow2 (length l))%N.
Proof.
  destruct e; induction l as [|x l IH].
  - cbn. lia.
  - cbn [value value_le length] in *. rewrite pow2_S. pose proof (b2n_bound x). lia.
  - cbn. lia.
  - cbn [value length] in *. rewrite value_be_cons, pow2_S. pose proof (b2n_bound x). nia.
Qed.

Lemma value_zeros : forall e k, value e (zeros k) = 0%N.
Proof.
  destruct e; induction k; cbn [value zeros repeat] in *; try reflexivity.
  - cbn [value_le]. unfold zeros in IHk. rewrite IHk. reflexivity.
  - rewrite value_be_cons. unfold zeros in IHk. rewrite IHk. reflexivity.
Qed.

Lemma value_firstn_le : forall l n, n <= length l -> value_le (firstn n l) = (value_le l mod pow2 n)%N.
Proof.
  intros l n H. rewrite <- (firstn_skipn n l) at 2. rewrite value_le_app, firstn_length_le by exact H.
  rewrite N.mul_comm, N.mod_add by (pose proof (pow2_pos n); lia).
  symmetry. apply N.mod_small. pose proof (value_bound LE (firstn n l)) as B. cbn [value] in B.
  rewrite firstn_length_le in B by exact H. exact B.
Qed.

Lemma value_skipn_le : forall l n, n <= length l -> value_le (skipn n l) = (value_le l / pow2 n)%N.
Proof.
  intros l n H. rewrite <- (firstn_skipn n l) at 2. rewrite value_le_app, firstn_length_le by exact H.
  rewrite N.mul_comm, N.div_add by (pose proof (pow2_pos n); lia).
  rewrite N.div_small; [lia|]. pose proof (value_bound LE (firstn n l)) as B. cbn [value] in B.
  rewrite firstn_length_le in B by exact H. exact B.
Qed.

Lemma value_firstn_be : forall l n, n <= length l ->
  value_be (firstn n l) = (value_be l / pow2 (length l - n))%N.
Proof.
  intros l n H. rewrite <- (firstn_skipn n l) at 2. rewrite value_be_app, skipn_length.
  rewrite N.div_add_l by (pose proof (pow2_pos (length l - n)); lia).
  rewrite N.div_small; [lia|]. pose proof (value_bound BE (skipn n l)) as B. cbn [value] in B.
  rewrite skipn_length in B. exact B.
Qed.

Lemma value_skipn_be : forall l n, n <= length l ->
  value_be (skipn n l) = (value_be l mod pow2 (length l - n))%N.
Proof.
  intros l n H. rewrite <- (firstn_skipn n l) at 2. rewrite value_be_app, skipn_length.
  rewrite N.add_comm, N.mod_add by (pose proof (pow2_pos (length l - n)); lia).
  symmetry. apply N.mod_small. pose proof (value_bound BE (skipn n l)) as B. cbn [value] in B.
  rewrite skipn_length in B. exact B.
Qed.

(** Bits of disjoint words. *)
Lemma lor_disjoint : forall a b k, (a < pow2 k)%N -> N.lor a (b * pow2 k) = (a + b * pow2 k)%N.
Proof.
  intros a b k H. rewrite <- N.shiftl_mul_pow2.
  assert (D : N.land a (N.shiftl b (N.of_nat k)) = 0%N).
  { apply N.bits_inj_0. intros n. rewrite N.land_spec.
    destruct (N.lt_ge_cases n (N.of_nat k)) as [Hn|Hn].
    - rewrite N.shiftl_spec_low by exact Hn. apply andb_false_r.
    - assert (N.testbit a n = false) as ->; [|reflexivity].
      destruct (N.eq_dec a 0) as [->|Ha]; [apply N.bits_0|].
      apply N.bits_above_log2. eapply N.lt_le_trans; [|exact Hn]. apply N.log2_lt_pow2; lia. }
  rewrite N.add_nocarry_lxor by exact D. symmetry. apply N.lxor_lor. exact D.
Qed.

Lemma as_u32_small : forall n, n <= 64 -> as_u32 n = N.of_nat n.
Proof. intros n H. unfold as_u32. apply N.mod_small. unfold W32. change (2 ^ 32)%N with 4294967296%N. lia. Qed.

(** ** The cache as a 64-bit string *)

Lemma peek_val_spec : forall e r l n, length l = 64 -> cache r = value e l -> n <= 64 ->
  peek_val e r n = Ret (value e (firstn n l)).
Proof.
  intros e r l n Hl Hc Hn. unfold peek_val. rewrite as_u32_small by exact Hn.
  destruct e; cbn [value] in *.
  - f_equal. rewrite value_firstn_le by lia. rewrite Hc.
    assert (E : wrapping_sub (checked_shl0 1 (N.of_nat n)) 1 = N.ones (N.of_nat n)).
    { unfold wrapping_sub, checked_shl0. rewrite N.ones_equiv.
      destruct (N.ltb_spec (N.of_nat n) 64).
      - rewrite N.shiftl_1_l.
        assert (H1 : (pow2 n < W64)%N).
        { unfold W64. apply N.pow_lt_mono_r; lia. }
        pose proof (pow2_pos n). rewrite (N.mod_small (pow2 n)) by exact H1.
        replace (pow2 n + W64 - 1)%N with (N.pred (pow2 n) + 1 * W64)%N by lia.
        rewrite N.mod_add by (unfold W64; lia). apply N.mod_small. lia.
      - replace n with 64 by lia. reflexivity. }
    rewrite E. apply N.land_ones.
  - destruct (N.leb_spec (N.of_nat n) 64); [|lia]. f_equal.
    rewrite value_firstn_be by lia. rewrite Hc, Hl. unfold checked_shr0.
    replace (64 - N.of_nat n)%N with (N.of_nat (64 - n)) by lia.
    destruct (N.ltb_spec (N.of_nat (64 - n)) 64).
    + apply N.shiftr_div_pow2.
    + replace n with 0 by lia. symmetry. apply N.div_small.
      pose proof (value_bound BE l) as B. rewrite Hl in B. exact B.
Qed.

Lemma skip_rem_spec : forall e r l n, length l = 64 -> cache r = value e l -> n <= 64 ->
  cache (skip_rem e r n) = value e (skipn n l ++ zeros n).
Proof.
  intros e r l n Hl Hc Hn. unfold skip_rem.
  destruct e; cbn [cache value] in *; rewrite as_u32_small by exact Hn.
  - rewrite value_le_app, (value_zeros LE : forall k, value_le (zeros k) = 0%N).
    rewrite value_skipn_le by lia. rewrite Hc. unfold checked_shr0.
    destruct (N.ltb_spec (N.of_nat n) 64).
    + rewrite N.shiftr_div_pow2. lia.
    + rewrite N.div_small; [lia|]. replace n with 64 by lia.
      pose proof (value_bound LE l) as B. rewrite Hl in B. exact B.
  - rewrite value_be_app, (value_zeros BE : forall k, value_be (zeros k) = 0%N), zeros_length.
    rewrite value_skipn_be by lia. rewrite Hc, Hl. unfold checked_shl0.
    destruct (N.ltb_spec (N.of_nat n) 64).
    + rewrite N.shiftl_mul_pow2. unfold W64. change 64%N with (N.of_nat 64).
      replace 64 with ((64 - n) + n) at 1 by lia. rewrite pow2_add.
      rewrite N.mul_mod_distr_r; [lia| |]; apply N.pow_nonzero; lia.
    + replace n with 64 by lia. rewrite Nat.sub_diag. change (pow2 0) with 1%N. rewrite N.mod_1_r. reflexivity.
Qed.

Lemma skip_rem_left : forall e r n, left (skip_rem e r n) = left r - n.
Proof. destruct e; reflexivity. Qed.
Lemma skip_rem_index : forall e r n, index (skip_rem e r n) = index r.
Proof. destruct e; reflexivity. Qed.
Lemma skip_rem_buffer : forall e r n, buffer (skip_rem e r n) = buffer r.
Proof. destruct e; reflexivity. Qed.

Lemma shl64_spec : forall a n, n < 64 -> (a * pow2 n < pow2 64)%N -> shl64 a n = Ret (a * pow2 n)%N.
Proof.
  intros a n Hn Hb. unfold shl64. destruct (Nat.ltb_spec n 64); [|lia].
  rewrite N.shiftl_mul_pow2. f_equal. apply N.mod_small. exact Hb.
Qed.

Lemma merge_val_spec : forall e a b, length a + length b <= 64 -> length b > 0 ->
  merge_val e (value e b) (value e a) (length a) (length b) = Ret (value e (a ++ b)).
Proof.
  intros e a b Hl Hb.
  pose proof (value_bound e a) as Ba. pose proof (value_bound e b) as Bb.
  pose proof (pow2_pos (length a)). pose proof (pow2_pos (length b)).
  assert (P : (pow2 (length a) * pow2 (length b) <= pow2 64)%N).
  { rewrite <- pow2_add. apply N.pow_le_mono_r; lia. }
  destruct e; cbn [merge_val value] in *.
  - rewrite shl64_spec by nia. cbn [obind]. rewrite N.lor_comm, lor_disjoint by exact Ba.
    rewrite value_le_app. f_equal. lia.
  - rewrite as_u32_small by lia. unfold checked_shl0.
    destruct (N.ltb_spec (N.of_nat (length b)) 64).
    + rewrite N.shiftl_mul_pow2, N.mod_small by (unfold W64; change (2 ^ 64)%N with (pow2 64); nia).
      rewrite lor_disjoint by exact Bb. rewrite value_be_app. f_equal. lia.
    + destruct a; [|cbn [length] in *; lia]. cbn [app]. rewrite N.lor_0_r. reflexivity.
Qed.

Lemma build_cache_spec : forall e a b, length a <= 32 -> length b = 32 ->
  build_cache e (value e (a ++ zeros (64 - length a))) (value e b) (length a)
  = Ret (value e (a ++ b ++ zeros (32 - length a))).
Proof.
  intros e a b Ha Hb.
  pose proof (value_bound e a) as Ba. pose proof (value_bound e b) as Bb.
  pose proof (pow2_pos (length a)). rewrite Hb in Bb.
  destruct e; cbn [build_cache value] in *.
  - rewrite !value_le_app, !(value_zeros LE : forall k, value_le (zeros k) = 0%N).
    assert (P : (pow2 (length a) * pow2 32 <= pow2 64)%N).
    { rewrite <- pow2_add. apply N.pow_le_mono_r; lia. }
    rewrite shl64_spec by nia. cbn [obind]. rewrite N.mul_0_r, N.add_0_r, lor_disjoint by exact Ba.
    f_equal. lia.
  - unfold csub. destruct (Nat.leb_spec (length a) 32); [|lia]. cbn [obind].
    rewrite !value_be_app, !(value_zeros BE : forall k, value_be (zeros k) = 0%N).
    rewrite !app_length, !zeros_length, Hb, !N.add_0_r.
    assert (P : (pow2 32 * pow2 (32 - length a) <= pow2 64)%N).
    { rewrite <- pow2_add. apply N.pow_le_mono_r; lia. }
    pose proof (pow2_pos (32 - length a)).
    rewrite shl64_spec by nia. cbn [obind]. f_equal. rewrite N.lor_comm.
    replace (64 - length a) with (32 + (32 - length a)) by lia.
    rewrite (pow2_add 32 (32 - length a)), N.mul_assoc.
    rewrite <- !N.shiftl_mul_pow2, <- N.shiftl_lor. rewrite !N.shiftl_mul_pow2.
    rewrite lor_disjoint by exact Bb. lia.
Qed.

(** ** Loading words from the buffer *)

Lemma byte_value : forall e b, (b < 256)%N -> value e (byte_bits e b) = b.
Proof.
  intros e b Hb.
  assert (H : forallb (fun n => (value LE (byte_bits LE n) =? n) && (value BE (byte_bits BE n) =? n))%N
                (map N.of_nat (seq 0 256)) = true) by (vm_compute; reflexivity).
  rewrite forallb_forall in H. specialize (H b).
  assert (Hin : In b (map N.of_nat (seq 0 256))).
  { apply in_map_iff. exists (N.to_nat b). split; [lia|]. apply in_seq. lia. }
  apply H in Hin. apply andb_true_iff in Hin. destruct Hin as [H1 H2].
  apply N.eqb_eq in H1. apply N.eqb_eq in H2. destruct e; assumption.
Qed.

Lemma byte_bits_length : forall e b, length (byte_bits e b) = 8.
Proof. destruct e; reflexivity. Qed.

Lemma bits_of_length : forall e buf, length (bits_of e buf) = 8 * length buf.
Proof.
  induction buf as [|b buf IH]; [reflexivity|].
  unfold bits_of in *. cbn [flat_map length]. rewrite app_length, byte_bits_length, IH. lia.
Qed.

Lemma bits_of_app : forall e a b, bits_of e (a ++ b) = bits_of e a ++ bits_of e b.
Proof. intros. unfold bits_of. apply flat_map_app. Qed.

Lemma skipn_bits : forall e k buf, skipn (8 * k) (bits_of e buf) = bits_of e (skipn k buf).
Proof.
  induction k; intros buf; [reflexivity|].
  destruct buf as [|b buf]; [rewrite skipn_nil; reflexivity|].
  change (skipn (S k) (b :: buf)) with (skipn k buf). rewrite <- IHk.
  replace (8 * S k) with (8 + 8 * k) by lia.
  change (bits_of e (b :: buf)) with (byte_bits e b ++ bits_of e buf).
  rewrite skipn_app, byte_bits_length. replace (8 + 8 * k - 8) with (8 * k) by lia.
  rewrite skipn_all2 by (rewrite byte_bits_length; lia). reflexivity.
Qed.

Lemma firstn_bits : forall e k buf, firstn (8 * k) (bits_of e buf) = bits_of e (firstn k buf).
Proof.
  induction k; intros buf; [reflexivity|].
  destruct buf as [|b buf]; [rewrite !firstn_nil; reflexivity|].
  change (firstn (S k) (b :: buf)) with (b :: firstn k buf).
  change (bits_of e (b :: ?x)) with (byte_bits e b ++ bits_of e x).
  rewrite <- IHk.
  replace (8 * S k) with (8 + 8 * k) by lia.
  rewrite firstn_app, byte_bits_length. replace (8 + 8 * k - 8) with (8 * k) by lia.
  rewrite firstn_all2 by (rewrite byte_bits_length; lia). reflexivity.
Qed.

Lemma from_le_value : forall l, bytes l -> from_le_bytes l = value LE (bits_of LE l).
Proof.
  induction l as [|b l IH]; intros H; [reflexivity|]. inversion H as [|? ? Hb Hl]; subst.
  change (from_le_bytes (b :: l)) with (b + 256 * from_le_bytes l)%N.
  change (bits_of LE (b :: l)) with (byte_bits LE b ++ bits_of LE l).
  cbn [value]. rewrite value_le_app, byte_bits_length, (IH Hl).
  rewrite (byte_value LE b Hb : value_le (byte_bits LE b) = b). reflexivity.
Qed.

Lemma from_be_value : forall l, bytes l -> from_be_bytes l = value BE (bits_of BE l).
Proof.
  induction l as [|b l IH]; intros H; [reflexivity|]. inversion H as [|? ? Hb Hl]; subst.
  unfold from_be_bytes. cbn [fold_left]. rewrite fold_left_be, (IH Hl).
  change (bits_of BE (b :: l)) with (byte_bits BE b ++ bits_of BE l).
  cbn [value]. rewrite value_be_app, bits_of_length.
  rewrite (byte_value BE b Hb : value_be (byte_bits BE b) = b).
  replace (N.of_nat (8 * length l)) with (8 * N.of_nat (length l))%N by lia. lia.
Qed.

Lemma slice_tail : forall (A : Type) (l : list A) i, i <= length l -> slice l i (length l) = Ret (skipn i l).
Proof.
  intros A l i H. unfold slice.
  destruct (Nat.leb_spec i (length l)); [|lia]. rewrite Nat.leb_refl. cbn [andb].
  rewrite firstn_all2; [reflexivity|]. rewrite skipn_length. lia.
Qed.

Lemma fill64_spec : forall e r, bytes (buffer r) -> index r + 8 <= length (buffer r) ->
  fill64 e r = Ret (value e (window (bits_of e (buffer r)) (8 * index r) 64)).
Proof.
  intros e r Hb Hi. unfold fill64. rewrite slice_tail by lia. cbn [obind].
  unfold window. rewrite skipn_bits.
  change 64 with (8 * 8). rewrite firstn_bits.
  pose proof (bytes_firstn 8 _ (bytes_skipn (index r) _ Hb)) as Hf.
  destruct e.
  - rewrite get_u64l_eq. unfold get_gen. rewrite skipn_length.
    destruct (Nat.leb_spec 8 (length (buffer r) - index r)); [|lia].
    rewrite from_le_value by exact Hf. reflexivity.
  - rewrite get_u64b_eq. unfold get_gen. rewrite skipn_length.
    destruct (Nat.leb_spec 8 (length (buffer r) - index r)); [|lia].
    rewrite from_be_value by exact Hf. reflexivity.
Qed.

Lemma fill32_spec : forall e r, bytes (buffer r) -> index r + 8 <= length (buffer r) ->
  fill32 e r = Ret (value e (window (bits_of e (buffer r)) (8 * index r) 32)).
Proof.
  intros e r Hb Hi. unfold fill32. rewrite slice_tail by lia. cbn [obind].
  unfold window. rewrite skipn_bits.
  change 32 with (8 * 4). rewrite firstn_bits.
  pose proof (bytes_firstn 4 _ (bytes_skipn (index r) _ Hb)) as Hf.
  destruct e.
  - rewrite get_u32l_eq. unfold get_gen. rewrite skipn_length.
    destruct (Nat.leb_spec 4 (length (buffer r) - index r)); [|lia].
    rewrite from_le_value by exact Hf. reflexivity.
  - rewrite get_u32b_eq. unfold get_gen. rewrite skipn_length.
    destruct (Nat.leb_spec 4 (length (buffer r) - index r)); [|lia].
    rewrite from_be_value by exact Hf. reflexivity.
Qed.

(** ** Windows *)

Lemma window_length : forall l p n, p + n <= length l -> length (window l p n) = n.
Proof. intros. unfold window. rewrite firstn_length, skipn_length. lia. Qed.

Lemma skipn_skipn_add : forall (A : Type) (l : list A) a b, skipn a (skipn b l) = skipn (b + a) l.
Proof.
  intros A l a b. revert l. induction b; intros l; [reflexivity|].
  destruct l; [rewrite !skipn_nil; reflexivity|]. cbn [skipn plus]. apply IHb.
Qed.

Lemma window_split : forall l p a b, window l p (a + b) = window l p a ++ window l (p + a) b.
Proof.
  intros. unfold window. rewrite <- (firstn_skipn a (firstn (a + b) (skipn p l))).
  rewrite firstn_firstn, Nat.min_l by lia. f_equal.
  rewrite skipn_firstn_comm, skipn_skipn_add. replace (a + b - a) with b by lia. reflexivity.
Qed.

Lemma window_skipn : forall l p n k, k <= n -> skipn k (window l p n) = window l (p + k) (n - k).
Proof. intros. unfold window. rewrite skipn_firstn_comm, skipn_skipn_add. reflexivity. Qed.

Lemma window_firstn : forall l p n k, k <= n -> firstn k (window l p n) = window l p k.
Proof. intros. unfold window. rewrite firstn_firstn, Nat.min_l by lia. reflexivity. Qed.

Lemma zeros_add : forall a b, zeros (a + b) = zeros a ++ zeros b.
Proof. intros. apply repeat_app. Qed.

Lemma firstn_zeros : forall a b, a <= b -> firstn a (zeros b) = zeros a.
Proof.
  intros a b H. replace b with (a + (b - a)) by lia. rewrite zeros_add.
  rewrite firstn_app, zeros_length, Nat.sub_diag, firstn_O, app_nil_r.
  apply firstn_all2. rewrite zeros_length. lia.
Qed.

Lemma skipn_zeros : forall a b, skipn a (zeros b) = zeros (b - a).
Proof.
  induction a; intros b; [rewrite Nat.sub_0_r; reflexivity|].
  destruct b; [reflexivity|]. cbn [zeros repeat skipn]. apply IHa.
Qed.

(** ** The invariant: the cache holds the [left] bits that follow position [p] *)

Record inv (e : endian) (r : reader) (p : nat) : Prop := {
  inv_bytes : bytes (buffer r);
  inv_left : left r <= 64;
  inv_pos : p + left r = 8 * index r;
  inv_index : index r <= length (buffer r);
  inv_cache : cache r = value e (window (bits_of e (buffer r)) p (left r) ++ zeros (64 - left r))
}.

Lemma inv_window_length : forall e r p, inv e r p ->
  length (window (bits_of e (buffer r)) p (left r)) = left r.
Proof.
  intros e r p H. apply window_length. rewrite bits_of_length.
  pose proof (inv_pos _ _ _ H). pose proof (inv_index _ _ _ H). lia.
Qed.

Lemma get_val_inv : forall e r p n, inv e r p -> n <= 64 ->
  exists r', get_val e r n
    = Ret (r', value e (window (bits_of e (buffer r)) p (Nat.min n (left r)) ++ zeros (n - left r)))
  /\ inv e r' (p + Nat.min n (left r)) /\ left r' = left r - n /\ index r' = index r /\ buffer r' = buffer r.
Proof.
  intros e r p n H Hn. pose proof (inv_window_length _ _ _ H) as Hw.
  set (l := window (bits_of e (buffer r)) p (left r) ++ zeros (64 - left r)).
  assert (Hl : length l = 64).
  { unfold l. rewrite app_length, zeros_length, Hw. pose proof (inv_left _ _ _ H). lia. }
  exists (skip_rem e r n). split; [|split; [|split; [|split]]].
  - unfold get_val. rewrite (peek_val_spec e r l n Hl (inv_cache _ _ _ H) Hn). cbn [obind].
    do 2 f_equal. unfold l. rewrite firstn_app, Hw, firstn_zeros by (pose proof (inv_left _ _ _ H); lia).
    f_equal.
    destruct (Nat.le_ge_cases n (left r)).
    + rewrite Nat.min_l by lia. rewrite window_firstn by lia. reflexivity.
    + rewrite Nat.min_r by lia. rewrite firstn_all2 by lia. reflexivity.
  - constructor.
    + rewrite skip_rem_buffer. exact (inv_bytes _ _ _ H).
    + rewrite skip_rem_left. pose proof (inv_left _ _ _ H). lia.
    + rewrite skip_rem_left, skip_rem_index. pose proof (inv_pos _ _ _ H). lia.
    + rewrite skip_rem_buffer, skip_rem_index. exact (inv_index _ _ _ H).
    + rewrite skip_rem_buffer, skip_rem_left.
      rewrite (skip_rem_spec e r l n Hl (inv_cache _ _ _ H) Hn). f_equal.
      unfold l. rewrite skipn_app, Hw, skipn_zeros, <- app_assoc, <- zeros_add.
      pose proof (inv_left _ _ _ H).
      destruct (Nat.le_ge_cases n (left r)).
      * rewrite Nat.min_l by lia. rewrite window_skipn by lia. do 2 f_equal. lia.
      * rewrite Nat.min_r by lia. replace (left r - n) with 0 by lia.
        rewrite skipn_all2 by lia. cbn [app window firstn]. f_equal. lia.
  - apply skip_rem_left.
  - apply skip_rem_index.
  - apply skip_rem_buffer.
Qed.

Lemma skip_rem_inv : forall e r p n, inv e r p -> n <= 64 ->
  inv e (skip_rem e r n) (p + Nat.min n (left r)).
Proof.
  intros e r p n H Hn. destruct (get_val_inv e r p n H Hn) as [r' [E [Hi _]]].
  unfold get_val in E. destruct (peek_val e r n); try discriminate E.
  cbn [obind] in E. injection E as <- _. exact Hi.
Qed.

Lemma can_refill_true : forall r, can_refill r = true <-> index r + 8 <= length (buffer r).
Proof. intros. unfold can_refill. apply Nat.leb_le. Qed.

Lemma refill64_none : forall e r, can_refill r = false -> refill64 e r = Ret r.
Proof. intros e r H. unfold refill64. rewrite H. reflexivity. Qed.

Lemma refill32_none : forall e r, can_refill r = false -> refill32 e r = Ret r.
Proof. intros e r H. unfold refill32. rewrite H. reflexivity. Qed.

(** [refill64] does not look at the cache or at [left]. *)
Lemma refill64_some : forall e r, bytes (buffer r) -> can_refill r = true ->
  exists r', refill64 e r = Ret r' /\ inv e r' (8 * index r) /\ left r' = 64 /\
    index r' = index r + 8 /\ buffer r' = buffer r.
Proof.
  intros e r Hb Hc. unfold refill64. rewrite Hc. cbn [negb]. apply can_refill_true in Hc.
  rewrite fill64_spec by assumption. cbn [obind]. eexists. split; [reflexivity|].
  repeat split; cbn [buffer index left cache]; try assumption; try lia.
  rewrite Nat.sub_diag. cbn [zeros repeat]. rewrite app_nil_r. reflexivity.
Qed.

Lemma refill32_some : forall e r p, inv e r p -> left r <= 32 -> can_refill r = true ->
  exists r', refill32 e r = Ret r' /\ inv e r' p /\ left r' = left r + 32 /\
    index r' = index r + 4 /\ buffer r' = buffer r.
Proof.
  intros e r p H Hl Hc. unfold refill32. rewrite Hc. cbn [negb]. apply can_refill_true in Hc.
  pose proof (inv_window_length _ _ _ H) as Hw. pose proof (inv_pos _ _ _ H) as Hp.
  rewrite fill32_spec by (try apply (inv_bytes _ _ _ H); assumption). cbn [obind].
  rewrite (inv_cache _ _ _ H).
  set (w := window (bits_of e (buffer r)) p (left r)) in *.
  pose proof (build_cache_spec e w (window (bits_of e (buffer r)) (8 * index r) 32)) as E.
  rewrite Hw in E. rewrite E.
  - cbn [obind]. eexists. split; [reflexivity|].
    repeat split; cbn [buffer index left cache]; try lia.
    + apply (inv_bytes _ _ _ H).
    + rewrite window_split. fold w. rewrite Hp, <- app_assoc. do 4 f_equal. lia.
  - lia.
  - apply window_length. rewrite bits_of_length. lia.
Qed.

(** ** Reads *)

(** What a read of [n] bits from position [p] does in general: it delivers [k]
    genuine bits followed by zeros; [k < n] only when the reader has nothing
    more to load. *)
Definition read_result (e : endian) (r : reader) (p n : nat) (o : outcome (reader * N)) : Prop :=
  exists r' k, o = Ret (r', value e (window (bits_of e (buffer r)) p k ++ zeros (n - k))) /\
    inv e r' (p + k) /\ buffer r' = buffer r /\ k <= n /\
    (k < n -> left r' = 0 /\ can_refill r' = false) /\
    index r <= index r' <= index r + 8 /\ (can_refill r = false -> index r' = index r).

Lemma get_bits_64_read : forall e r p n, inv e r p -> n <= 64 ->
  read_result e r p n (get_bits_64 e r n).
Proof.
  intros e r p n H Hn. unfold get_bits_64, read_result.
  destruct (Nat.eqb_spec n 0) as [->|Hn0].
  { exists r, 0. rewrite Nat.add_0_r. repeat split; try apply H; try lia. destruct e; reflexivity. }
  pose proof (inv_window_length _ _ _ H) as Hw. pose proof (inv_left _ _ _ H) as Hl.
  destruct (Nat.ltb_spec (left r) n) as [Hlt|Hge].
  - destruct (get_val_inv e r p (left r) H Hl) as [r1 [E1 [I1 [L1 [X1 B1]]]]].
    rewrite E1. cbn [obind]. rewrite Nat.min_id, Nat.sub_diag in *. cbn [zeros repeat].
    rewrite app_nil_r.
    destruct (can_refill r1) eqn:Hc.
    + destruct (refill64_some e r1 (inv_bytes _ _ _ I1) Hc) as [r2 [E2 [I2 [L2 [X2 B2]]]]].
      rewrite E2. cbn [obind].
      destruct (get_val_inv e r2 _ (n - left r) I2 ltac:(lia)) as [r3 [E3 [I3 [L3 [X3 B3]]]]].
      rewrite E3. cbn [obind]. rewrite L2 in *.
      rewrite Nat.min_l in * by lia. replace (n - left r - 64) with 0 by lia. cbn [zeros repeat].
      rewrite app_nil_r. rewrite B2, B1 in *.
      assert (Hp1 : 8 * index r1 = p + left r) by (pose proof (inv_pos _ _ _ I1); lia).
      rewrite Hp1 in *.
      set (w2 := window (bits_of e (buffer r)) (p + left r) (n - left r)).
      assert (Hw2 : length w2 = n - left r).
      { apply window_length. rewrite bits_of_length. apply can_refill_true in Hc. rewrite B1 in Hc. lia. }
      pose proof (merge_val_spec e (window (bits_of e (buffer r)) p (left r)) w2 ltac:(lia) ltac:(lia)) as M.
      rewrite Hw, Hw2 in M. rewrite M. cbn [obind].
      exists r3, n. rewrite Nat.sub_diag. cbn [zeros repeat]. rewrite app_nil_r.
      split; [unfold w2; rewrite <- window_split; do 4 f_equal; lia|].
      split; [replace (p + n) with (p + left r + (n - left r)) by lia; exact I3|].
      split; [congruence|]. split; [lia|]. split; [lia|]. split; [lia|].
      intros HF. unfold can_refill in HF, Hc. rewrite B1, X1 in Hc. congruence.
    + rewrite (refill64_none e r1 Hc). cbn [obind].
      destruct (get_val_inv e r1 _ (n - left r) I1 ltac:(lia)) as [r3 [E3 [I3 [L3 [X3 B3]]]]].
      rewrite E3. cbn [obind]. assert (L0 : left r1 = 0) by lia. rewrite L0 in E3, I3, L3 |- *.
      rewrite Nat.min_0_r in *. rewrite Nat.sub_0_r.
      cbn [window firstn app].
      set (z := zeros (n - left r)).
      assert (Hz : length z = n - left r) by apply zeros_length.
      pose proof (merge_val_spec e (window (bits_of e (buffer r)) p (left r)) z ltac:(lia) ltac:(lia)) as M.
      rewrite Hw, Hz in M. rewrite M. cbn [obind].
      exists r3, (left r). rewrite Nat.add_0_r in I3.
      split; [reflexivity|]. split; [exact I3|]. split; [congruence|]. split; [lia|].
      split; [|lia]. intros _. split; [lia|].
      unfold can_refill in *. rewrite B3, X3. exact Hc.
  - destruct (get_val_inv e r p n H Hn) as [r1 [E1 [I1 [L1 [X1 B1]]]]].
    rewrite E1. cbn [obind]. rewrite Nat.min_l in * by lia.
    replace (n - left r) with 0 by lia. cbn [zeros repeat]. rewrite app_nil_r.
    assert (Hwn : length (window (bits_of e (buffer r)) p n) = n).
    { apply window_length. rewrite bits_of_length. pose proof (inv_pos _ _ _ H). pose proof (inv_index _ _ _ H). lia. }
    pose proof (merge_val_spec e [] (window (bits_of e (buffer r)) p n) ltac:(cbn [length]; lia) ltac:(lia)) as M.
    rewrite Hwn in M. cbn [length app] in M. replace (value e []) with 0%N in M by (destruct e; reflexivity).
    rewrite M. cbn [obind]. exists r1, n. rewrite Nat.sub_diag. cbn [zeros repeat]. rewrite app_nil_r.
    split; [reflexivity|]. split; [exact I1|]. split; [exact B1|]. split; [lia|]. split; lia.
Qed.

Lemma get_bits_32_read : forall e r p n, inv e r p -> n <= 32 ->
  read_result e r p n (get_bits_32 e r n).
Proof.
  intros e r p n H Hn. unfold get_bits_32, read_result.
  destruct (Nat.eqb_spec n 0) as [->|Hn0].
  { exists r, 0. rewrite Nat.add_0_r. repeat split; try apply H; try lia. destruct e; reflexivity. }
  pose proof (inv_left _ _ _ H) as Hl.
  assert (T : forall r1 k, inv e r1 p -> buffer r1 = buffer r -> k = Nat.min n (left r1) ->
              (value e (window (bits_of e (buffer r)) p k ++ zeros (n - left r1)) mod W32)%N
              = value e (window (bits_of e (buffer r)) p k ++ zeros (n - k))).
  { intros r1 k I1 B1 ->.
    replace (n - Nat.min n (left r1)) with (n - left r1) by lia. apply N.mod_small.
    eapply N.lt_le_trans; [apply value_bound|]. change W32 with (pow2 32).
    apply N.pow_le_mono_r; [lia|]. rewrite app_length, zeros_length.
    unfold window. rewrite firstn_length. lia. }
  destruct (Nat.leb_spec (left r) n) as [Hle|Hgt].
  - destruct (can_refill r) eqn:Hc.
    + destruct (refill32_some e r p H ltac:(lia) Hc) as [r1 [E1 [I1 [L1 [X1 B1]]]]].
      rewrite E1. cbn [obind].
      destruct (get_val_inv e r1 p n I1 ltac:(lia)) as [r2 [E2 [I2 [L2 [X2 B2]]]]].
      rewrite E2. cbn [obind]. rewrite B1. rewrite (T r1 _ I1 B1 eq_refl).
      exists r2, (Nat.min n (left r1)). split; [reflexivity|]. split; [exact I2|]. split; [congruence|].
      split; [lia|]. split; [lia|]. split; [lia|congruence].
    + rewrite (refill32_none e r Hc). cbn [obind].
      destruct (get_val_inv e r p n H ltac:(lia)) as [r2 [E2 [I2 [L2 [X2 B2]]]]].
      rewrite E2. cbn [obind]. rewrite (T r _ H eq_refl eq_refl).
      exists r2, (Nat.min n (left r)). split; [reflexivity|]. split; [exact I2|]. split; [exact B2|].
      split; [lia|]. split; [|lia]. intros _. split; [lia|].
      unfold can_refill in *. rewrite B2, X2. exact Hc.
  - cbn [obind]. destruct (get_val_inv e r p n H ltac:(lia)) as [r2 [E2 [I2 [L2 [X2 B2]]]]].
    rewrite E2. cbn [obind]. rewrite (T r _ H eq_refl eq_refl).
    exists r2, (Nat.min n (left r)). split; [reflexivity|]. split; [exact I2|]. split; [exact B2|].
    split; [lia|]. split; lia.
Qed.

Lemma get_bit_read : forall e r p, inv e r p ->
  exists r' k, get_bit e r = Ret (r', if k =? 0 then false else nth p (bits_of e (buffer r)) false) /\
    inv e r' (p + k) /\ buffer r' = buffer r /\ k <= 1 /\
    (k < 1 -> left r' = 0 /\ can_refill r' = false) /\ index r <= index r' <= index r + 8 /\
    (can_refill r = false -> index r' = index r).
Proof.
  intros e r p H. unfold get_bit.
  assert (V : forall r1, inv e r1 p -> buffer r1 = buffer r -> left r1 > 0 ->
    exists r', (let! (r2, v) := get_val e r1 1 in Ret (r2, negb (v =? 0)%N))
       = Ret (r', nth p (bits_of e (buffer r)) false) /\ inv e r' (p + 1) /\ buffer r' = buffer r /\ index r' = index r1).
  { intros r1 I1 B1 L1. destruct (get_val_inv e r1 p 1 I1 ltac:(lia)) as [r2 [E2 [I2 [L2 [X2 B2]]]]].
    rewrite E2. cbn [obind]. rewrite Nat.min_l in * by lia. replace (1 - left r1) with 0 by lia.
    cbn [zeros repeat]. rewrite app_nil_r, B1. exists r2. split; [|split; [exact I2|split; congruence]].
    do 2 f_equal.
    assert (Hlt : p < length (bits_of e (buffer r))).
    { rewrite bits_of_length. pose proof (inv_pos _ _ _ I1). pose proof (inv_index _ _ _ I1). rewrite B1 in *. lia. }
    unfold window.
    destruct (skipn p (bits_of e (buffer r))) as [|x t] eqn:Es.
    { apply (f_equal (@length bool)) in Es. rewrite skipn_length in Es. cbn [length] in Es. lia. }
    assert (Hn : nth p (bits_of e (buffer r)) false = x).
    { rewrite <- (firstn_skipn p (bits_of e (buffer r))), Es.
      rewrite app_nth2; rewrite firstn_length_le by lia; [|lia]. rewrite Nat.sub_diag. reflexivity. }
    rewrite Hn. cbn [firstn]. destruct e, x; reflexivity. }
  destruct (Nat.eqb_spec (left r) 0) as [Hz|Hz].
  - destruct (can_refill r) eqn:Hc.
    + destruct (refill64_some e r (inv_bytes _ _ _ H) Hc) as [r1 [E1 [I1 [L1 [X1 B1]]]]].
      rewrite E1. cbn [obind].
      replace (8 * index r) with p in I1 by (pose proof (inv_pos _ _ _ H); lia).
      destruct (V r1 I1 B1 ltac:(lia)) as [r' [E' [I' [B' X']]]].
      exists r', 1. rewrite E'. split; [reflexivity|]. split; [exact I'|]. split; [congruence|]. split; [lia|]. split; [lia|].
      split; [lia|congruence].
    + rewrite (refill64_none e r Hc). cbn [obind].
      destruct (get_val_inv e r p 1 H ltac:(lia)) as [r2 [E2 [I2 [L2 [X2 B2]]]]].
      rewrite E2. cbn [obind]. rewrite Hz in *. cbn [Nat.min] in *. exists r2, 0.
      split; [cbn [Nat.eqb window firstn zeros repeat app Nat.sub]; destruct e; reflexivity|].
      split; [exact I2|]. split; [exact B2|]. split; [lia|]. split; [|lia].
      intros _. split; [lia|]. unfold can_refill in *. rewrite B2, X2. exact Hc.
  - cbn [obind]. destruct (V r H eq_refl ltac:(lia)) as [r' [E' [I' [B' X']]]].
    exists r', 1. rewrite E'. split; [reflexivity|]. split; [exact I'|]. split; [congruence|]. split; [lia|]. split; lia.
Qed.

(** Skips that stay 8 bytes away from the end are exact. *)
Lemma skip_bits_exact : forall e r p n, inv e r p -> p + n + 64 <= 8 * length (buffer r) ->
  exists r', skip_bits e r n = Ret r' /\ inv e r' (p + n) /\ buffer r' = buffer r.
Proof.
  intros e r p n H Hr. unfold skip_bits. pose proof (inv_left _ _ _ H) as Hl.
  pose proof (inv_pos _ _ _ H) as Hp.
  destruct (Nat.ltb_spec (left r) n) as [Hlt|Hge].
  - assert (G : forall r1 n2, buffer r1 = buffer r -> n2 <= 64 -> 8 * index r1 + n2 = p + n ->
        exists r', (let! r3 := refill64 e (skip_rem e r1 n2) in Ret (skip_rem e r3 n2)) = Ret r' /\
          inv e r' (p + n) /\ buffer r' = buffer r).
    { intros r1 n2 B1 H2 Hx.
      assert (Hc : can_refill (skip_rem e r1 n2) = true).
      { apply can_refill_true. rewrite skip_rem_index, skip_rem_buffer, B1. lia. }
      destruct (refill64_some e (skip_rem e r1 n2)) as [r3 [E3 [I3 [L3 [X3 B3]]]]].
      { rewrite skip_rem_buffer, B1. apply (inv_bytes _ _ _ H). }
      { exact Hc. }
      rewrite E3. cbn [obind]. eexists. split; [reflexivity|].
      rewrite skip_rem_index in I3. rewrite skip_rem_buffer in B3.
      split; [|rewrite skip_rem_buffer; congruence].
      pose proof (skip_rem_inv e r3 _ n2 I3 H2) as I4. rewrite L3, Nat.min_l in I4 by lia.
      rewrite Hx in I4. exact I4. }
    destruct (Nat.ltb_spec 64 (n - left r)) as [Hbig|Hsmall]; apply G; cbn [buffer index]; try reflexivity; lia.
  - eexists. split; [reflexivity|]. split; [|apply skip_rem_buffer].
    pose proof (skip_rem_inv e r p n H ltac:(lia)) as I. rewrite Nat.min_l in I by lia. exact I.
Qed.

(** Skips that need no refill are exact anywhere. *)
Lemma skip_bits_cached : forall e r p n, inv e r p -> n <= left r ->
  exists r', skip_bits e r n = Ret r' /\ inv e r' (p + n) /\ buffer r' = buffer r /\ index r' = index r.
Proof.
  intros e r p n H Hn. unfold skip_bits. destruct (Nat.ltb_spec (left r) n); [lia|].
  eexists. split; [reflexivity|]. split; [|split; [apply skip_rem_buffer|apply skip_rem_index]].
  pose proof (skip_rem_inv e r p n H ltac:(pose proof (inv_left _ _ _ H); lia)) as I.
  rewrite Nat.min_l in I by lia. exact I.
Qed.

Lemma align_bits_exact : forall e r p, inv e r p ->
  exists r', align_bits e r = Ret r' /\ inv e r' (align8 p) /\ buffer r' = buffer r /\ index r' = index r.
Proof.
  intros e r p H. unfold align_bits.
  destruct (skip_bits_cached e r p (left r mod 8) H ltac:(apply Nat.mod_le; lia)) as [r' [E [I B]]].
  exists r'. split; [exact E|]. split; [|exact B].
  replace (align8 p) with (p + left r mod 8); [exact I|].
  unfold align8. pose proof (inv_pos _ _ _ H). lia.
Qed.

Lemma consumed_inv : forall e r p, inv e r p -> consumed r = Ret p.
Proof.
  intros e r p H. unfold consumed, csub. pose proof (inv_pos _ _ _ H).
  destruct (Nat.leb_spec (left r) (index r * 8)); [f_equal; lia|lia].
Qed.

Lemma available_inv : forall e r p, inv e r p -> available r = Ret (8 * length (buffer r) - p).
Proof.
  intros e r p H. unfold available, csub. pose proof (inv_pos _ _ _ H). pose proof (inv_index _ _ _ H).
  destruct (Nat.leb_spec (index r) (length (buffer r))); [|lia]. cbn [obind]. f_equal. lia.
Qed.

Lemma new_inv : forall e buf, bytes buf -> exists r, new e buf = Ret r /\ inv e r 0 /\ buffer r = buf.
Proof.
  intros e buf Hb. unfold new. destruct (can_refill (mk_reader buf 0 0%N 0)) eqn:Hc.
  - destruct (refill64_some e (mk_reader buf 0 0%N 0) Hb Hc) as [r [E [I [L [X B]]]]].
    exists r. repeat split; try assumption; apply I.
  - rewrite refill64_none by exact Hc. eexists. split; [reflexivity|]. split; [|reflexivity].
    constructor; cbn [buffer index cache left]; try lia; try assumption.
    cbn [window firstn app Nat.sub]. rewrite value_zeros. reflexivity.
Qed.

(** An exhausted reader is within 7 bytes of the end. *)
Lemma exhausted_near_end : forall e r p, inv e r p -> left r = 0 -> can_refill r = false ->
  8 * length (buffer r) <= p + 56.
Proof.
  intros e r p H Hl Hc. pose proof (inv_pos _ _ _ H).
  assert (~ (index r + 8 <= length (buffer r))) by (rewrite <- can_refill_true, Hc; discriminate). lia.
Qed.

Lemma read_result_exact : forall e r p n o, read_result e r p n o -> p + n + 56 <= 8 * length (buffer r) ->
  exists r', o = Ret (r', value e (window (bits_of e (buffer r)) p n)) /\ inv e r' (p + n) /\ buffer r' = buffer r.
Proof.
  intros e r p n o [r' [k [E [I [B [Hk [Hx _]]]]]]] Hr.
  assert (k = n).
  { destruct (Nat.eq_dec k n) as [|Hne]; [assumption|]. destruct (Hx ltac:(lia)) as [L C].
    pose proof (exhausted_near_end e r' _ I L C). rewrite B in *. lia. }
  subst k. exists r'. rewrite Nat.sub_diag in E. cbn [zeros repeat] in E. rewrite app_nil_r in E.
  split; [exact E|]. split; [exact I|exact B].
Qed.

(** ** Sequences of operations *)

Lemma run_op_exact : forall e r p op, inv e r p -> op_ok op ->
  p + op_bits p op + 64 <= 8 * length (buffer r) ->
  exists r', run_op e r op = Ret (r', snd (spec_op e (bits_of e (buffer r)) p op)) /\
    inv e r' (fst (spec_op e (bits_of e (buffer r)) p op)) /\ buffer r' = buffer r.
Proof.
  intros e r p op H Hok Hr.
  assert (GB : p + 1 + 56 <= 8 * length (buffer r) ->
     exists r', get_bit e r = Ret (r', nth p (bits_of e (buffer r)) false) /\ inv e r' (p + 1) /\ buffer r' = buffer r).
  { intros Hr1. destruct (get_bit_read e r p H) as [r' [k [E [I [B [Hk [Hx _]]]]]]].
    assert (k = 1).
    { destruct (Nat.eq_dec k 1) as [|Hne]; [assumption|]. destruct (Hx ltac:(lia)) as [L C].
      pose proof (exhausted_near_end e r' _ I L C). rewrite B in *. lia. }
    subst k. exists r'. split; [exact E|]. split; [exact I|exact B]. }
  destruct op; cbn [run_op op_bits op_ok spec_op fst snd] in *.
  - destruct (GB ltac:(lia)) as [r' [E [I B]]]. rewrite E. cbn [obind]. exists r'. auto.
  - destruct (read_result_exact e r p n _ (get_bits_32_read e r p n H Hok) ltac:(lia)) as [r' [E [I B]]].
    rewrite E. cbn [obind]. exists r'. auto.
  - destruct (read_result_exact e r p n _ (get_bits_64_read e r p n H Hok) ltac:(lia)) as [r' [E [I B]]].
    rewrite E. cbn [obind]. exists r'. auto.
  - destruct (GB ltac:(lia)) as [r' [E [I B]]]. unfold peek_bit. rewrite E. cbn [obind]. exists r. auto.
  - destruct (read_result_exact e r p n _ (get_bits_32_read e r p n H Hok) ltac:(lia)) as [r' [E [I B]]].
    unfold peek_bits_32. rewrite E. cbn [obind]. exists r. auto.
  - destruct (read_result_exact e r p n _ (get_bits_64_read e r p n H Hok) ltac:(lia)) as [r' [E [I B]]].
    unfold peek_bits_64. rewrite E. cbn [obind]. exists r. auto.
  - destruct (skip_bits_exact e r p n H Hr) as [r' [E [I B]]]. rewrite E. cbn [obind]. exists r'. auto.
  - destruct (align_bits_exact e r p H) as [r' [E [I [B _]]]]. rewrite E. cbn [obind]. exists r'. auto.
  - rewrite (consumed_inv e r p H). cbn [obind]. exists r. auto.
  - rewrite (available_inv e r p H), bits_of_length. cbn [obind]. exists r. auto.
Qed.

Lemma run_ops_exact : forall e ops r p, inv e r p ->
  ops_within e (bits_of e (buffer r)) (8 * length (buffer r) - 64) p ops ->
  64 <= 8 * length (buffer r) ->
  exists r', run_ops e r ops = Ret (r', snd (spec_ops e (bits_of e (buffer r)) p ops)) /\
    inv e r' (fst (spec_ops e (bits_of e (buffer r)) p ops)) /\ buffer r' = buffer r.
Proof.
  induction ops as [|op ops IH]; intros r p H Hw Hlen.
  - exists r. auto.
  - cbn [ops_within] in Hw. destruct Hw as [Hok [Hp Hw]].
    destruct (run_op_exact e r p op H Hok ltac:(lia)) as [r1 [E1 [I1 B1]]].
    cbn [run_ops spec_ops]. rewrite E1. cbn [obind].
    destruct (spec_op e (bits_of e (buffer r)) p op) as [p1 o1] eqn:Es. cbn [fst snd] in *.
    rewrite <- B1 in Hw, Hlen. destruct (IH r1 p1 I1 Hw Hlen) as [r2 [E2 [I2 B2]]].
    rewrite E2. cbn [obind]. rewrite B1 in *.
    destruct (spec_ops e (bits_of e (buffer r)) p1 ops) as [p2 os]. cbn [fst snd] in *.
    exists r2. split; [reflexivity|]. split; [exact I2|congruence].
Qed.
