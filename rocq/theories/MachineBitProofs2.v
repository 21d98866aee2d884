(** The unchecked bit reader on any width of [usize] does what the one on 64 bits does. *)
From Coq Require Import List Arith NArith ZArith Bool Lia.
From Coq Require Import ZifyBool ZifyNat ZifyN.
From Verif Require Import Base ByteModel BitModel WordBitModel WordSpec WordBitProofs ReleaseModel ReleaseBitModel.
From Verif Require Import MachineModel MachineBitModel MachineBitSpec MachineBitProofs.
Import ListNotations.
Local Open Scope N_scope.

Section Any.
Variable m : machine.
Hypothesis Hc : checked m = false.
Hypothesis Hb : 8 <= bits m.
Hypothesis Hw : bits m <= 64.

Lemma mod_256 : 256 <= modulus m.
Proof. unfold modulus. change 256 with (2 ^ 8). apply N.pow_le_mono_r; [discriminate|exact Hb]. Qed.
Lemma word_multiple : W64 = modulus m * 2 ^ (64 - bits m).
Proof. unfold modulus. rewrite <- N.pow_add_r. replace (bits m + (64 - bits m)) with 64 by lia. reflexivity. Qed.
Lemma mod_64 : modulus m <= W64.
Proof. unfold modulus. change W64 with (2 ^ 64). apply N.pow_le_mono_r; [discriminate|exact Hw]. Qed.
Lemma mod_nz : modulus m <> 0.
Proof. pose proof mod_256. lia. Qed.
Lemma mod_word x : (x mod W64) mod modulus m = x mod modulus m.
Proof.
  rewrite word_multiple. rewrite N.mod_mul_r; [|apply mod_nz|apply N.pow_nonzero; discriminate].
  rewrite N.mul_comm, N.mod_add by apply mod_nz. apply N.mod_mod. apply mod_nz.
Qed.

Lemma ranged_off x : ranged m x = Ret (x mod modulus m).
Proof. unfold ranged. rewrite Hc. destruct (N.ltb_spec x (modulus m)); [rewrite N.mod_small by assumption|]; reflexivity. Qed.
Lemma in_add' a b : a + b < modulus m -> madd m a b = Ret (radd a b).
Proof. intros H. unfold madd, radd. rewrite ranged_off. pose proof mod_64. rewrite !N.mod_small by lia. reflexivity. Qed.
Lemma in_mul' a b : a * b < modulus m -> mmul m a b = Ret (rmul a b).
Proof. intros H. unfold mmul, rmul. rewrite ranged_off. pose proof mod_64. rewrite !N.mod_small by lia. reflexivity. Qed.
Lemma rsub_le a b : b <= a -> a < W64 -> rsub a b = a - b.
Proof.
  intros H1 H2. unfold rsub. rewrite (N.mod_small b) by lia. replace (a + (W64 - b)) with (a - b + 1 * W64) by lia.
  rewrite N.mod_add by discriminate. apply N.mod_small. lia.
Qed.
Lemma in_sub' a b : b <= a -> a < modulus m -> msub m a b = Ret (rsub a b).
Proof. intros H1 H2. unfold msub. destruct (N.leb_spec b a); [|lia]. rewrite rsub_le; [reflexivity|exact H1|]. pose proof mod_64. lia. Qed.

Lemma shl_off a n : mb_shl m a n = Ret (rshl a n).
Proof. unfold mb_shl. rewrite Hc. reflexivity. Qed.
Lemma peek_off e r n : mb_peek_val m e r n = Ret (rb_peek_val e r n).
Proof.
  destruct e; cbn [mb_peek_val rb_peek_val]; [reflexivity|]. rewrite Hc.
  destruct (N.leb_spec (w_as_u32 n) 64) as [H|H]; [|reflexivity]. f_equal. f_equal.
  set (k := w_as_u32 n) in *. clearbody k. change W32 with 4294967296. replace (64 + (4294967296 - k)) with (64 - k + 1 * 4294967296) by lia.
  rewrite N.mod_add by discriminate. symmetry. apply N.mod_small. lia.
Qed.
Lemma val_off e r n : mb_get_val m e r n = Ret (rb_get_val e r n).
Proof. unfold mb_get_val. rewrite peek_off. reflexivity. Qed.
Lemma merge_off e a b k l : mb_merge_val m e a b k l = Ret (rb_merge_val e a b k l).
Proof. destruct e; cbn [mb_merge_val rb_merge_val]; [rewrite shl_off|]; reflexivity. Qed.

(** Shift amounts are taken modulo 64, which divides every power of two from there on. *)
Lemma wrap_64 k d : 4 <= k -> d <= 64 -> 0 < d -> (64 * k - d) mod 64 = (64 - d) mod 64.
Proof. intros H1 H2 H3. replace (64 * k - d) with (64 - d + (k - 1) * 64) by lia. apply N.mod_add. discriminate. Qed.
Lemma wrap_sub b l : 8 <= b -> 32 < l -> l <= 95 -> ((32 + (2 ^ b - l mod 2 ^ b)) mod 2 ^ b) mod 64 = (96 - l) mod 64.
Proof.
  intros Hb' H1 H2. assert (256 <= 2 ^ b) as H by (change 256 with (2 ^ 8); apply N.pow_le_mono_r; [discriminate|exact Hb']).
  assert (E : 2 ^ b = 64 * 2 ^ (b - 6)) by (change 64 with (2 ^ 6) at 1; rewrite <- N.pow_add_r; f_equal; lia).
  set (k := 2 ^ (b - 6)) in *. rewrite E in *. clearbody k. clear E. rewrite (N.mod_small l) by lia. rewrite (N.mod_small _ (64 * k)) by lia.
  replace (32 + (64 * k - l)) with (64 * k - (l - 32)) by lia. rewrite wrap_64 by lia. f_equal. lia.
Qed.
Lemma cache_off e c v l : l <= 95 -> mb_build_cache m e c v l = Ret (rb_build_cache e c v l).
Proof.
  intros Hl. destruct e; cbn [mb_build_cache rb_build_cache]; [rewrite shl_off; reflexivity|]. destruct (N.leb_spec l 32) as [H|H].
  - rewrite in_sub' by (pose proof mod_256; lia). cbn [obind]. rewrite shl_off. reflexivity.
  - unfold msub. destruct (N.leb_spec l 32); [lia|]. rewrite Hc. cbn [obind]. rewrite shl_off. cbn [obind]. do 2 f_equal. unfold rshl. do 2 f_equal.
    unfold rsub, modulus. rewrite wrap_sub by assumption. change W64 with (2 ^ 64). rewrite wrap_sub; [reflexivity|discriminate|assumption..].
Qed.

(** Readers whose index leaves room. *)
Definition limit (r : wreader) (k : N) : Prop := N.max (w_index r) (w_len r) + k + 64 < modulus m.
Definition near (r r' : wreader) (k : N) : Prop :=
  w_buffer r' = w_buffer r /\ w_left r' <= 64 /\ w_index r' <= N.max (w_index r) (w_len r) + k.

Lemma near_refl r : w_left r <= 64 -> near r r 0.
Proof. intros H. split; [reflexivity|]. split; [exact H|]. lia. Qed.
Lemma near_len r r' k : near r r' k -> w_len r' = w_len r.
Proof. intros [H _]. unfold w_len. rewrite H. reflexivity. Qed.
Lemma near_trans r1 r2 r3 a b : near r1 r2 a -> near r2 r3 b -> near r1 r3 (a + b).
Proof.
  intros H1 H2. pose proof (near_len _ _ _ H1) as L. destruct H1 as [A1 [A2 A3]]. destruct H2 as [B1 [B2 B3]].
  split; [congruence|]. split; [exact B2|]. rewrite L in *. lia.
Qed.
Lemma near_step r1 r2 r3 : near r1 r2 0 -> near r2 r3 0 -> near r1 r3 0.
Proof. exact (near_trans r1 r2 r3 0 0). Qed.
Lemma near_limit r r' j k : near r r' j -> limit r (j + k) -> limit r' k.
Proof. intros H. pose proof (near_len _ _ _ H) as L. destruct H as [_ [_ H]]. unfold limit. rewrite L. lia. Qed.
Lemma near_left r r' k : near r r' k -> w_left r' <= 64.
Proof. intros [_ [H _]]. exact H. Qed.

Lemma rem_near e r n : w_left r <= 64 -> near r (w_skip_rem e r n) 0.
Proof. intros H. destruct e; cbn [w_skip_rem]; (split; [reflexivity|]; cbn [w_left w_index]; split; lia). Qed.

Lemma can_off r : limit r 0 -> mb_can_refill m r = Ret (rb_can_refill r) /\ rb_can_refill r = (w_index r + 8 <=? w_len r).
Proof.
  intros H. unfold limit in H. unfold mb_can_refill, rb_can_refill. rewrite in_add' by lia. split; [reflexivity|]. unfold radd.
  rewrite N.mod_small; [reflexivity|]. pose proof mod_64. lia.
Qed.
Lemma refill64_off e r : limit r 0 -> mb_refill64 m e r = rb_refill64 e r.
Proof.
  intros H. unfold mb_refill64, rb_refill64. rewrite (proj1 (can_off r H)). cbn [obind]. destruct (rb_can_refill r); cbn [negb]; [|reflexivity].
  destruct (w_fill64 e r) as [v| |]; cbn [obind]; [|reflexivity..]. unfold limit in H. rewrite in_add' by lia. reflexivity.
Qed.
Lemma refill64_near e r r' : limit r 0 -> w_left r <= 64 -> rb_refill64 e r = Ret r' -> near r r' 0.
Proof.
  intros H Hl. unfold rb_refill64. rewrite (proj2 (can_off r H)). destruct (N.leb_spec (w_index r + 8) (w_len r)) as [L|L]; cbn [negb].
  - destruct (w_fill64 e r) as [v| |]; cbn [obind]; intros E; try discriminate E. injection E as <-. unfold limit in H. unfold radd.
    rewrite N.mod_small by (pose proof mod_64; lia). split; [reflexivity|]. cbn [w_left w_index]. split; [discriminate|lia].
  - intros E. injection E as <-. apply near_refl. exact Hl.
Qed.
Lemma refill32_off e r : limit r 0 -> w_left r <= 64 -> mb_refill32 m e r = rb_refill32 e r.
Proof.
  intros H Hl. unfold mb_refill32, rb_refill32. rewrite (proj1 (can_off r H)). cbn [obind]. destruct (rb_can_refill r); cbn [negb]; [|reflexivity].
  destruct (w_fill32 e r) as [v| |]; cbn [obind]; [|reflexivity..]. rewrite cache_off by lia. cbn [obind]. unfold limit in H.
  rewrite in_add' by lia. cbn [obind]. rewrite in_add' by (pose proof mod_256; lia). reflexivity.
Qed.
Lemma refill32_near e r r' n : limit r 0 -> w_left r <= 64 -> rb_refill32 e r = Ret r' -> w_left r <= n -> near r (w_skip_rem e r' n) 0.
Proof.
  intros H Hl. unfold rb_refill32. rewrite (proj2 (can_off r H)). destruct (N.leb_spec (w_index r + 8) (w_len r)) as [L|L]; cbn [negb].
  - destruct (w_fill32 e r) as [v| |]; cbn [obind]; intros E Hn; try discriminate E. injection E as <-. unfold limit in H. unfold radd.
    rewrite !N.mod_small by (pose proof mod_64; pose proof mod_256; lia).
    destruct e; cbn [w_skip_rem w_buffer w_left w_index]; (split; [reflexivity|]; cbn [w_left w_index]; split; lia).
  - intros E Hn. injection E as <-. apply rem_near. exact Hl.
Qed.

Lemma get_bit_off e r : limit r 0 -> mb_get_bit m e r = rb_get_bit e r.
Proof.
  intros H. unfold mb_get_bit, rb_get_bit. destruct (w_left r =? 0).
  - rewrite (refill64_off e r H). destruct (rb_refill64 e r) as [r1| |]; cbn [obind]; [|reflexivity..]. rewrite val_off. reflexivity.
  - cbn [obind]. rewrite val_off. reflexivity.
Qed.
Lemma get_bit_near e r r' b : limit r 0 -> w_left r <= 64 -> rb_get_bit e r = Ret (r', b) -> near r r' 0.
Proof.
  intros H Hl. unfold rb_get_bit. destruct (w_left r =? 0).
  - destruct (rb_refill64 e r) as [r1| |] eqn:E1; cbn [obind]; try discriminate. unfold rb_get_val. intros E. injection E as <- _.
    pose proof (refill64_near e r r1 H Hl E1) as W. apply (near_step _ _ _ W). apply rem_near. exact (near_left _ _ _ W).
  - cbn [obind]. unfold rb_get_val. intros E. injection E as <- _. apply rem_near. exact Hl.
Qed.

Lemma get32_off e r n : limit r 0 -> w_left r <= 64 -> mb_get_bits_32 m e r n = rb_get_bits_32 e r n.
Proof.
  intros H Hl. unfold mb_get_bits_32, rb_get_bits_32. destruct (n =? 0); [reflexivity|]. destruct (w_left r <=? n).
  - rewrite (refill32_off e r H Hl). destruct (rb_refill32 e r) as [r1| |]; cbn [obind]; [|reflexivity..]. rewrite val_off. reflexivity.
  - cbn [obind]. rewrite val_off. reflexivity.
Qed.
Lemma get32_near e r n r' v : limit r 0 -> w_left r <= 64 -> rb_get_bits_32 e r n = Ret (r', v) -> near r r' 0.
Proof.
  intros H Hl. unfold rb_get_bits_32. destruct (n =? 0); [intros E; injection E as <- _; apply near_refl; exact Hl|].
  destruct (N.leb_spec (w_left r) n) as [L|L].
  - destruct (rb_refill32 e r) as [r1| |] eqn:E1; cbn [obind]; try discriminate. unfold rb_get_val. intros E. injection E as <- _.
    exact (refill32_near e r r1 n H Hl E1 L).
  - cbn [obind]. unfold rb_get_val. intros E. injection E as <- _. apply rem_near. exact Hl.
Qed.

Lemma get64_off e r n : limit r 0 -> w_left r <= 64 -> n < modulus m -> mb_get_bits_64 m e r n = rb_get_bits_64 e r n.
Proof.
  intros H Hl Hn. unfold mb_get_bits_64, rb_get_bits_64. destruct (n =? 0); [reflexivity|]. destruct (N.ltb_spec (w_left r) n) as [L|L].
  - rewrite in_sub' by lia. cbn [obind]. rewrite val_off. unfold rb_get_val. cbn [obind]. cbv zeta. rewrite refill64_off.
    2:{ apply (near_limit r _ 0 0); [apply rem_near; exact Hl|exact H]. }
    destruct (rb_refill64 e (w_skip_rem e r (w_left r))) as [r2| |]; cbn [obind]; [|reflexivity..]. rewrite val_off. unfold rb_get_val. cbn [obind].
    rewrite merge_off. reflexivity.
  - rewrite val_off. unfold rb_get_val. cbn [obind]. rewrite merge_off. reflexivity.
Qed.
Lemma get64_near e r n r' v : limit r 0 -> w_left r <= 64 -> rb_get_bits_64 e r n = Ret (r', v) -> near r r' 0.
Proof.
  intros H Hl. unfold rb_get_bits_64. destruct (n =? 0); [intros E; injection E as <- _; apply near_refl; exact Hl|].
  destruct (w_left r <? n); unfold rb_get_val; cbv zeta.
  - pose proof (rem_near e r (w_left r) Hl) as W1. destruct (rb_refill64 e (w_skip_rem e r (w_left r))) as [r2| |] eqn:E2; cbn [obind]; try discriminate.
    apply refill64_near in E2; [|exact (near_limit r _ 0 0 W1 H)|exact (near_left _ _ _ W1)]. intros E. injection E as <- _.
    apply (near_step _ _ _ W1). apply (near_step _ _ _ E2). apply rem_near. exact (near_left _ _ _ E2).
  - intros E. injection E as <- _. apply rem_near. exact Hl.
Qed.

(** The part of [skip_bits] behind the whole bytes *)
Lemma tail_off e r n : limit r 0 -> w_left r <= 64 ->
  (let! r3 := mb_refill64 m e (w_skip_rem e r n) in Ret (w_skip_rem e r3 n)) = (let! r3 := rb_refill64 e (w_skip_rem e r n) in Ret (w_skip_rem e r3 n)).
Proof. intros H Hl. rewrite refill64_off; [reflexivity|]. apply (near_limit r _ 0 0); [apply rem_near; exact Hl|exact H]. Qed.
Lemma tail_near e r n r' : limit r 0 -> w_left r <= 64 -> (let! r3 := rb_refill64 e (w_skip_rem e r n) in Ret (w_skip_rem e r3 n)) = Ret r' -> near r r' 0.
Proof.
  intros H Hl. pose proof (rem_near e r n Hl) as W1. destruct (rb_refill64 e (w_skip_rem e r n)) as [r2| |] eqn:E2; cbn [obind]; try discriminate.
  apply refill64_near in E2; [|exact (near_limit r _ 0 0 W1 H)|exact (near_left _ _ _ W1)]. intros E. injection E as <-.
  apply (near_step _ _ _ W1). apply (near_step _ _ _ E2). apply rem_near. exact (near_left _ _ _ E2).
Qed.

Definition moved (r : wreader) (k : N) : wreader := mk_wreader (w_buffer r) (w_index r + k) (w_cache r) (w_left r).
Lemma moved_near r k : w_left r <= 64 -> near r (moved r k) k.
Proof. intros H. split; [reflexivity|]. split; [exact H|]. cbn [moved w_index]. lia. Qed.

Lemma skip_split e r n : limit r (n / 8) -> w_left r <= 64 -> n < modulus m ->
  exists r1 n2, near r r1 (n / 8) /\
    mb_skip_bits m e r n = (if w_left r <? n then let! r3 := mb_refill64 m e (w_skip_rem e r1 n2) in Ret (w_skip_rem e r3 n2) else Ret (w_skip_rem e r n)) /\
    rb_skip_bits e r n = (if w_left r <? n then let! r3 := rb_refill64 e (w_skip_rem e r1 n2) in Ret (w_skip_rem e r3 n2) else Ret (w_skip_rem e r n)).
Proof.
  intros H Hl Hn. pose proof mod_64 as M. unfold mb_skip_bits, rb_skip_bits. destruct (N.ltb_spec (w_left r) n) as [L|L].
  2:{ exists r, 0. split; [|split; reflexivity]. split; [reflexivity|]. split; [exact Hl|lia]. }
  rewrite in_sub' by lia. cbn [obind]. rewrite rsub_le by lia. destruct (N.ltb_spec 64 (n - w_left r)) as [L2|L2].
  - set (k := (n - w_left r) / 8). assert (K1 : k * 8 <= n - w_left r) by (unfold k; rewrite N.mul_comm; apply N.mul_div_le; discriminate).
    assert (K2 : k <= n / 8) by (unfold k; apply N.div_le_mono; [discriminate|lia]). clearbody k. set (q := n / 8) in *. clearbody q. unfold limit in H. cbv zeta.
    rewrite in_mul' by lia. cbn [obind]. unfold rmul. rewrite N.mod_small by lia. rewrite in_sub' by lia. cbn [obind]. rewrite in_add' by lia. cbn [obind].
    exists (moved r k), (rsub (n - w_left r) (k * 8)). unfold radd. rewrite !N.mod_small by lia. split; [|split; reflexivity].
    split; [reflexivity|]. split; [exact Hl|]. cbn [moved w_index]. lia.
  - exists r, (n - w_left r). split; [|split; reflexivity]. split; [reflexivity|]. split; [exact Hl|lia].
Qed.
Lemma skip_off e r n : limit r (n / 8) -> w_left r <= 64 -> n < modulus m -> mb_skip_bits m e r n = rb_skip_bits e r n.
Proof.
  intros H Hl Hn. destruct (skip_split e r n H Hl Hn) as [r1 [n2 [W [-> ->]]]]. destruct (w_left r <? n); [|reflexivity].
  apply tail_off; [|exact (near_left _ _ _ W)]. apply (near_limit r r1 (n / 8) 0 W). rewrite N.add_0_r. exact H.
Qed.
Lemma skip_near e r n r' : limit r (n / 8) -> w_left r <= 64 -> n < modulus m -> rb_skip_bits e r n = Ret r' -> near r r' (n / 8).
Proof.
  intros H Hl Hn. destruct (skip_split e r n H Hl Hn) as [r1 [n2 [W [_ ->]]]]. destruct (w_left r <? n); intros E.
  - apply tail_near in E; [|apply (near_limit r r1 (n / 8) 0 W); rewrite N.add_0_r; exact H|exact (near_left _ _ _ W)].
    pose proof (near_trans _ _ _ _ _ W E) as G. rewrite N.add_0_r in G. exact G.
  - injection E as <-. destruct (rem_near e r n Hl) as [A1 [A2 A3]]. split; [exact A1|]. split; [exact A2|]. lia.
Qed.

(** Counts are those on 64 bits modulo the width. *)
Lemma rsub_mod a b x : x mod modulus m = a mod modulus m -> x < modulus m -> msub m x b = Ret (rsub a b mod modulus m).
Proof.
  intros Hx Hlt. unfold rsub. rewrite mod_word. pose proof mod_nz as Z. unfold msub.
  assert (G : (a + (W64 - b mod W64)) mod modulus m = (x + (modulus m - b mod modulus m)) mod modulus m).
  { rewrite (N.add_mod a) by exact Z. rewrite <- Hx. rewrite (N.add_mod x (modulus m - b mod modulus m)) by exact Z. f_equal. f_equal.
    assert (B : b mod W64 < W64) by (apply N.mod_lt; discriminate). assert (C : b mod modulus m < modulus m) by (apply N.mod_lt; exact Z).
    rewrite <- (mod_word b) in *. set (y := b mod W64) in *. clearbody y. pose proof (N.div_mod y (modulus m) Z) as D.
    set (q := y / modulus m) in *. set (s := y mod modulus m) in *. clearbody q s. rewrite word_multiple in *. set (t := 2 ^ (64 - bits m)) in *. clearbody t.
    set (M := modulus m) in *. clearbody M. clear - B C D Z.
    assert (q + 1 <= t) as T by nia. replace (M * t - y) with (M - s + (t - (q + 1)) * M) by nia. apply N.mod_add. exact Z. }
  rewrite G. clear G. destruct (N.leb_spec b x) as [L|L]; [|rewrite Hc; reflexivity]. f_equal.
  rewrite (N.mod_small b) by lia. replace (x + (modulus m - b)) with (x - b + 1 * modulus m) by lia. rewrite N.mod_add by exact Z. symmetry. apply N.mod_small. lia.
Qed.
Lemma consumed_off r : mb_consumed m r = Ret (rb_consumed r mod modulus m).
Proof.
  pose proof mod_nz as Z. unfold mb_consumed, rb_consumed, mmul, rmul. rewrite ranged_off. cbn [obind]. apply rsub_mod; [|apply N.mod_lt; exact Z].
  rewrite mod_word. apply N.mod_mod. exact Z.
Qed.
Lemma available_off r : w_len r < modulus m -> mb_available m r = Ret (rb_available r mod modulus m).
Proof.
  intros L. pose proof mod_nz as Z. unfold mb_available, rb_available. rewrite (rsub_mod (w_len r) (w_index r)) by (reflexivity || exact L).
  cbn [obind]. unfold mmul, madd, rmul, radd. rewrite ranged_off. cbn [obind]. rewrite ranged_off. f_equal. rewrite mod_word.
  set (d := rsub (w_len r) (w_index r)). clearbody d. rewrite (N.add_mod ((d mod modulus m * 8) mod modulus m)) by exact Z. rewrite N.mod_mod by exact Z.
  rewrite (N.add_mod ((d * 8) mod W64)) by exact Z. rewrite mod_word. do 2 f_equal. rewrite (N.mul_mod d 8) by exact Z.
  rewrite (N.mul_mod (d mod modulus m) 8) by exact Z. rewrite N.mod_mod by exact Z. reflexivity.
Qed.

Lemma align_arg r : N.land (w_left r) 7 < 8.
Proof. change 7 with (N.ones 3). rewrite N.land_ones. apply N.mod_lt. discriminate. Qed.

Definition shown (p : wreader * bit_out) : wreader * bit_out := (fst p, narrow m (snd p)).

Lemma op_off e r op : limit r (op_skip op / 8) -> w_left r <= 64 -> arg_on m op -> mb_run_op m e r op = omap shown (rb_run_op e r op).
Proof.
  intros H Hl A. assert (H0 : limit r 0) by (unfold limit in *; lia).
  destruct op as [|n|n| |n|n|n| | |]; cbn [mb_run_op rb_run_op op_skip arg_on] in *.
  - rewrite (get_bit_off e r H0). destruct (rb_get_bit e r) as [[r1 v]| |]; reflexivity.
  - rewrite (get32_off e r _ H0 Hl). destruct (rb_get_bits_32 e r (N.of_nat n)) as [[r1 v]| |]; reflexivity.
  - rewrite (get64_off e r _ H0 Hl A). destruct (rb_get_bits_64 e r (N.of_nat n)) as [[r1 v]| |]; reflexivity.
  - rewrite (get_bit_off e r H0). destruct (rb_get_bit e r) as [[r1 v]| |]; reflexivity.
  - rewrite (get32_off e r _ H0 Hl). destruct (rb_get_bits_32 e r (N.of_nat n)) as [[r1 v]| |]; reflexivity.
  - rewrite (get64_off e r _ H0 Hl A). destruct (rb_get_bits_64 e r (N.of_nat n)) as [[r1 v]| |]; reflexivity.
  - rewrite (skip_off e r _ H Hl A). destruct (rb_skip_bits e r (N.of_nat n)) as [r1| |]; reflexivity.
  - unfold mb_align_bits, rb_align_bits. pose proof (align_arg r) as L. rewrite skip_off; [|rewrite (N.div_small _ _ L); exact H0|exact Hl|pose proof mod_256; lia].
    destruct (rb_skip_bits e r (N.land (w_left r) 7)) as [r1| |]; reflexivity.
  - rewrite consumed_off. cbn [obind omap]. unfold shown, narrow. cbn [fst snd]. rewrite N2Nat.id. reflexivity.
  - rewrite available_off by (unfold limit in H; lia). cbn [obind omap]. unfold shown, narrow. cbn [fst snd]. rewrite N2Nat.id. reflexivity.
Qed.
Lemma op_near e r op r' o : limit r (op_skip op / 8) -> w_left r <= 64 -> arg_on m op -> rb_run_op e r op = Ret (r', o) -> near r r' (op_skip op / 8).
Proof.
  intros H Hl A. assert (H0 : limit r 0) by (unfold limit in *; lia). pose proof (near_refl r Hl) as W0.
  destruct op as [|n|n| |n|n|n| | |]; cbn [rb_run_op op_skip arg_on] in *; try change (0 / 8) with 0.
  - destruct (rb_get_bit e r) as [[r1 v]| |] eqn:E; cbn [obind]; intros X; try discriminate X. injection X as <- _. exact (get_bit_near e r r1 v H0 Hl E).
  - destruct (rb_get_bits_32 e r (N.of_nat n)) as [[r1 v]| |] eqn:E; cbn [obind]; intros X; try discriminate X. injection X as <- _. exact (get32_near e r _ r1 v H0 Hl E).
  - destruct (rb_get_bits_64 e r (N.of_nat n)) as [[r1 v]| |] eqn:E; cbn [obind]; intros X; try discriminate X. injection X as <- _. exact (get64_near e r _ r1 v H0 Hl E).
  - destruct (rb_get_bit e r) as [[r1 v]| |]; cbn [obind]; intros X; try discriminate X. injection X as <- _. exact W0.
  - destruct (rb_get_bits_32 e r (N.of_nat n)) as [[r1 v]| |]; cbn [obind]; intros X; try discriminate X. injection X as <- _. exact W0.
  - destruct (rb_get_bits_64 e r (N.of_nat n)) as [[r1 v]| |]; cbn [obind]; intros X; try discriminate X. injection X as <- _. exact W0.
  - destruct (rb_skip_bits e r (N.of_nat n)) as [r1| |] eqn:E; cbn [obind]; intros X; try discriminate X. injection X as <- _. exact (skip_near e r _ r1 H Hl A E).
  - unfold rb_align_bits. pose proof (align_arg r) as L. destruct (rb_skip_bits e r (N.land (w_left r) 7)) as [r1| |] eqn:E; cbn [obind]; intros X; try discriminate X.
    injection X as <- _. pose proof (N.div_small _ _ L) as D. rewrite <- D. apply (skip_near e r _ r1); [rewrite D; exact H0|exact Hl|pose proof mod_256; lia|exact E].
  - intros X. injection X as <- _. exact W0.
  - intros X. injection X as <- _. exact W0.
Qed.

(** [limit] for a whole history, counted in bits *)
Definition stretch (r : wreader) (s : N) : Prop := 8 * N.max (w_index r) (w_len r) + s + 512 < 8 * modulus m.
Lemma stretch_limit r s k : stretch r (s + k) -> limit r (s / 8).
Proof. unfold stretch, limit. pose proof (N.mul_div_le s 8 ltac:(discriminate)). lia. Qed.
Lemma stretch_near r r' s k : near r r' (s / 8) -> stretch r (s + k) -> stretch r' k.
Proof. intros H. pose proof (near_len _ _ _ H) as L. destruct H as [_ [_ H]]. unfold stretch. rewrite L. pose proof (N.mul_div_le s 8 ltac:(discriminate)). lia. Qed.

Definition shown_all (p : wreader * list bit_out) : wreader * list bit_out := (fst p, map (narrow m) (snd p)).
Lemma ops_off e : forall ops r, stretch r (total_skip ops) -> w_left r <= 64 -> Forall (arg_on m) ops ->
  mb_run_ops m e r ops = omap shown_all (rb_run_ops e r ops).
Proof.
  induction ops as [|op ops IH]; intros r S Hl A; cbn [mb_run_ops rb_run_ops]; [reflexivity|]. inversion A as [|? ? A1 A2]; subst. rewrite total_cons in S.
  pose proof (stretch_limit _ _ _ S) as H. rewrite (op_off e r op H Hl A1). rewrite obind_omap, omap_obind. apply obind_ext. intros [r1 o] E.
  cbn [shown fst snd]. pose proof (op_near e r op r1 o H Hl A1 E) as W.
  rewrite (IH r1 (stretch_near _ _ _ _ W S) (near_left _ _ _ W) A2). rewrite obind_omap, omap_obind. apply obind_ext. intros [r2 os] _. reflexivity.
Qed.
Lemma new_off e buf : N.of_nat (length buf) + 64 < modulus m -> mb_new m e buf = rb_new e buf.
Proof. intros H. unfold mb_new, rb_new. apply refill64_off. unfold limit, w_len. cbn [w_index w_buffer]. lia. Qed.
Lemma new_near e buf r : N.of_nat (length buf) + 64 < modulus m -> rb_new e buf = Ret r -> near (mk_wreader buf 0 0 0) r 0.
Proof. intros H. apply refill64_near; [unfold limit, w_len; cbn [w_index w_buffer]; lia|discriminate]. Qed.

Lemma run_off e buf ops : N.of_nat (length buf) + total_skip ops / 8 + 64 < 2 ^ bits m -> Forall (arg_on m) ops ->
  mb_run_from_new m e buf ops = (let! (r, outs) := rb_run_from_new e buf ops in Ret (r, map (narrow m) outs)).
Proof.
  intros S A. change (2 ^ bits m) with (modulus m) in S. unfold mb_run_from_new, rb_run_from_new.
  assert (B : N.of_nat (length buf) + 64 < modulus m) by lia. rewrite (new_off e buf B).
  destruct (rb_new e buf) as [r| |] eqn:E; cbn [obind]; [|reflexivity..]. pose proof (new_near e buf r B E) as W.
  rewrite ops_off; [|apply (stretch_near _ _ 0 _ W)|exact (near_left _ _ _ W)|exact A].
  - destruct (rb_run_ops e r ops) as [[r1 outs]| |]; reflexivity.
  - unfold stretch, w_len. cbn [w_index w_buffer]. pose proof (N.div_mod (total_skip ops) 8 ltac:(discriminate)).
    pose proof (N.mod_lt (total_skip ops) 8 ltac:(discriminate)). lia.
Qed.
End Any.
