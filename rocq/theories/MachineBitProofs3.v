(** Codeword reads on any width of [usize], and the machines with 64 bits. *)
From Coq Require Import List Arith NArith ZArith Bool Lia.
From Coq Require Import ZifyBool ZifyNat ZifyN.
From Verif Require Import Base ByteModel BitModel BitSpec BitQueueSpec WordBitModel WordSpec WordBitProofs ReleaseModel ReleaseBitModel ReleaseBitSpec ReleaseBitProofs.
From Verif Require Import CodebookModel CodebookSpec ReleaseCbModel ReleaseCbSpec ReleaseCbProofs2.
From Verif Require Import MachineModel MachineBitModel MachineBitSpec MachineBitProofs MachineBitProofs2 MachineAccProofs2 MachineFrameProofs2.
Import ListNotations.
Local Open Scope N_scope.
Ltac Zify.zify_post_hook ::= Z.div_mod_to_equations.

Lemma low_bits x k : N.land x (N.ones k) < 2 ^ k.
Proof. rewrite N.land_ones. apply N.mod_lt. apply N.pow_nonzero. discriminate. Qed.
Lemma low_127 x : N.land x 127 < 128.
Proof. exact (low_bits x 7). Qed.
Lemma get32_small e r n r' v : get_bits_32 e r n = Ret (r', v) -> v < W32.
Proof.
  unfold get_bits_32. destruct (n =? 0)%nat; [intros E; injection E as _ <-; reflexivity|].
  destruct (if (left r <=? n)%nat then refill32 e r else Ret r) as [r1| |]; cbn [obind]; try discriminate.
  destruct (get_val e r1 n) as [[r2 w]| |]; cbn [obind]; intros E; try discriminate E. injection E as _ <-. apply N.mod_lt. discriminate.
Qed.
Lemma rb32_small e r n r' v : rb_get_bits_32 e r n = Ret (r', v) -> v < W32.
Proof.
  unfold rb_get_bits_32. destruct (n =? 0); [intros E; injection E as _ <-; reflexivity|].
  destruct (if w_left r <=? n then rb_refill32 e r else Ret r) as [r1| |]; cbn [obind]; try discriminate.
  unfold rb_get_val. intros E. injection E as _ <-. apply N.mod_lt. discriminate.
Qed.
Lemma index_none {A : Type} (l : list A) i : (length l <= i)%nat -> index_at l i = Panic.
Proof. intros H. unfold index_at. rewrite (proj2 (nth_error_None l i)) by exact H. reflexivity. Qed.
Lemma index_some {A : Type} (l : list A) i x : index_at l i = Ret x -> (i < length l)%nat.
Proof. intros E. destruct (Nat.lt_ge_cases i (length l)) as [H|H]; [exact H|]. rewrite (index_none l i H) in E. discriminate E. Qed.

(** ** With overflow checks *)
Section Checked.
Variable m : machine.
Hypothesis Hc : checked m = true.
Hypothesis Hb : 32 <= bits m.
Variable S : Type.
Variable cb : codebook S.
Hypothesis Htable : N.of_nat (length (cb_table cb)) < 2 ^ bits m.
Hypothesis Hlut : (cb_lut_bits cb < 256)%nat.

Let Hb8 : 8 <= bits m. Proof. lia. Qed.
Lemma mod_W32 : W32 <= modulus m.
Proof. unfold modulus. change W32 with (2 ^ 32). apply N.pow_le_mono_r; [discriminate|exact Hb]. Qed.

Lemma loop_within e : forall fuel r idx lut_bits x, fine r -> (lut_bits < 256)%nat -> read_loop fuel e cb r idx lut_bits = Ret x ->
  within r (fst x) (32 * fuel).
Proof.
  induction fuel as [|fuel IH]; intros r idx lut_bits x F Hl E; cbn [read_loop] in E; [discriminate E|].
  destruct (peek_bits_32 e r lut_bits) as [[r0 v]| |]; cbn [obind] in E; try discriminate E.
  destruct (index_at (cb_table cb) (N.to_nat (v + idx))) as [y| |]; cbn [obind] in E; try discriminate E.
  assert (W0 : within r r (32 * Datatypes.S fuel)) by (apply (within_mono _ _ 0); [lia|apply within_refl; exact F]).
  destruct (y =? TABLE_FILL_VALUE); [injection E as <-; exact W0|].
  destruct (available r) as [a| |]; cbn [obind] in E; try discriminate E.
  destruct (N.of_nat a mod W32 <? N.land y 127); [injection E as <-; exact W0|]. pose proof (low_127 y) as Hy.
  set (esc := negb (N.land y 128 =? 0)) in *. set (n := if esc then lut_bits else N.to_nat (N.land y 127)) in *.
  assert (Hn : (n < 256)%nat) by (unfold n; destruct esc; lia).
  destruct (skip_bits e r n) as [r'| |] eqn:K; cbn [obind] in E; try discriminate E.
  apply skip_within in K; [|exact F]. apply (within_mono _ _ _ 32) in K; [|clear - Hn; lia]. destruct esc.
  - apply IH in E; [|exact (within_fine _ _ _ K)|lia]. replace (32 * Datatypes.S fuel)%nat with (32 + 32 * fuel)%nat by lia.
    exact (within_trans _ _ _ _ _ K E).
  - destruct (index_at (cb_syms cb) (N.to_nat (N.shiftr y 8))) as [s| |]; cbn [obind] in E; try discriminate E. injection E as <-.
    cbn [fst]. apply (within_mono _ _ 32); [lia|exact K].
Qed.

Lemma loop_any e : forall fuel r idx lut_bits, fine r -> (lut_bits < 256)%nat -> budget_m m r (256 * N.of_nat fuel) ->
  mb_read_loop m fuel e cb (word_reader r) idx lut_bits = omap wr1 (read_loop fuel e cb r idx lut_bits).
Proof.
  induction fuel as [|fuel IH]; intros r idx lut_bits F Hl B; cbn [read_loop mb_read_loop]; [reflexivity|].
  assert (R : roomy_m m r 0) by (apply (spare_roomy m Hb8 r 0); [apply (budget_spare m Hb8); unfold budget_m in *; lia|lia]).
  rewrite (get32_any m Hc Hb8 e r lut_bits F R). unfold peek_bits_32. destruct (get_bits_32 e r lut_bits) as [[r0 v]| |] eqn:G; cbn [obind omap]; [|reflexivity..].
  unfold wr1 at 1. cbn [fst snd]. pose proof (get32_small _ _ _ _ _ G) as Hv. pose proof mod_W32 as HW. unfold mcast. rewrite (N.mod_small v) by lia.
  assert (J : forall k : N -> outcome (wreader * result S codebook_error),
    (let! i := madd m v idx in let! y := index_at (cb_table cb) (N.to_nat i) in k y) = (let! y := index_at (cb_table cb) (N.to_nat (v + idx)) in k y)).
  { intros k. unfold madd, ranged. destruct (N.ltb_spec (v + idx) (modulus m)) as [L|L]; [reflexivity|]. rewrite Hc. cbn [obind].
    rewrite index_none; [reflexivity|]. change (2 ^ bits m) with (modulus m) in Htable. lia. }
  rewrite J. clear J. rewrite omap_obind. apply obind_ext. intros y _. destruct (y =? TABLE_FILL_VALUE); [reflexivity|].
  rewrite (available_any m Hc Hb8 r _ F B), obind_omap, omap_obind. apply obind_ext. intros a _.
  destruct (N.of_nat a mod W32 <? N.land y 127); [reflexivity|]. pose proof (low_127 y) as Hy.
  set (esc := negb (N.land y 128 =? 0)). set (n := if esc then lut_bits else N.to_nat (N.land y 127)).
  replace (if esc then N.of_nat lut_bits else N.land y 127) with (N.of_nat n) by (unfold n; destruct esc; lia).
  assert (Hn : (n < 256)%nat) by (unfold n; destruct esc; lia). pose proof (modulus_256 m Hb8) as H256.
  rewrite (skip_any m Hc Hb8 e r n F); [|apply (spare_roomy m Hb8 r (256 * N.of_nat (Datatypes.S fuel))); [exact (budget_spare m Hb8 _ _ B)|lia]|lia].
  rewrite obind_omap, omap_obind. apply obind_ext. intros r' K. apply skip_within in K; [|exact F]. apply (within_mono _ _ _ 32) in K; [|clear - Hn; lia].
  destruct esc.
  - apply IH; [exact (within_fine _ _ _ K)|lia|]. destruct K as [K1 [_ [_ K2]]]. unfold budget_m in *. rewrite K1 in *. lia.
  - rewrite omap_obind. apply obind_ext. intros s _. reflexivity.
Qed.

Lemma mixed_any e : forall steps r, fine r -> budget_m m r (steps_skip steps) -> Forall (step_arg_on m) steps ->
  mb_run_mixed m e cb (word_reader r) steps = omap wr1 (run_mixed e cb r steps).
Proof.
  induction steps as [|[op|d] steps IH]; intros r F B A; cbn [mb_run_mixed run_mixed]; [reflexivity|..]; inversion A as [|? ? A1 A2]; subst.
  - assert (K : steps_skip (Call op :: steps) = op_skip op + steps_skip steps) by (destruct op; cbn [steps_skip op_skip]; lia). rewrite K in B.
    assert (B1 : budget_m m r (op_skip op)) by (unfold budget_m in *; lia).
    rewrite (op_any m Hc Hb8 e r op F (budget_spare m Hb8 _ _ B1) A1 (or_intror B1)). rewrite obind_omap, omap_obind. apply obind_ext. intros [r1 o] E.
    unfold wr1 at 1. cbn [fst snd]. pose proof (op_within e r op r1 o F E) as W.
    rewrite (IH r1 (within_fine _ _ _ W) (budget_within m Hb8 _ _ _ _ W B) A2). rewrite obind_omap, omap_obind. apply obind_ext. intros [r2 os] _. reflexivity.
  - cbn [steps_skip] in B. unfold mb_read_cb, read_cb. rewrite loop_any; [|exact F|exact Hlut|unfold budget_m in *; lia].
    rewrite obind_omap, omap_obind. apply obind_ext. intros [r1 o] E. unfold wr1 at 1. cbn [fst snd].
    pose proof (loop_within e 27 r 0 (cb_lut_bits cb) _ F Hlut E) as W. cbn [fst] in W.
    rewrite IH; [|exact (within_fine _ _ _ W)|destruct W as [W1 [_ [_ W2]]]; unfold budget_m in *; rewrite W1 in *; lia|exact A2].
    rewrite obind_omap, omap_obind. apply obind_ext. intros [r2 os] _. reflexivity.
Qed.

Lemma histories_any e buf steps : 8 * N.of_nat (length buf) + steps_skip steps < 2 ^ bits m -> Forall (step_arg_on m) steps ->
  mb_mixed_from_new m e cb buf steps = (let! (r, outs) := mixed_from_new e cb buf steps in Ret (word_reader r, outs)).
Proof.
  intros B A. change (2 ^ bits m) with (modulus m) in B. unfold mb_mixed_from_new, mixed_from_new. pose proof (modulus_256 m Hb8) as H256.
  rewrite (new_any m Hb8) by lia. rewrite obind_omap. destruct (new e buf) as [r| |] eqn:E; cbn [obind]; [|reflexivity..].
  pose proof (new_within m Hb8 e buf r E) as W. change 0%nat with (N.to_nat (0 / 8)) in W.
  rewrite mixed_any; [|exact (within_fine _ _ _ W)| |exact A].
  - destruct (run_mixed e cb r steps) as [[r1 outs]| |]; reflexivity.
  - apply (budget_within m Hb8 _ _ _ _ W). unfold budget_m. cbn [index buffer]. lia.
Qed.
End Checked.

(** ** Without *)
Section Unchecked.
Variable m : machine.
Hypothesis Hc : checked m = false.
Hypothesis Hb : 32 <= bits m.
Hypothesis Hw : bits m <= 64.
Variable S : Type.
Variable cb : codebook S.
Hypothesis Htable : N.of_nat (length (cb_table cb)) < 2 ^ bits m.
Hypothesis Hlut : (cb_lut_bits cb < 256)%nat.

Let Hb8 : 8 <= bits m. Proof. lia. Qed.
Lemma mod_half x : (x mod modulus m) mod W32 = x mod W32.
Proof.
  unfold modulus. replace (bits m) with (32 + (bits m - 32)) by lia. rewrite N.pow_add_r. change (2 ^ 32) with W32.
  rewrite N.mod_mul_r; [|discriminate|apply N.pow_nonzero; discriminate]. rewrite N.mul_comm, N.mod_add by discriminate. apply N.mod_mod. discriminate.
Qed.

Lemma loop_off e : forall fuel r idx lut_bits x, stretch m r (256 * N.of_nat fuel) -> w_left r <= 64 -> (lut_bits < 256)%nat ->
  rc_read_loop fuel e cb r idx lut_bits = Ret x -> mb_read_loop m fuel e cb r idx lut_bits = Ret x /\ near r (fst x) (32 * N.of_nat fuel).
Proof.
  pose proof (mod_256 m Hb8) as H256. pose proof (mod_nz m Hb8 Hw) as Z.
  induction fuel as [|fuel IH]; intros r idx lut_bits x B Hl Hu E; cbn [rc_read_loop mb_read_loop] in *; [discriminate E|].
  assert (H0 : limit m r 0) by (unfold stretch, limit in *; lia). rewrite (get32_off m Hc Hb8 Hw e r _ H0 Hl).
  destruct (rb_get_bits_32 e r (N.of_nat lut_bits)) as [[r0 v]| |] eqn:G; cbn [obind] in *; try discriminate E.
  destruct (index_at (cb_table cb) (N.to_nat (radd v idx))) as [y| |] eqn:I; cbn [obind] in E; try discriminate E.
  unfold madd. rewrite (ranged_off m Hc). cbn [obind].
  assert (J : (mcast m v + idx) mod modulus m = radd v idx).
  { pose proof (index_some _ _ _ I) as L. unfold mcast. rewrite N.add_mod_idemp_l by exact Z. rewrite <- (mod_word m Hb8 Hw). fold (radd v idx).
    apply N.mod_small. change (2 ^ bits m) with (modulus m) in Htable. lia. }
  rewrite J, I. cbn [obind]. assert (W0 : near r r (32 * N.of_nat (Datatypes.S fuel))) by (split; [reflexivity|]; split; [exact Hl|lia]).
  destruct (y =? TABLE_FILL_VALUE); [injection E as <-; split; [reflexivity|exact W0]|].
  rewrite (available_off m Hc Hb8 Hw) by (unfold limit in H0; lia). cbn [obind]. rewrite mod_half.
  destruct (rb_available r mod W32 <? N.land y 127); [injection E as <-; split; [reflexivity|exact W0]|]. pose proof (low_127 y) as Hy.
  set (esc := negb (N.land y 128 =? 0)) in *. set (n := if esc then N.of_nat lut_bits else N.land y 127) in *.
  assert (Hn : n < 256) by (unfold n; destruct esc; lia). assert (Hn8 : n / 8 <= 31) by (clear - Hn; lia).
  rewrite (skip_off m Hc Hb8 Hw); [|unfold stretch, limit in *; lia|exact Hl|lia].
  destruct (rb_skip_bits e r n) as [r'| |] eqn:K; cbn [obind] in *; try discriminate E.
  apply (skip_near m Hc Hb8 Hw) in K; [|unfold stretch, limit in *; lia|exact Hl|lia].
  assert (W : near r r' 32) by (destruct K as [K1 [K2 K3]]; split; [exact K1|]; split; [exact K2|]; lia). destruct esc.
  - destruct (IH r' (N.shiftr y 8) (N.to_nat (N.land y 127)) x) as [G1 G2]; [|exact (near_left _ _ _ W)|lia|exact E|].
    { apply (stretch_near m Hb8 Hw r r' 256); [exact W|]. unfold stretch in *. lia. }
    split; [exact G1|]. pose proof (near_trans m Hb8 Hw _ _ _ _ _ W G2) as N2. replace (32 * N.of_nat (Datatypes.S fuel)) with (32 + 32 * N.of_nat fuel) by lia. exact N2.
  - destruct (index_at (cb_syms cb) (N.to_nat (N.shiftr y 8))) as [s| |]; cbn [obind] in *; try discriminate E. injection E as <-. split; [reflexivity|].
    cbn [fst]. destruct W as [K1 [K2 K3]]. split; [exact K1|]. split; [exact K2|]. lia.
Qed.

Lemma mixed_off e : forall steps r r' outs, stretch m r (steps_skip steps) -> w_left r <= 64 -> Forall (step_arg_on m) steps ->
  rc_run_mixed e cb r steps = Ret (r', outs) -> mb_run_mixed m e cb r steps = Ret (r', map (narrow_step m) outs).
Proof.
  induction steps as [|[op|d] steps IH]; intros r r' outs B Hl A E; cbn [mb_run_mixed rc_run_mixed] in *; [injection E as <- <-; reflexivity|..];
    inversion A as [|? ? A1 A2]; subst.
  - assert (K : steps_skip (Call op :: steps) = op_skip op + steps_skip steps) by (destruct op; cbn [steps_skip op_skip]; lia). rewrite K in B.
    pose proof (stretch_limit m Hb8 Hw _ _ _ B) as H. rewrite (op_off m Hc Hb8 Hw e r op H Hl A1).
    destruct (rb_run_op e r op) as [[r1 o]| |] eqn:O; cbn [obind omap] in *; try discriminate E. unfold shown. cbn [fst snd].
    pose proof (op_near m Hc Hb8 Hw e r op r1 o H Hl A1 O) as W.
    destruct (rc_run_mixed e cb r1 steps) as [[r2 os]| |] eqn:M; cbn [obind] in *; try discriminate E. injection E as <- <-.
    rewrite (IH r1 r2 os (stretch_near m Hb8 Hw _ _ _ _ W B) (near_left _ _ _ W) A2 M). reflexivity.
  - cbn [steps_skip] in B. unfold rc_read_cb in E. unfold mb_read_cb.
    destruct (rc_read_loop 27 e cb r 0 (cb_lut_bits cb)) as [[r1 o]| |] eqn:O; cbn [obind] in E; try discriminate E.
    apply loop_off in O; [|unfold stretch in *; lia|exact Hl|exact Hlut]. destruct O as [O W]. cbn [fst] in W. rewrite O. cbn [obind].
    destruct (rc_run_mixed e cb r1 steps) as [[r2 os]| |] eqn:M; cbn [obind] in *; try discriminate E. injection E as <- <-.
    rewrite (IH r1 r2 os); [reflexivity| |exact (near_left _ _ _ W)|exact A2|exact M].
    apply (stretch_near m Hb8 Hw r r1 6912); [exact W|exact B].
Qed.

Lemma histories_off e buf steps r outs : N.of_nat (length buf) + steps_skip steps / 8 + 64 < 2 ^ bits m -> Forall (step_arg_on m) steps ->
  rc_mixed_from_new e cb buf steps = Ret (r, outs) -> mb_mixed_from_new m e cb buf steps = Ret (r, map (narrow_step m) outs).
Proof.
  intros B A E. change (2 ^ bits m) with (modulus m) in B. unfold rc_mixed_from_new in E. unfold mb_mixed_from_new.
  assert (B' : N.of_nat (length buf) + 64 < modulus m) by lia. rewrite (new_off m Hc Hb8 Hw e buf B').
  destruct (rb_new e buf) as [r0| |] eqn:N0; cbn [obind] in *; try discriminate E. pose proof (new_near m Hc Hb8 Hw e buf r0 B' N0) as W.
  apply mixed_off; [|exact (near_left _ _ _ W)|exact A|exact E]. apply (stretch_near m Hb8 Hw _ _ 0 _ W). unfold stretch, w_len. cbn [w_index w_buffer]. lia.
Qed.
End Unchecked.

(** ** 64 bits *)
Lemma shl_64 : mb_shl x86_64 = ushl.
Proof. reflexivity. Qed.
Lemma refill64_64 e r : mb_refill64 x86_64 e r = w_refill64 e r.
Proof. unfold mb_refill64, w_refill64, mb_can_refill, w_can_refill. rewrite madd_64. reflexivity. Qed.
Lemma refill32_64 e r : mb_refill32 x86_64 e r = w_refill32 e r.
Proof.
  unfold mb_refill32, w_refill32, mb_can_refill, w_can_refill, mb_build_cache, w_build_cache. rewrite madd_64, msub_64, shl_64. reflexivity.
Qed.
Lemma val_64 e r n : mb_get_val x86_64 e r n = w_get_val e r n.
Proof. unfold mb_get_val, w_get_val, mb_peek_val, w_peek_val. cbn [checked x86_64]. reflexivity. Qed.
Lemma merge_64 e a b k l : mb_merge_val x86_64 e a b k l = w_merge_val e a b k l.
Proof. unfold mb_merge_val, w_merge_val. rewrite shl_64. reflexivity. Qed.
Lemma skip_64 e r n : mb_skip_bits x86_64 e r n = w_skip_bits e r n.
Proof.
  unfold mb_skip_bits, w_skip_bits. rewrite madd_64, msub_64, mmul_64. destruct (w_left r <? n); [|reflexivity]. apply obind_ext. intros n1 _.
  apply obind_ext. intros [r1 n2] _. rewrite refill64_64. reflexivity.
Qed.
Lemma get_bit_64 e r : mb_get_bit x86_64 e r = w_get_bit e r.
Proof. unfold mb_get_bit, w_get_bit. rewrite refill64_64. apply obind_ext. intros r1 _. rewrite val_64. reflexivity. Qed.
Lemma get32_64 e r n : mb_get_bits_32 x86_64 e r n = w_get_bits_32 e r n.
Proof. unfold mb_get_bits_32, w_get_bits_32. rewrite refill32_64. destruct (n =? 0); [reflexivity|]. apply obind_ext. intros r1 _. rewrite val_64. reflexivity. Qed.
Lemma get64_64 e r n : mb_get_bits_64 x86_64 e r n = w_get_bits_64 e r n.
Proof.
  unfold mb_get_bits_64, w_get_bits_64. rewrite msub_64. destruct (n =? 0); [reflexivity|]. destruct (w_left r <? n).
  - apply obind_ext. intros k _. rewrite val_64. apply obind_ext. intros [r1 a] _. rewrite refill64_64. apply obind_ext. intros r2 _.
    rewrite val_64. apply obind_ext. intros [r3 b] _. rewrite merge_64. reflexivity.
  - rewrite val_64. apply obind_ext. intros [r1 a] _. rewrite merge_64. reflexivity.
Qed.
Lemma op_64 e r op : mb_run_op x86_64 e r op = w_run_op e r op.
Proof.
  destruct op; cbn [mb_run_op w_run_op].
  - rewrite get_bit_64. reflexivity.
  - rewrite get32_64. reflexivity.
  - rewrite get64_64. reflexivity.
  - rewrite get_bit_64. reflexivity.
  - rewrite get32_64. reflexivity.
  - rewrite get64_64. reflexivity.
  - rewrite skip_64. reflexivity.
  - unfold mb_align_bits, w_align_bits. rewrite skip_64. reflexivity.
  - unfold mb_consumed, w_consumed. rewrite mmul_64, msub_64. reflexivity.
  - unfold mb_available, w_available. rewrite mmul_64, msub_64, madd_64. reflexivity.
Qed.
Lemma ops_64 e : forall ops r, mb_run_ops x86_64 e r ops = w_run_ops e r ops.
Proof.
  induction ops as [|op ops IH]; intros r; cbn [mb_run_ops w_run_ops]; [reflexivity|]. rewrite op_64. apply obind_ext. intros [r1 o] _.
  rewrite IH. reflexivity.
Qed.
Lemma run_64 e buf ops : mb_run_from_new x86_64 e buf ops = w_run_from_new e buf ops.
Proof. unfold mb_run_from_new, w_run_from_new, mb_new, w_new. rewrite refill64_64. apply obind_ext. intros r _. apply ops_64. Qed.
