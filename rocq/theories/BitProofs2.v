(** Further lemmas about the bit reader: histories, end of buffer. *)
From Coq Require Import List Arith NArith ZArith Bool Lia.
From Coq Require Import ZifyBool ZifyNat ZifyN.
From Verif Require Import Base ByteModel ByteSpec ByteProofs BitModel BitSpec BitProofs.
Import ListNotations.
Local Open Scope nat_scope.
Ltac Zify.zify_post_hook ::= Z.div_mod_to_equations.

(** ** C05 *)
Lemma bit_ops_exact : forall e buf ops, bytes buf -> 8 <= length buf ->
  ops_within e (bits_of e buf) (8 * length buf - 64) 0 ops ->
  exists r, run_from_new e buf ops = Ret (r, snd (spec_ops e (bits_of e buf) 0 ops)) /\
    consumed r = Ret (fst (spec_ops e (bits_of e buf) 0 ops)).
Proof.
  intros e buf ops Hb Hl Hw. unfold run_from_new.
  destruct (new_inv e buf Hb) as [r [E [I B]]]. rewrite E. cbn [obind]. subst buf.
  destruct (run_ops_exact e ops r 0 I Hw ltac:(lia)) as [r' [E' [I' B']]].
  exists r'. split; [exact E'|]. eapply consumed_inv. exact I'.
Qed.

(** ** C06 *)
Lemma peek_like_get : forall e r n,
  peek_bits_64 e r n = match get_bits_64 e r n with Ret (_, v) => Ret (r, v) | Panic => Panic | UB => UB end /\
  peek_bits_32 e r n = match get_bits_32 e r n with Ret (_, v) => Ret (r, v) | Panic => Panic | UB => UB end /\
  peek_bit e r = match get_bit e r with Ret (_, b) => Ret (r, b) | Panic => Panic | UB => UB end.
Proof.
  intros e r n. unfold peek_bits_64, peek_bits_32, peek_bit.
  destruct (get_bits_64 e r n) as [[? ?]| |]; destruct (get_bits_32 e r n) as [[? ?]| |];
    destruct (get_bit e r) as [[? ?]| |]; repeat split; reflexivity.
Qed.

(** ** C07, C09: a weaker invariant, kept by every call *)
Record winv (r : reader) : Prop := {
  w_bytes : bytes (buffer r);
  w_left : left r <= 64;
  w_pos : left r <= 8 * index r;
  w_index : index r <= length (buffer r);
  w_cache : (cache r < W64)%N
}.

Lemma inv_winv : forall e r p, inv e r p -> winv r.
Proof.
  intros e r p H. constructor; try apply H.
  - pose proof (inv_pos _ _ _ H). lia.
  - rewrite (inv_cache _ _ _ H). eapply N.lt_le_trans; [apply value_bound|].
    change W64 with (2 ^ N.of_nat 64)%N. apply N.pow_le_mono_r; [lia|].
    rewrite app_length, zeros_length. rewrite (inv_window_length _ _ _ H).
    pose proof (inv_left _ _ _ H). lia.
Qed.

Lemma W64_pos : (0 < W64)%N.
Proof. reflexivity. Qed.

Lemma shiftr_le : forall a n, (N.shiftr a n <= a)%N.
Proof.
  intros a n. rewrite N.shiftr_div_pow2. assert (2 ^ n <> 0)%N by (apply N.pow_nonzero; lia).
  apply N.div_le_upper_bound; [lia|]. nia.
Qed.

Lemma w_skip_rem : forall e r n, winv r -> winv (skip_rem e r n).
Proof.
  intros e r n H. constructor.
  - rewrite skip_rem_buffer. apply H.
  - rewrite skip_rem_left. pose proof (w_left _ H). lia.
  - rewrite skip_rem_left, skip_rem_index. pose proof (w_pos _ H). lia.
  - rewrite skip_rem_buffer, skip_rem_index. apply H.
  - pose proof (w_cache _ H). destruct e; cbn [skip_rem cache].
    + unfold checked_shr0. destruct (N.ltb_spec (as_u32 n) 64); [|apply W64_pos].
      pose proof (shiftr_le (cache r) (as_u32 n)). lia.
    + unfold checked_shl0. destruct (N.ltb_spec (as_u32 n) 64); [|apply W64_pos].
      apply N.mod_lt. unfold W64. lia.
Qed.

Lemma bits_above : forall a n m, (a < 2 ^ n)%N -> (n <= m)%N -> N.testbit a m = false.
Proof.
  intros a n m Ha Hm. destruct (N.eq_dec a 0) as [->|Hne]; [apply N.bits_0|].
  apply N.bits_above_log2. eapply N.lt_le_trans; [|exact Hm]. apply N.log2_lt_pow2; lia.
Qed.

Lemma bits_bound : forall a n, (forall m, (n <= m)%N -> N.testbit a m = false) -> (a < 2 ^ n)%N.
Proof.
  intros a n H. destruct (N.eq_dec a 0) as [->|Hne]; [apply N.neq_0_lt_0, N.pow_nonzero; lia|].
  apply N.log2_lt_pow2; [lia|]. destruct (N.lt_ge_cases (N.log2 a) n) as [|Hge]; [assumption|].
  pose proof (N.bit_log2 a Hne) as Hb. rewrite (H _ Hge) in Hb. discriminate.
Qed.

Lemma lor_bound : forall a b n, (a < 2 ^ n)%N -> (b < 2 ^ n)%N -> (N.lor a b < 2 ^ n)%N.
Proof.
  intros a b n Ha Hb. apply bits_bound. intros m Hm. rewrite N.lor_spec.
  rewrite (bits_above a n m), (bits_above b n m) by assumption. reflexivity.
Qed.

Lemma w_get_val : forall e r n, winv r -> n <= 64 ->
  exists v, get_val e r n = Ret (skip_rem e r n, v).
Proof.
  intros e r n H Hn. unfold get_val, peek_val. rewrite as_u32_small by exact Hn.
  destruct e; [eexists; reflexivity|].
  destruct (N.leb_spec (N.of_nat n) 64); [|lia]. eexists; reflexivity.
Qed.

(** Position of a reader: bits loaded minus bits left. *)
Definition wpos (r : reader) : nat := 8 * index r - left r.

Record wstep (r r' : reader) : Prop := {
  ws_inv : winv r';
  ws_buffer : buffer r' = buffer r;
  ws_pos : wpos r <= wpos r'
}.

Lemma wstep_refl : forall r, winv r -> wstep r r.
Proof. intros. constructor; auto. Qed.

Lemma wstep_trans : forall a b c, wstep a b -> wstep b c -> wstep a c.
Proof.
  intros a b c [I1 B1 P1] [I2 B2 P2]. constructor; [assumption|congruence|lia].
Qed.

Lemma wstep_skip_rem : forall e r n, winv r -> wstep r (skip_rem e r n).
Proof.
  intros. constructor; [apply w_skip_rem; assumption|apply skip_rem_buffer|].
  unfold wpos. rewrite skip_rem_index, skip_rem_left. lia.
Qed.

(** [refill64] drops what is left in the cache: the position moves to the end
    of the loaded bytes. *)
Lemma w_refill64 : forall e r, winv r -> exists r', refill64 e r = Ret r' /\ wstep r r'.
Proof.
  intros e r H. destruct (can_refill r) eqn:Hc.
  - destruct (refill64_some e r (w_bytes _ H) Hc) as [r' [E [I [L [X B]]]]].
    exists r'. split; [exact E|]. constructor; [eapply inv_winv; exact I|exact B|].
    unfold wpos. pose proof (w_left _ H). lia.
  - exists r. split; [apply refill64_none; exact Hc|]. apply wstep_refl. exact H.
Qed.

Lemma w_refill32 : forall e r, winv r -> left r <= 32 -> exists r', refill32 e r = Ret r' /\ wstep r r'.
Proof.
  intros e r H Hl. destruct (can_refill r) eqn:Hc.
  - unfold refill32. rewrite Hc. cbn [negb]. apply can_refill_true in Hc.
    rewrite fill32_spec by (try apply (w_bytes _ H); assumption). cbn [obind].
    set (v := value e _).
    assert (G : exists c, build_cache e (cache r) v (left r) = Ret c /\ (c < W64)%N).
    { unfold build_cache, shl64, csub. destruct e.
      - destruct (Nat.ltb_spec (left r) 64); [|lia]. cbn [obind]. eexists. split; [reflexivity|].
        apply lor_bound; [apply (w_cache _ H)|]. apply N.mod_lt. unfold W64. lia.
      - destruct (Nat.leb_spec (left r) 32); [|lia]. cbn [obind].
        destruct (Nat.ltb_spec (32 - left r) 64); [|lia]. cbn [obind]. eexists. split; [reflexivity|].
        apply lor_bound; [apply (w_cache _ H)|]. apply N.mod_lt. unfold W64. lia. }
    destruct G as [c [Ec Hc']]. rewrite Ec. cbn [obind]. eexists. split; [reflexivity|].
    constructor; [constructor|reflexivity|]; cbn [buffer index cache left wpos].
    + apply (w_bytes _ H).
    + lia.
    + pose proof (w_pos _ H). lia.
    + lia.
    + exact Hc'.
    + unfold wpos. cbn [index left]. lia.
  - exists r. split; [apply refill32_none; exact Hc|]. apply wstep_refl. exact H.
Qed.

Lemma w_get_bits_64 : forall e r n, winv r -> n <= 64 ->
  exists r' v, get_bits_64 e r n = Ret (r', v) /\ wstep r r'.
Proof.
  intros e r n H Hn. unfold get_bits_64. destruct (Nat.eqb_spec n 0).
  { eexists _, _. split; [reflexivity|]. apply wstep_refl. exact H. }
  destruct (Nat.ltb_spec (left r) n).
  - destruct (w_get_val e r (left r) H (w_left _ H)) as [v1 E1]. rewrite E1. cbn [obind].
    pose proof (wstep_skip_rem e r (left r) H) as S1.
    destruct (w_refill64 e _ (ws_inv _ _ S1)) as [r2 [E2 S2]]. rewrite E2. cbn [obind].
    destruct (w_get_val e r2 (n - left r) (ws_inv _ _ S2) ltac:(lia)) as [v3 E3]. rewrite E3. cbn [obind].
    pose proof (wstep_skip_rem e r2 (n - left r) (ws_inv _ _ S2)) as S3.
    assert (M : exists m, merge_val e v3 v1 (left r) (n - left r) = Ret m).
    { unfold merge_val, shl64. destruct e; [|eexists; reflexivity].
      destruct (Nat.ltb_spec (left r) 64); [|lia]. cbn [obind]. eexists; reflexivity. }
    destruct M as [m M]. rewrite M. cbn [obind]. eexists _, _. split; [reflexivity|].
    eapply wstep_trans; [exact S1|]. eapply wstep_trans; eassumption.
  - destruct (w_get_val e r n H Hn) as [v E]. rewrite E. cbn [obind].
    assert (M : exists m, merge_val e v 0 0 n = Ret m) by (destruct e; eexists; reflexivity).
    destruct M as [m M]. rewrite M. cbn [obind]. eexists _, _. split; [reflexivity|].
    apply wstep_skip_rem. exact H.
Qed.

Lemma w_get_bits_32 : forall e r n, winv r -> n <= 32 ->
  exists r' v, get_bits_32 e r n = Ret (r', v) /\ wstep r r'.
Proof.
  intros e r n H Hn. unfold get_bits_32. destruct (Nat.eqb_spec n 0).
  { eexists _, _. split; [reflexivity|]. apply wstep_refl. exact H. }
  assert (R : exists r1, (if left r <=? n then refill32 e r else Ret r) = Ret r1 /\ wstep r r1).
  { destruct (Nat.leb_spec (left r) n).
    - apply w_refill32; [exact H|lia].
    - exists r. split; [reflexivity|]. apply wstep_refl. exact H. }
  destruct R as [r1 [E1 S1]]. rewrite E1. cbn [obind].
  destruct (w_get_val e r1 n (ws_inv _ _ S1) ltac:(lia)) as [v E]. rewrite E. cbn [obind].
  eexists _, _. split; [reflexivity|]. eapply wstep_trans; [exact S1|].
  apply wstep_skip_rem. apply (ws_inv _ _ S1).
Qed.

Lemma w_get_bit : forall e r, winv r -> exists r' v, get_bit e r = Ret (r', v) /\ wstep r r'.
Proof.
  intros e r H. unfold get_bit.
  assert (R : exists r1, (if left r =? 0 then refill64 e r else Ret r) = Ret r1 /\ wstep r r1).
  { destruct (Nat.eqb_spec (left r) 0).
    - apply w_refill64; exact H.
    - exists r. split; [reflexivity|]. apply wstep_refl. exact H. }
  destruct R as [r1 [E1 S1]]. rewrite E1. cbn [obind].
  destruct (w_get_val e r1 1 (ws_inv _ _ S1) ltac:(lia)) as [v E]. rewrite E. cbn [obind].
  eexists _, _. split; [reflexivity|]. eapply wstep_trans; [exact S1|].
  apply wstep_skip_rem. apply (ws_inv _ _ S1).
Qed.

Lemma w_available : forall r, winv r -> available r = Ret (8 * length (buffer r) - wpos r).
Proof.
  intros r H. unfold available, csub, wpos. pose proof (w_index _ H). pose proof (w_pos _ H).
  destruct (Nat.leb_spec (index r) (length (buffer r))); [|lia]. cbn [obind]. f_equal. lia.
Qed.

Lemma w_consumed : forall r, winv r -> consumed r = Ret (wpos r).
Proof.
  intros r H. unfold consumed, csub, wpos. pose proof (w_pos _ H).
  destruct (Nat.leb_spec (left r) (index r * 8)); [|lia]. f_equal. lia.
Qed.

Lemma w_skip_bits : forall e r n, winv r -> n <= 8 * length (buffer r) - wpos r ->
  exists r', skip_bits e r n = Ret r' /\ wstep r r'.
Proof.
  intros e r n H Hn. unfold skip_bits. pose proof (w_left _ H). pose proof (w_pos _ H). pose proof (w_index _ H).
  unfold wpos in Hn.
  destruct (Nat.ltb_spec (left r) n).
  - assert (G : forall r1 n2, wstep r r1 ->
        exists r', (let! r3 := refill64 e (skip_rem e r1 n2) in Ret (skip_rem e r3 n2)) = Ret r' /\ wstep r r').
    { intros r1 n2 S1. pose proof (wstep_skip_rem e r1 n2 (ws_inv _ _ S1)) as S2.
      destruct (w_refill64 e _ (ws_inv _ _ S2)) as [r3 [E3 S3]]. rewrite E3. cbn [obind].
      eexists. split; [reflexivity|].
      eapply wstep_trans; [exact S1|]. eapply wstep_trans; [exact S2|]. eapply wstep_trans; [exact S3|].
      apply wstep_skip_rem. apply (ws_inv _ _ S3). }
    destruct (Nat.ltb_spec 64 (n - left r)); apply G.
    + constructor; [constructor|reflexivity|]; cbn [buffer index cache left];
        try apply H; unfold wpos; cbn [buffer index cache left]; lia.
    + apply wstep_refl. exact H.
  - eexists. split; [reflexivity|]. apply wstep_skip_rem. exact H.
Qed.

Lemma w_align : forall e r, winv r -> exists r', align_bits e r = Ret r' /\ wstep r r' /\ wpos r' = align8 (wpos r)
  /\ align_bits e r' = Ret r'.
Proof.
  intros e r H. unfold align_bits, skip_bits.
  pose proof (Nat.mod_le (left r) 8 ltac:(lia)).
  destruct (Nat.ltb_spec (left r) (left r mod 8)); [lia|].
  eexists. split; [reflexivity|]. split; [apply wstep_skip_rem; exact H|].
  pose proof (w_pos _ H).
  split.
  - unfold wpos. rewrite skip_rem_index, skip_rem_left. unfold align8. lia.
  - pose proof (w_skip_rem e r (left r mod 8) H) as HW.
    set (r2 := skip_rem e r (left r mod 8)) in *.
    assert (Hz : left r2 mod 8 = 0) by (unfold r2; rewrite skip_rem_left; lia).
    rewrite Hz. destruct (Nat.ltb_spec (left r2) 0); [lia|]. f_equal.
    clear - HW. destruct r2 as [b i c l]. pose proof (w_cache _ HW) as Hc. cbn [cache] in Hc.
    destruct e; cbn [skip_rem buffer index cache left]; rewrite Nat.sub_0_r; f_equal.
    unfold checked_shl0. cbn. destruct c; [reflexivity|]. apply N.mod_small. exact Hc.
Qed.

Lemma w_run_op : forall e r op, winv r -> op_ok op ->
  (forall n a, op = OpSkip n -> available r = Ret a -> n <= a) ->
  exists r' o, run_op e r op = Ret (r', o) /\ wstep r r'.
Proof.
  intros e r op H Hok Hskip. destruct op; cbn [run_op op_ok] in *.
  - destruct (w_get_bit e r H) as [r' [v [E S]]]. rewrite E. cbn [obind]. eauto.
  - destruct (w_get_bits_32 e r n H Hok) as [r' [v [E S]]]. rewrite E. cbn [obind]. eauto.
  - destruct (w_get_bits_64 e r n H Hok) as [r' [v [E S]]]. rewrite E. cbn [obind]. eauto.
  - destruct (w_get_bit e r H) as [r' [v [E S]]]. unfold peek_bit. rewrite E. cbn [obind].
    eauto using wstep_refl.
  - destruct (w_get_bits_32 e r n H Hok) as [r' [v [E S]]]. unfold peek_bits_32. rewrite E. cbn [obind].
    eauto using wstep_refl.
  - destruct (w_get_bits_64 e r n H Hok) as [r' [v [E S]]]. unfold peek_bits_64. rewrite E. cbn [obind].
    eauto using wstep_refl.
  - destruct (w_skip_bits e r n H (Hskip n _ eq_refl (w_available r H))) as [r' [E S]].
    rewrite E. cbn [obind]. eauto.
  - destruct (w_align e r H) as [r' [E [S _]]]. rewrite E. cbn [obind]. eauto.
  - rewrite (w_consumed r H). cbn [obind]. eauto using wstep_refl.
  - rewrite (w_available r H). cbn [obind]. eauto using wstep_refl.
Qed.

Lemma w_run_ops : forall e ops r, winv r -> calls_ok e r ops ->
  exists r' outs, run_ops e r ops = Ret (r', outs) /\ wstep r r'.
Proof.
  induction ops as [|op ops IH]; intros r H Hc.
  - cbn [run_ops]. eauto using wstep_refl.
  - cbn [calls_ok] in Hc. destruct Hc as [Hok [Hs Hnext]].
    destruct (w_run_op e r op H Hok Hs) as [r1 [o [E S]]].
    cbn [run_ops]. rewrite E. cbn [obind].
    destruct (IH r1 (ws_inv _ _ S) (Hnext _ _ E)) as [r2 [outs [E2 S2]]].
    rewrite E2. cbn [obind]. eexists _, _. split; [reflexivity|]. eapply wstep_trans; eassumption.
Qed.

Lemma calls_ok_app : forall e ops1 ops2 r, calls_ok e r (ops1 ++ ops2) ->
  calls_ok e r ops1 /\ (forall r' o, run_ops e r ops1 = Ret (r', o) -> calls_ok e r' ops2).
Proof.
  induction ops1 as [|op ops1 IH]; intros ops2 r H.
  - split; [exact I|]. intros r' o E. cbn [run_ops] in E. injection E as <- _. exact H.
  - cbn [app calls_ok] in H. destruct H as [Hok [Hs Hn]]. split.
    + cbn [calls_ok]. split; [exact Hok|]. split; [exact Hs|].
      intros r' o E. apply (IH ops2 r'). eapply Hn. exact E.
    + intros r' o E. cbn [run_ops] in E.
      destruct (run_op e r op) as [[r1 o1]| |] eqn:E1; try discriminate E. cbn [obind] in E.
      destruct (run_ops e r1 ops1) as [[r2 os]| |] eqn:E2; try discriminate E. cbn [obind] in E.
      injection E as <- _. eapply (IH ops2 r1); [eapply Hn; reflexivity|exact E2].
Qed.

Lemma run_ops_app : forall e ops1 ops2 r, run_ops e r (ops1 ++ ops2) =
  (let! (r1, o1) := run_ops e r ops1 in let! (r2, o2) := run_ops e r1 ops2 in Ret (r2, o1 ++ o2)).
Proof.
  induction ops1 as [|op ops1 IH]; intros ops2 r.
  - cbn [app run_ops obind]. destruct (run_ops e r ops2) as [[? ?]| |]; reflexivity.
  - cbn [app run_ops]. destruct (run_op e r op) as [[r1 o1]| |]; try reflexivity. cbn [obind].
    rewrite IH. destruct (run_ops e r1 ops1) as [[r2 o2]| |]; try reflexivity. cbn [obind].
    destruct (run_ops e r2 ops2) as [[r3 o3]| |]; reflexivity.
Qed.

Lemma consumed_plus_available : forall e buf ops1 ops2 r0, bytes buf -> new e buf = Ret r0 ->
  calls_ok e r0 (ops1 ++ ops2) ->
  exists r1 o1 r2 o2 c1 c2 a1 a2,
    run_ops e r0 ops1 = Ret (r1, o1) /\ run_ops e r0 (ops1 ++ ops2) = Ret (r2, o2) /\
    consumed r0 = Ret 0 /\
    consumed r1 = Ret c1 /\ available r1 = Ret a1 /\ c1 + a1 = 8 * length buf /\
    consumed r2 = Ret c2 /\ available r2 = Ret a2 /\ c2 + a2 = 8 * length buf /\ c1 <= c2.
Proof.
  intros e buf ops1 ops2 r0 Hb Hn Hc.
  destruct (new_inv e buf Hb) as [r [E [I B]]]. rewrite E in Hn. injection Hn as ->.
  pose proof (inv_winv _ _ _ I) as W.
  destruct (calls_ok_app e ops1 ops2 r0 Hc) as [Hc1 Hc2].
  destruct (w_run_ops e ops1 r0 W Hc1) as [r1 [o1 [E1 S1]]].
  destruct (w_run_ops e ops2 r1 (ws_inv _ _ S1) (Hc2 _ _ E1)) as [r2 [o2 [E2 S2]]].
  exists r1, o1, r2, (o1 ++ o2), (wpos r1), (wpos r2), (8 * length buf - wpos r1), (8 * length buf - wpos r2).
  split; [exact E1|]. split; [rewrite run_ops_app, E1; cbn [obind]; rewrite E2; reflexivity|].
  split; [apply (consumed_inv e r0 0 I)|].
  pose proof (ws_buffer _ _ S1) as B1. pose proof (ws_buffer _ _ S2) as B2.
  assert (L1 : wpos r1 <= 8 * length buf).
  { unfold wpos. pose proof (w_index _ (ws_inv _ _ S1)). rewrite B1, B in *. lia. }
  assert (L2 : wpos r2 <= 8 * length buf).
  { unfold wpos. pose proof (w_index _ (ws_inv _ _ S2)). rewrite B2, B1, B in *. lia. }
  split; [apply w_consumed, (ws_inv _ _ S1)|].
  split; [rewrite (w_available _ (ws_inv _ _ S1)), B1, B; reflexivity|]. split; [lia|].
  split; [apply w_consumed, (ws_inv _ _ S2)|].
  split; [rewrite (w_available _ (ws_inv _ _ S2)), B2, B1, B; reflexivity|]. split; [lia|].
  apply (ws_pos _ _ S2).
Qed.

Lemma align_moves_to_boundary : forall e buf ops r0 r outs, bytes buf -> new e buf = Ret r0 ->
  calls_ok e r0 ops -> run_ops e r0 ops = Ret (r, outs) ->
  exists c r', consumed r = Ret c /\ align_bits e r = Ret r' /\
    consumed r' = Ret (align8 c) /\ align_bits e r' = Ret r'.
Proof.
  intros e buf ops r0 r outs Hb Hn Hc Hr.
  destruct (new_inv e buf Hb) as [rn [E [I B]]]. rewrite E in Hn. injection Hn as ->.
  destruct (w_run_ops e ops r0 (inv_winv _ _ _ I) Hc) as [r1 [o1 [E1 S1]]].
  rewrite Hr in E1. injection E1 as <- <-.
  destruct (w_align e r (ws_inv _ _ S1)) as [r' [Ea [Sa [Pa Ida]]]].
  exists (wpos r), r'. split; [apply w_consumed, (ws_inv _ _ S1)|]. split; [exact Ea|].
  split; [|exact Ida]. rewrite (w_consumed _ (ws_inv _ _ Sa)), Pa. reflexivity.
Qed.

Lemma align8_spec : forall p, align8 p mod 8 = 0 /\ p <= align8 p < p + 8.
Proof. intros p. unfold align8. lia. Qed.

(** ** C08, C11 *)

Lemma spec_ops_app : forall e l ops1 ops2 p,
  spec_ops e l p (ops1 ++ ops2) =
  (fst (spec_ops e l (fst (spec_ops e l p ops1)) ops2),
   snd (spec_ops e l p ops1) ++ snd (spec_ops e l (fst (spec_ops e l p ops1)) ops2)).
Proof.
  induction ops1 as [|op ops1 IH]; intros ops2 p.
  - cbn [app spec_ops fst snd]. destruct (spec_ops e l p ops2); reflexivity.
  - cbn [app spec_ops]. destruct (spec_op e l p op) as [p1 o1]. rewrite IH.
    destruct (spec_ops e l p1 ops1) as [p2 o2]. cbn [fst snd].
    destruct (spec_ops e l p2 ops2) as [p3 o3]. reflexivity.
Qed.

Lemma ops_within_app : forall e l lim ops1 ops2 p,
  ops_within e l lim p (ops1 ++ ops2) <->
  ops_within e l lim p ops1 /\ ops_within e l lim (fst (spec_ops e l p ops1)) ops2.
Proof.
  induction ops1 as [|op ops1 IH]; intros ops2 p.
  - cbn [app ops_within spec_ops fst]. tauto.
  - cbn [app ops_within spec_ops]. destruct (spec_op e l p op) as [p1 o1] eqn:E. cbn [fst]. rewrite IH.
    destruct (spec_ops e l p1 ops1) as [p2 o2]. cbn [fst]. tauto.
Qed.

Lemma spec_gets : forall e l ns p, fst (spec_ops e l p (map OpGet64 ns)) = p + sum ns /\
  length (snd (spec_ops e l p (map OpGet64 ns))) = length ns.
Proof.
  induction ns as [|n ns IH]; intros p.
  - cbn. split; [lia|reflexivity].
  - cbn [map spec_ops spec_op sum length]. specialize (IH (p + n)).
    destruct (spec_ops e l (p + n) (map OpGet64 ns)) as [p2 o2]. cbn [fst snd length] in *.
    destruct IH as [-> ->]. split; lia.
Qed.

Lemma within_gets : forall e l lim ns p, Forall (fun n => n <= 64) ns -> p + sum ns <= lim ->
  ops_within e l lim p (map OpGet64 ns).
Proof.
  induction ns as [|n ns IH]; intros p Hf Hl; [exact I|].
  inversion Hf; subst. cbn [map ops_within op_ok op_bits spec_op fst sum] in *.
  split; [assumption|]. split; [lia|]. apply IH; [assumption|lia].
Qed.

Lemma skip_is_read_discard : forall e buf pre ns post, bytes buf -> 8 <= length buf ->
  Forall (fun n => n <= 64) ns ->
  ops_within e (bits_of e buf) (8 * length buf - 64) 0 (pre ++ OpSkip (sum ns) :: post) ->
  exists r1 r2 opre omid opost,
    run_from_new e buf (pre ++ OpSkip (sum ns) :: post) = Ret (r1, opre ++ OutUnit :: opost) /\
    run_from_new e buf (pre ++ map OpGet64 ns ++ post) = Ret (r2, opre ++ omid ++ opost) /\
    length opre = length pre /\ length omid = length ns /\ consumed r1 = consumed r2.
Proof.
  intros e buf pre ns post Hb Hl Hf Hw.
  pose proof Hw as Hw0. apply ops_within_app in Hw. destruct Hw as [Hpre Hrest].
  set (p1 := fst (spec_ops e (bits_of e buf) 0 pre)) in *.
  cbn [ops_within op_ok op_bits spec_op fst] in Hrest. destruct Hrest as [_ [Hs Hpost]].
  assert (Hw2 : ops_within e (bits_of e buf) (8 * length buf - 64) 0 (pre ++ map OpGet64 ns ++ post)).
  { apply ops_within_app. split; [exact Hpre|]. fold p1. apply ops_within_app.
    split; [apply within_gets; assumption|].
    rewrite (proj1 (spec_gets e (bits_of e buf) ns p1)). exact Hpost. }
  destruct (bit_ops_exact e buf _ Hb Hl Hw0) as [r1 [E1 C1]].
  destruct (bit_ops_exact e buf _ Hb Hl Hw2) as [r2 [E2 C2]].
  rewrite spec_ops_app in E1, C1. rewrite spec_ops_app in E2, C2. fold p1 in E1, C1, E2, C2.
  rewrite spec_ops_app in E2, C2.
  destruct (spec_gets e (bits_of e buf) ns p1) as [Gp Go]. rewrite Gp in E2, C2.
  cbn [spec_ops spec_op] in E1, C1.
  destruct (spec_ops e (bits_of e buf) (p1 + sum ns) post) as [p3 o3] eqn:E3. cbn [fst snd] in *.
  exists r1, r2, (snd (spec_ops e (bits_of e buf) 0 pre)), (snd (spec_ops e (bits_of e buf) p1 (map OpGet64 ns))), o3.
  split; [exact E1|]. split; [exact E2|]. split; [|split; [exact Go|congruence]].
  clear. generalize 0. induction pre as [|op pre IH]; intros p; [reflexivity|].
  cbn [spec_ops length]. destruct (spec_op e (bits_of e buf) p op) as [q o].
  specialize (IH q). destruct (spec_ops e (bits_of e buf) q pre). cbn [snd length] in *. congruence.
Qed.

Lemma value_join : forall e a b, value e (a ++ b) = join_values e (length a) (length b) (value e a) (value e b).
Proof. intros. destruct e; cbn [value join_values]; [apply value_le_app|apply value_be_app]. Qed.

Lemma split_read : forall e buf pre a b, bytes buf -> 8 <= length buf -> a + b <= 64 ->
  ops_within e (bits_of e buf) (8 * length buf - 64) 0 (pre ++ [OpGet64 (a + b)]) ->
  exists r1 r2 opre va vb,
    run_from_new e buf (pre ++ [OpGet64 (a + b)]) = Ret (r1, opre ++ [OutWord (join_values e a b va vb)]) /\
    run_from_new e buf (pre ++ [OpGet64 a; OpGet64 b]) = Ret (r2, opre ++ [OutWord va; OutWord vb]) /\
    consumed r1 = consumed r2.
Proof.
  intros e buf pre a b Hb Hl Hab Hw.
  pose proof Hw as Hw0. apply ops_within_app in Hw. destruct Hw as [Hpre Hrest].
  set (p1 := fst (spec_ops e (bits_of e buf) 0 pre)) in *.
  cbn [ops_within op_ok op_bits spec_op fst] in Hrest. destruct Hrest as [_ [Hs _]].
  assert (Hw2 : ops_within e (bits_of e buf) (8 * length buf - 64) 0 (pre ++ [OpGet64 a; OpGet64 b])).
  { apply ops_within_app. split; [exact Hpre|]. fold p1. cbn [ops_within op_ok op_bits spec_op fst]. lia. }
  destruct (bit_ops_exact e buf _ Hb Hl Hw0) as [r1 [E1 C1]].
  destruct (bit_ops_exact e buf _ Hb Hl Hw2) as [r2 [E2 C2]].
  rewrite spec_ops_app in E1, C1, E2, C2. fold p1 in E1, C1, E2, C2.
  cbn [spec_ops spec_op fst snd] in E1, C1, E2, C2.
  exists r1, r2, (snd (spec_ops e (bits_of e buf) 0 pre)),
    (value e (window (bits_of e buf) p1 a)), (value e (window (bits_of e buf) (p1 + a) b)).
  split; [|split; [exact E2|rewrite C1, C2; f_equal; lia]].
  rewrite E1. do 4 f_equal. rewrite window_split, value_join.
  rewrite !window_length by (rewrite bits_of_length; lia). reflexivity.
Qed.

(** ** C10 *)

Lemma window_pad_hd : forall l p k, k <= 1 -> p + k <= length l ->
  hd false (window l p k ++ repeat false (1 - k)) = if k =? 0 then false else nth p l false.
Proof.
  intros l p k Hk Hl. destruct k as [|[|k]]; [reflexivity| |lia]. cbn [Nat.eqb Nat.sub repeat].
  rewrite app_nil_r. unfold window.
  destruct (skipn p l) as [|x t] eqn:Es.
  { apply (f_equal (@length bool)) in Es. rewrite skipn_length in Es. cbn [length] in Es. lia. }
  rewrite <- (firstn_skipn p l), Es. rewrite app_nth2; rewrite firstn_length_le by lia; [|lia].
  rewrite Nat.sub_diag. reflexivity.
Qed.

Lemma overread_ops : forall e ops r p ex, inv e r p -> Forall is_read ops ->
  (ex = true -> left r = 0 /\ can_refill r = false) ->
  exists r' outs, run_ops e r ops = Ret (r', outs) /\
    zero_fill_trace e (bits_of e (buffer r)) p ex ops outs.
Proof.
  induction ops as [|op ops IH]; intros r p ex H Hf Hex.
  - exists r, []. split; [reflexivity|exact I].
  - inversion Hf as [|? ? Hop Hops]; subst.
    assert (G : exists r1 k, run_op e r op = Ret (r1, read_output e op (window (bits_of e (buffer r)) p k ++ repeat false (read_bits op - k)))
       /\ inv e r1 (p + k) /\ buffer r1 = buffer r /\ k <= read_bits op /\
       (k < read_bits op -> left r1 = 0 /\ can_refill r1 = false) /\
       (can_refill r = false -> index r1 = index r)).
    { destruct op; cbn [is_read] in Hop; try contradiction; cbn [run_op read_bits read_output].
      - destruct (get_bit_read e r p H) as [r1 [k [E [I [B [Hk [Hx [_ Hi]]]]]]]].
        rewrite E. cbn [obind]. exists r1, k.
        rewrite window_pad_hd; [|lia|].
        2:{ rewrite bits_of_length. pose proof (inv_pos _ _ _ I). pose proof (inv_index _ _ _ I). rewrite B in *. lia. }
        split; [reflexivity|]. split; [exact I|]. split; [exact B|]. split; [lia|]. split; [exact Hx|exact Hi].
      - destruct (get_bits_32_read e r p n H Hop) as [r1 [k [E [I [B [Hk [Hx [_ Hi]]]]]]]].
        rewrite E. cbn [obind]. exists r1, k.
        split; [reflexivity|]. split; [exact I|]. split; [exact B|]. split; [lia|]. split; [exact Hx|exact Hi].
      - destruct (get_bits_64_read e r p n H Hop) as [r1 [k [E [I [B [Hk [Hx [_ Hi]]]]]]]].
        rewrite E. cbn [obind]. exists r1, k.
        split; [reflexivity|]. split; [exact I|]. split; [exact B|]. split; [lia|]. split; [exact Hx|exact Hi]. }
    destruct G as [r1 [k [E [I [B [Hk [Hx Hi]]]]]]].
    pose proof (inv_pos _ _ _ H) as P0. pose proof (inv_pos _ _ _ I) as P1. pose proof (inv_index _ _ _ I) as X1.
    assert (Hexk : ex = true -> k = 0 /\ left r1 = 0 /\ can_refill r1 = false).
    { intros He. destruct (Hex He) as [Hl Hc]. specialize (Hi Hc). split; [lia|]. split; [lia|].
      unfold can_refill in *. rewrite B, Hi. exact Hc. }
    destruct (IH r1 (p + k) (ex || (k <? read_bits op)) I Hops) as [r2 [outs [E2 T2]]].
    { intros He. apply orb_true_iff in He. destruct He as [He|He]; [apply (Hexk He)|].
      apply Hx. apply Nat.ltb_lt. exact He. }
    exists r2. eexists. cbn [run_ops]. rewrite E. cbn [obind]. rewrite E2. cbn [obind].
    split; [reflexivity|]. cbn [zero_fill_trace]. exists k.
    split; [exact Hk|]. split; [intros He; apply (Hexk He)|].
    split; [rewrite bits_of_length, <- B; lia|]. split; [reflexivity|].
    split; [|rewrite <- B; exact T2].
    intros Hlt. destruct (Hx Hlt) as [L1 C1]. pose proof (exhausted_near_end e r1 _ I L1 C1).
    rewrite bits_of_length, <- B. lia.
Qed.

Lemma overread_zero_fill : forall e buf ops, bytes buf -> Forall is_read ops ->
  exists r outs, run_from_new e buf ops = Ret (r, outs) /\
    zero_fill_trace e (bits_of e buf) 0 false ops outs.
Proof.
  intros e buf ops Hb Hf. unfold run_from_new.
  destruct (new_inv e buf Hb) as [r [E [I B]]]. rewrite E. cbn [obind]. rewrite <- B.
  apply overread_ops; [exact I|exact Hf|discriminate].
Qed.

(** ** C12 *)

Lemma refill64_index : forall e r r', refill64 e r = Ret r' -> index r' = index r \/ index r' = index r + 8.
Proof.
  intros e r r' E. unfold refill64 in E. destruct (can_refill r); cbn [negb] in E.
  - destruct (fill64 e r); try discriminate E. cbn [obind] in E. injection E as <-. right. reflexivity.
  - injection E as <-. left. reflexivity.
Qed.

Lemma get_val_index : forall e r n r' v, get_val e r n = Ret (r', v) -> index r' = index r.
Proof.
  intros e r n r' v E. unfold get_val in E. destruct (peek_val e r n); try discriminate E.
  cbn [obind] in E. injection E as <- _. apply skip_rem_index.
Qed.

Lemma get_bits_64_index : forall e r n r' v, get_bits_64 e r n = Ret (r', v) ->
  index r' = index r \/ index r' = index r + 8.
Proof.
  intros e r n r' v E. unfold get_bits_64 in E. destruct (n =? 0).
  { injection E as <- _. left. reflexivity. }
  destruct (left r <? n).
  - destruct (get_val e r (left r)) as [[r1 v1]| |] eqn:E1; try discriminate E. cbn [obind] in E.
    destruct (refill64 e r1) as [r2| |] eqn:E2; try discriminate E. cbn [obind] in E.
    destruct (get_val e r2 _) as [[r3 v3]| |] eqn:E3; try discriminate E. cbn [obind] in E.
    destruct (merge_val e _ _ _ _); try discriminate E. cbn [obind] in E. injection E as <- _.
    apply get_val_index in E1. apply get_val_index in E3. apply refill64_index in E2. lia.
  - destruct (get_val e r n) as [[r1 v1]| |] eqn:E1; try discriminate E. cbn [obind] in E.
    destruct (merge_val e _ _ _ _); try discriminate E. cbn [obind] in E. injection E as <- _.
    apply get_val_index in E1. lia.
Qed.

Lemma get_bit_index : forall e r r' v, get_bit e r = Ret (r', v) ->
  index r' = index r \/ index r' = index r + 8.
Proof.
  intros e r r' v E. unfold get_bit in E.
  destruct (left r =? 0).
  - destruct (refill64 e r) as [r2| |] eqn:E2; try discriminate E. cbn [obind] in E.
    destruct (get_val e r2 1) as [[r3 v3]| |] eqn:E3; try discriminate E. cbn [obind] in E.
    injection E as <- _. apply get_val_index in E3. apply refill64_index in E2. lia.
  - cbn [obind] in E. destruct (get_val e r 1) as [[r3 v3]| |] eqn:E3; try discriminate E. cbn [obind] in E.
    injection E as <- _. apply get_val_index in E3. lia.
Qed.

Lemma path64_op : forall e r p op, inv e r p -> path64 op ->
  index r mod 8 = 0 -> length (buffer r) mod 8 = 0 ->
  p + op_bits p op <= 8 * length (buffer r) ->
  exists r', run_op e r op = Ret (r', snd (spec_op e (bits_of e (buffer r)) p op)) /\
    inv e r' (fst (spec_op e (bits_of e (buffer r)) p op)) /\ buffer r' = buffer r /\ index r' mod 8 = 0.
Proof.
  intros e r p op H Hop Hi Hlen Hr.
  assert (NE : forall r' k, inv e r' (p + k) -> buffer r' = buffer r -> index r' mod 8 = 0 ->
            left r' = 0 -> can_refill r' = false -> p + k = 8 * length (buffer r)).
  { intros r' k I B X L C. pose proof (inv_pos _ _ _ I). pose proof (inv_index _ _ _ I).
    assert (~ (index r' + 8 <= length (buffer r'))) by (rewrite <- can_refill_true, C; discriminate).
    rewrite B in *. lia. }
  assert (GB : p + 1 <= 8 * length (buffer r) ->
     exists r', get_bit e r = Ret (r', nth p (bits_of e (buffer r)) false) /\ inv e r' (p + 1) /\
       buffer r' = buffer r /\ index r' mod 8 = 0).
  { intros Hr1. destruct (get_bit_read e r p H) as [r' [k [E [I [B [Hk [Hx _]]]]]]].
    pose proof (get_bit_index _ _ _ _ E) as X. assert (Xm : index r' mod 8 = 0) by lia.
    assert (k = 1).
    { destruct (Nat.eq_dec k 1) as [|Hne]; [assumption|]. destruct (Hx ltac:(lia)) as [L C].
      pose proof (NE r' k I B Xm L C). lia. }
    subst k. exists r'. auto. }
  assert (G64 : forall n, n <= 64 -> p + n <= 8 * length (buffer r) ->
     exists r', get_bits_64 e r n = Ret (r', value e (window (bits_of e (buffer r)) p n)) /\ inv e r' (p + n) /\
       buffer r' = buffer r /\ index r' mod 8 = 0).
  { intros n Hn Hr1. destruct (get_bits_64_read e r p n H Hn) as [r' [k [E [I [B [Hk [Hx _]]]]]]].
    pose proof (get_bits_64_index _ _ _ _ _ E) as X. assert (Xm : index r' mod 8 = 0) by lia.
    assert (k = n).
    { destruct (Nat.eq_dec k n) as [|Hne]; [assumption|]. destruct (Hx ltac:(lia)) as [L C].
      pose proof (NE r' k I B Xm L C). lia. }
    subst k. exists r'. rewrite Nat.sub_diag in E. cbn [zeros repeat] in E. rewrite app_nil_r in E. auto. }
  destruct op; cbn [run_op op_bits path64 spec_op fst snd] in *; try contradiction.
  - destruct (GB Hr) as [r' [E [I [B X]]]]. rewrite E. cbn [obind]. exists r'. auto.
  - destruct (G64 n Hop Hr) as [r' [E [I [B X]]]]. rewrite E. cbn [obind]. exists r'. auto.
  - destruct (GB Hr) as [r' [E [I [B X]]]]. unfold peek_bit. rewrite E. cbn [obind]. exists r. auto.
  - destruct (G64 n Hop Hr) as [r' [E [I [B X]]]]. unfold peek_bits_64. rewrite E. cbn [obind]. exists r. auto.
  - destruct (Nat.le_gt_cases n (left r)) as [Hle|Hgt].
    + destruct (skip_bits_cached e r p n H Hle) as [r' [E [I [B X]]]]. rewrite E. cbn [obind]. exists r'.
      split; [reflexivity|]. split; [exact I|]. split; [exact B|congruence].
    + unfold skip_bits. destruct (Nat.ltb_spec (left r) n); [|lia].
      destruct (Nat.ltb_spec 64 (n - left r)); [lia|].
      pose proof (inv_pos _ _ _ H) as P. pose proof (inv_index _ _ _ H) as X0.
      destruct (refill64_some e (skip_rem e r (n - left r))) as [r3 [E3 [I3 [L3 [X3 B3]]]]].
      { rewrite skip_rem_buffer. apply (inv_bytes _ _ _ H). }
      { apply can_refill_true. rewrite skip_rem_buffer, skip_rem_index. lia. }
      rewrite E3. cbn [obind]. eexists. split; [reflexivity|].
      rewrite skip_rem_index in I3, X3. rewrite skip_rem_buffer in B3.
      pose proof (skip_rem_inv e r3 _ (n - left r) I3 ltac:(lia)) as I4.
      rewrite L3, Nat.min_l in I4 by lia. replace (8 * index r + (n - left r)) with (p + n) in I4 by lia.
      split; [exact I4|]. split; [rewrite skip_rem_buffer; exact B3|]. rewrite skip_rem_index. lia.
  - destruct (align_bits_exact e r p H) as [r' [E [I [B X]]]]. rewrite E. cbn [obind]. exists r'.
    split; [reflexivity|]. split; [exact I|]. split; [exact B|congruence].
  - rewrite (consumed_inv e r p H). cbn [obind]. exists r. auto.
  - rewrite (available_inv e r p H), bits_of_length. cbn [obind]. exists r. auto.
Qed.

Lemma path64_ops : forall e ops r p, inv e r p -> Forall path64 ops ->
  index r mod 8 = 0 -> length (buffer r) mod 8 = 0 ->
  ops_within e (bits_of e (buffer r)) (8 * length (buffer r)) p ops ->
  exists r', run_ops e r ops = Ret (r', snd (spec_ops e (bits_of e (buffer r)) p ops)) /\
    inv e r' (fst (spec_ops e (bits_of e (buffer r)) p ops)) /\ buffer r' = buffer r.
Proof.
  induction ops as [|op ops IH]; intros r p H Hf Hi Hl Hw.
  - exists r. auto.
  - inversion Hf; subst. cbn [ops_within] in Hw. destruct Hw as [Hok [Hp Hw]].
    destruct (path64_op e r p op H ltac:(assumption) Hi Hl Hp) as [r1 [E1 [I1 [B1 X1]]]].
    cbn [run_ops spec_ops]. rewrite E1. cbn [obind].
    destruct (spec_op e (bits_of e (buffer r)) p op) as [p1 o1] eqn:Es. cbn [fst snd] in *.
    rewrite <- B1 in Hw, Hl. destruct (IH r1 p1 I1 ltac:(assumption) X1 Hl Hw) as [r2 [E2 [I2 B2]]].
    rewrite E2. cbn [obind]. rewrite B1 in *.
    destruct (spec_ops e (bits_of e (buffer r)) p1 ops) as [p2 os]. cbn [fst snd] in *.
    exists r2. split; [reflexivity|]. split; [exact I2|congruence].
Qed.

Lemma exact_to_the_end_64 : forall e buf ops, bytes buf -> length buf mod 8 = 0 -> Forall path64 ops ->
  ops_within e (bits_of e buf) (8 * length buf) 0 ops ->
  exists r, run_from_new e buf ops = Ret (r, snd (spec_ops e (bits_of e buf) 0 ops)) /\
    consumed r = Ret (fst (spec_ops e (bits_of e buf) 0 ops)).
Proof.
  intros e buf ops Hb Hl Hf Hw. unfold run_from_new.
  destruct (new_inv e buf Hb) as [r [E [I B]]]. rewrite E. cbn [obind].
  assert (X : index r mod 8 = 0).
  { unfold new in E. apply refill64_index in E. cbn [index] in E. lia. }
  rewrite <- B in *. destruct (path64_ops e ops r 0 I Hf X Hl Hw) as [r' [E' [I' B']]].
  exists r'. split; [exact E'|]. eapply consumed_inv. exact I'.
Qed.

(** ** C14, the part that holds *)
Lemma skip_past_end_exhausts : forall e buf ops n r outs, bytes buf -> Forall is_read ops ->
  run_from_new e buf ops = Ret (r, outs) -> can_refill r = false -> index r = length buf ->
  2 * left r <= n <= left r + 64 ->
  exists r', skip_bits e r n = Ret r' /\ available r' = Ret 0.
Proof.
  intros e buf ops n r outs Hb Hf Hr Hc Hx Hn.
  assert (HI : exists p, inv e r p /\ buffer r = buf).
  { unfold run_from_new in Hr. destruct (new_inv e buf Hb) as [r0 [E0 [I0 B0]]]. rewrite E0 in Hr. cbn [obind] in Hr.
    clear E0. revert r0 I0 B0 Hf outs Hr. generalize 0. induction ops as [|op ops IH]; intros p r0 I0 B0 Hf outs Hr.
    - cbn [run_ops] in Hr. injection Hr as <- _. eauto.
    - inversion Hf as [|? ? Hop Hops]; subst. cbn [run_ops] in Hr.
      destruct (run_op e r0 op) as [[r1 o1]| |] eqn:E1; try discriminate Hr. cbn [obind] in Hr.
      destruct (run_ops e r1 ops) as [[r2 o2]| |] eqn:E2; try discriminate Hr. cbn [obind] in Hr.
      injection Hr as <- _.
      assert (G : exists p1, inv e r1 p1 /\ buffer r1 = buffer r0).
      { destruct op; cbn [is_read] in Hop; try contradiction; cbn [run_op] in E1.
        - destruct (get_bit_read e r0 p I0) as [r' [k [E [I [B _]]]]]. rewrite E in E1. cbn [obind] in E1.
          injection E1 as <- _. eauto.
        - destruct (get_bits_32_read e r0 p n0 I0 Hop) as [r' [k [E [I [B _]]]]]. rewrite E in E1. cbn [obind] in E1.
          injection E1 as <- _. eauto.
        - destruct (get_bits_64_read e r0 p n0 I0 Hop) as [r' [k [E [I [B _]]]]]. rewrite E in E1. cbn [obind] in E1.
          injection E1 as <- _. eauto. }
      destruct G as [p1 [I1 B1]]. eapply (IH p1 r1 I1 B1 Hops). exact E2. }
  destruct HI as [p [I B]]. pose proof (inv_left _ _ _ I).
  unfold skip_bits. destruct (Nat.ltb_spec (left r) n).
  - destruct (Nat.ltb_spec 64 (n - left r)); [lia|].
    rewrite refill64_none by (unfold can_refill in *; rewrite skip_rem_buffer, skip_rem_index; exact Hc).
    cbn [obind]. eexists. split; [reflexivity|]. unfold available.
    rewrite !skip_rem_buffer, !skip_rem_index, !skip_rem_left, B, Hx. unfold csub. rewrite Nat.leb_refl. cbn [obind].
    f_equal. lia.
  - assert (left r = 0) by lia. eexists. split; [reflexivity|]. unfold available.
    rewrite !skip_rem_buffer, !skip_rem_index, !skip_rem_left, B, Hx. unfold csub. rewrite Nat.leb_refl. cbn [obind].
    f_equal. lia.
Qed.

(** ** C13, the part that holds *)
Lemma available_bits_readable : forall e buf ops n r outs a, bytes buf -> 8 <= length buf -> n <= 64 ->
  ops_within e (bits_of e buf) (8 * length buf - 64) 0 ops ->
  run_from_new e buf ops = Ret (r, outs) -> available r = Ret a -> n + 64 <= a ->
  exists c r', consumed r = Ret c /\ get_bits_64 e r n = Ret (r', value e (window (bits_of e buf) c n)).
Proof.
  intros e buf ops n r outs a Hb Hl Hn Hw Hr Ha Hna. unfold run_from_new in Hr.
  destruct (new_inv e buf Hb) as [r0 [E [I B]]]. rewrite E in Hr. cbn [obind] in Hr. subst buf.
  destruct (run_ops_exact e ops r0 0 I Hw ltac:(lia)) as [r' [E' [I' B']]].
  rewrite E' in Hr. injection Hr as -> _.
  set (c := fst (spec_ops e (bits_of e (buffer r0)) 0 ops)) in *.
  pose proof (available_inv e r c I') as Av. rewrite Av in Ha. injection Ha as Ha.
  destruct (read_result_exact e r c n _ (get_bits_64_read e r c n I' Hn) ltac:(lia)) as [r2 [E2 _]].
  exists c, r2. split; [apply (consumed_inv e r c I')|]. rewrite <- B'. exact E2.
Qed.

(** A checker for [calls_ok], used by the examples. *)
Definition op_okb (op : bit_op) : bool :=
  match op with
  | OpGet32 n | OpPeek32 n => n <=? 32
  | OpGet64 n | OpPeek64 n => n <=? 64
  | _ => true
  end.
Fixpoint calls_okb (e : endian) (r : reader) (ops : list bit_op) : bool :=
  match ops with
  | [] => true
  | op :: ops' =>
      op_okb op &&
      match op with OpSkip n => match available r with Ret a => n <=? a | _ => true end | _ => true end &&
      match run_op e r op with Ret (r', _) => calls_okb e r' ops' | _ => true end
  end.
Lemma calls_okb_sound : forall e ops r, calls_okb e r ops = true -> calls_ok e r ops.
Proof.
  induction ops as [|op ops IH]; intros r H; [exact I|].
  cbn [calls_okb] in H. apply andb_true_iff in H. destruct H as [H H3]. apply andb_true_iff in H. destruct H as [H1 H2].
  cbn [calls_ok]. split; [|split].
  - destruct op; cbn [op_okb op_ok] in *; try exact I; apply Nat.leb_le; exact H1.
  - intros n a -> Ha. rewrite Ha in H2. apply Nat.leb_le. exact H2.
  - intros r' o E. rewrite E in H3. apply IH. exact H3.
Qed.
