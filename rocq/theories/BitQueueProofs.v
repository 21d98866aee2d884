(** The bit reader refines the queue of [BitQueueSpec]. *)
From Coq Require Import List Arith NArith ZArith Bool Lia.
From Coq Require Import ZifyBool ZifyNat ZifyN.
From Verif Require Import Base ByteModel ByteSpec ByteProofs BitModel BitSpec BitProofs BitProofs2 BitQueueSpec.
Import ListNotations.
Local Open Scope nat_scope.
Ltac Zify.zify_post_hook ::= Z.div_mod_to_equations.

Record rep (e : endian) (buf : list N) (r : reader) (q : queue) : Prop := {
  rep_buffer : buffer r = buf;
  rep_index : 8 * index r = fetched q;
  rep_left : left r = length (waiting q);
  rep_64 : length (waiting q) <= 64;
  rep_pos : length (waiting q) <= fetched q;
  rep_cache : cache r = value e (waiting q ++ zeros (64 - length (waiting q)))
}.

Lemma rep_peek : forall e buf r q n, rep e buf r q -> n <= 64 ->
  peek_val e r n = Ret (value e (front q n)).
Proof.
  intros e buf r q n H Hn.
  rewrite (peek_val_spec e r (waiting q ++ zeros (64 - length (waiting q))) n).
  - unfold front. rewrite firstn_app. do 3 f_equal. pose proof (rep_64 _ _ _ _ H).
    change (repeat false) with zeros. apply firstn_zeros. lia.
  - rewrite app_length, zeros_length. pose proof (rep_64 _ _ _ _ H). lia.
  - apply H.
  - exact Hn.
Qed.

Lemma rep_drop : forall e buf r q n, rep e buf r q -> n <= 64 -> rep e buf (skip_rem e r n) (drop q n).
Proof.
  intros e buf r q n H Hn. pose proof (rep_64 _ _ _ _ H). pose proof (rep_pos _ _ _ _ H).
  constructor; cbn [drop waiting fetched]; rewrite ?skip_rem_buffer, ?skip_rem_index, ?skip_rem_left, ?skipn_length.
  - apply H.
  - apply H.
  - rewrite (rep_left _ _ _ _ H). reflexivity.
  - lia.
  - lia.
  - rewrite (skip_rem_spec e r (waiting q ++ zeros (64 - length (waiting q))) n).
    + f_equal. rewrite skipn_app, skipn_zeros, <- app_assoc, <- zeros_add. do 2 f_equal. lia.
    + rewrite app_length, zeros_length. lia.
    + apply H.
    + exact Hn.
Qed.

Lemma rep_get : forall e buf r q n, rep e buf r q -> n <= 64 ->
  exists r', get_val e r n = Ret (r', value e (front q n)) /\ rep e buf r' (drop q n).
Proof.
  intros. exists (skip_rem e r n). unfold get_val. erewrite rep_peek by eassumption.
  split; [reflexivity|]. apply rep_drop; assumption.
Qed.

Lemma rep_can_refill : forall e buf r q, rep e buf r q ->
  can_refill r = (fetched q + 64 <=? length (bits_of e buf)).
Proof.
  intros e buf r q H. unfold can_refill. rewrite bits_of_length, (rep_buffer _ _ _ _ H).
  pose proof (rep_index _ _ _ _ H).
  destruct (Nat.leb_spec (index r + 8) (length buf)), (Nat.leb_spec (fetched q + 64) (8 * length buf));
    reflexivity || lia.
Qed.

Lemma rep_refill64 : forall e buf r q, bytes buf -> rep e buf r q ->
  exists r', refill64 e r = Ret r' /\ rep e buf r' (fetch64 (bits_of e buf) q).
Proof.
  intros e buf r q Hb H. pose proof (rep_can_refill _ _ _ _ H) as Hc. unfold fetch64. rewrite <- Hc.
  destruct (can_refill r) eqn:E.
  - destruct (refill64_some e r) as [r' [E' [I [L [X B]]]]]; [rewrite (rep_buffer _ _ _ _ H); exact Hb|exact E|].
    exists r'. split; [exact E'|]. pose proof (rep_index _ _ _ _ H) as Hx.
    assert (Hlen : length (window (bits_of e buf) (fetched q) 64) = 64).
    { apply window_length. symmetry in Hc. apply Nat.leb_le in Hc. exact Hc. }
    constructor; cbn [waiting fetched]; rewrite ?Hlen; try lia.
    + rewrite B. apply H.
    + rewrite (inv_cache _ _ _ I), L, B, (rep_buffer _ _ _ _ H), Hx. reflexivity.
  - exists r. split; [apply refill64_none; exact E|exact H].
Qed.

Lemma rep_refill32 : forall e buf r q, bytes buf -> rep e buf r q -> length (waiting q) <= 32 ->
  exists r', refill32 e r = Ret r' /\ rep e buf r' (fetch32 (bits_of e buf) q).
Proof.
  intros e buf r q Hb H Hl. pose proof (rep_can_refill _ _ _ _ H) as Hc. unfold fetch32. rewrite <- Hc.
  destruct (can_refill r) eqn:E.
  - pose proof E as E0. apply can_refill_true in E0. pose proof (rep_index _ _ _ _ H) as Hx.
    pose proof (rep_pos _ _ _ _ H).
    set (v := window (bits_of e buf) (fetched q) 32).
    assert (Hv : length v = 32) by (apply window_length; rewrite bits_of_length; rewrite (rep_buffer _ _ _ _ H) in E0; lia).
    unfold refill32. rewrite E. cbn [negb].
    rewrite fill32_spec by (rewrite (rep_buffer _ _ _ _ H) in *; assumption). cbn [obind].
    rewrite (rep_buffer _ _ _ _ H), Hx. fold v.
    rewrite (rep_cache _ _ _ _ H), (rep_left _ _ _ _ H), build_cache_spec by assumption. cbn [obind].
    eexists. split; [reflexivity|].
    constructor; cbn [waiting fetched buffer index left cache]; rewrite ?app_length, ?Hv; try lia.
    + reflexivity.
    + rewrite <- app_assoc. do 4 f_equal. lia.
  - exists r. split; [apply refill32_none; exact E|exact H].
Qed.

Lemma front_exact : forall q n, n <= length (waiting q) -> front q n = firstn n (waiting q).
Proof.
  intros q n H. unfold front. replace (n - length (waiting q)) with 0 by lia. apply app_nil_r.
Qed.

Lemma front_length : forall q n, length (front q n) = n.
Proof. intros. unfold front. rewrite app_length, firstn_length, repeat_length. lia. Qed.

Lemma drop_0 : forall q, drop q 0 = q.
Proof. intros [w f]. reflexivity. Qed.

Lemma q_get64_rep : forall e buf r q n, bytes buf -> rep e buf r q -> n <= 64 ->
  exists r', get_bits_64 e r n = Ret (r', value e (snd (q_get64 (bits_of e buf) q n))) /\
    rep e buf r' (fst (q_get64 (bits_of e buf) q n)).
Proof.
  intros e buf r q n Hb H Hn. unfold get_bits_64, q_get64. pose proof (rep_left _ _ _ _ H) as Hl.
  pose proof (rep_64 _ _ _ _ H) as H64.
  destruct (Nat.eqb_spec n 0) as [->|Hn0].
  { exists r. cbn [Nat.leb fst snd]. rewrite drop_0. split; [destruct e; reflexivity|exact H]. }
  rewrite Hl.
  destruct (Nat.ltb_spec (length (waiting q)) n) as [Hlt|Hge];
    destruct (Nat.leb_spec n (length (waiting q))); try lia; cbn [fst snd].
  - destruct (rep_get e buf r q (length (waiting q)) H H64) as [r1 [E1 R1]]. rewrite E1. cbn [obind].
    rewrite front_exact, firstn_all by lia.
    assert (D : drop q (length (waiting q)) = mk_queue [] (fetched q)) by (unfold drop; rewrite skipn_all; reflexivity).
    rewrite D in R1.
    destruct (rep_refill64 e buf r1 _ Hb R1) as [r2 [E2 R2]]. rewrite E2. cbn [obind].
    destruct (rep_get e buf r2 _ (n - length (waiting q)) R2 ltac:(lia)) as [r3 [E3 R3]]. rewrite E3. cbn [obind].
    set (b := front _ (n - length (waiting q))) in *.
    assert (Lb : length b = n - length (waiting q)) by apply front_length.
    pose proof (merge_val_spec e (waiting q) b ltac:(lia) ltac:(lia)) as M. rewrite Lb in M. rewrite M. cbn [obind].
    exists r3. split; [reflexivity|exact R3].
  - destruct (rep_get e buf r q n H Hn) as [r1 [E1 R1]]. rewrite E1. cbn [obind].
    pose proof (front_length q n) as Lf.
    pose proof (merge_val_spec e [] (front q n) ltac:(cbn [length]; lia) ltac:(lia)) as M.
    rewrite Lf in M. cbn [length app] in M. replace (value e []) with 0%N in M by (destruct e; reflexivity).
    rewrite M. cbn [obind]. exists r1. split; [reflexivity|exact R1].
Qed.

Lemma q_get32_rep : forall e buf r q n, bytes buf -> rep e buf r q -> n <= 32 ->
  exists r', get_bits_32 e r n = Ret (r', value e (snd (q_get32 (bits_of e buf) q n))) /\
    rep e buf r' (fst (q_get32 (bits_of e buf) q n)).
Proof.
  intros e buf r q n Hb H Hn. unfold get_bits_32, q_get32. pose proof (rep_left _ _ _ _ H) as Hl.
  destruct (Nat.eqb_spec n 0) as [->|Hn0].
  { exists r. cbn [fst snd]. split; [destruct e; reflexivity|exact H]. }
  rewrite Hl. cbn [fst snd].
  assert (G : exists r1, (if length (waiting q) <=? n then refill32 e r else Ret r) = Ret r1 /\
            rep e buf r1 (if length (waiting q) <=? n then fetch32 (bits_of e buf) q else q)).
  { destruct (Nat.leb_spec (length (waiting q)) n).
    - apply rep_refill32; try assumption. lia.
    - exists r. split; [reflexivity|exact H]. }
  destruct G as [r1 [E1 R1]]. rewrite E1. cbn [obind].
  destruct (rep_get e buf r1 _ n R1 ltac:(lia)) as [r2 [E2 R2]]. rewrite E2. cbn [obind].
  exists r2. split; [|exact R2]. do 2 f_equal. apply N.mod_small.
  eapply N.lt_le_trans; [apply value_bound|]. rewrite front_length.
  change W32 with (2 ^ N.of_nat 32)%N. apply N.pow_le_mono_r; lia.
Qed.

Lemma value_single : forall e b, value e [b] = N.b2n b.
Proof. intros [] []; reflexivity. Qed.

Lemma q_bit_rep : forall e buf r q, bytes buf -> rep e buf r q ->
  exists r', get_bit e r = Ret (r', snd (q_bit (bits_of e buf) q)) /\
    rep e buf r' (fst (q_bit (bits_of e buf) q)).
Proof.
  intros e buf r q Hb H. unfold get_bit, q_bit. rewrite (rep_left _ _ _ _ H). cbn [fst snd].
  assert (G : exists r1, (if length (waiting q) =? 0 then refill64 e r else Ret r) = Ret r1 /\
            rep e buf r1 (match waiting q with [] => fetch64 (bits_of e buf) q | _ => q end)).
  { destruct (waiting q) as [|b w] eqn:Ew; cbn [length Nat.eqb].
    - destruct (rep_refill64 e buf r q Hb H) as [r1 [E1 R1]]. exists r1. split; assumption.
    - exists r. split; [reflexivity|exact H]. }
  destruct G as [r1 [E1 R1]]. rewrite E1. cbn [obind]. set (q1 := match waiting q with [] => _ | _ => _ end) in *.
  destruct (rep_get e buf r1 q1 1 R1 ltac:(lia)) as [r2 [E2 R2]]. rewrite E2. cbn [obind].
  exists r2. split; [|exact R2]. do 2 f_equal.
  unfold front. destruct (waiting q1) as [|b w]; cbn [length firstn Nat.sub repeat app hd];
    rewrite value_single; [reflexivity|destruct b; reflexivity].
Qed.

Lemma q_skip_rep : forall e buf r q n, bytes buf -> rep e buf r q ->
  exists r', skip_bits e r n = Ret r' /\ rep e buf r' (q_skip (bits_of e buf) q n).
Proof.
  intros e buf r q n Hb H. unfold skip_bits, q_skip. rewrite (rep_left _ _ _ _ H).
  pose proof (rep_64 _ _ _ _ H) as H64. pose proof (rep_pos _ _ _ _ H) as Hp. pose proof (rep_index _ _ _ _ H) as Hx.
  destruct (Nat.ltb_spec (length (waiting q)) n) as [Hlt|Hge];
    destruct (Nat.leb_spec n (length (waiting q))); try lia.
  - set (k := n - length (waiting q)).
    destruct (Nat.ltb_spec 64 k) as [Hk|Hk].
    + replace (k - k / 8 * 8) with (k mod 8) by (clearbody k; lia).
      set (r1 := mk_reader _ _ _ _).
      assert (R1 : rep e buf r1 (mk_queue (waiting q) (fetched q + 8 * (k / 8)))).
      { constructor; unfold r1; cbn [waiting fetched buffer index left cache]; try apply H; try reflexivity.
        - clearbody k. lia.
        - clearbody k. lia. }
      destruct (rep_refill64 e buf _ _ Hb (rep_drop e buf r1 _ (k mod 8) R1 ltac:(clearbody k; lia))) as [r3 [E3 R3]].
      rewrite E3. cbn [obind]. eexists. split; [reflexivity|]. apply rep_drop; [exact R3|clearbody k; lia].
    + rewrite Nat.add_0_r.
      destruct (rep_refill64 e buf _ _ Hb (rep_drop e buf r _ k H Hk)) as [r3 [E3 R3]].
      rewrite E3. cbn [obind]. eexists. split; [reflexivity|]. apply rep_drop; [exact R3|exact Hk].
  - eexists. split; [reflexivity|]. apply rep_drop; [exact H|lia].
Qed.

Lemma q_align_rep : forall e buf r q, bytes buf -> rep e buf r q ->
  exists r', align_bits e r = Ret r' /\ rep e buf r' (drop q (length (waiting q) mod 8)).
Proof.
  intros e buf r q Hb H. unfold align_bits. rewrite (rep_left _ _ _ _ H).
  destruct (q_skip_rep e buf r q (length (waiting q) mod 8) Hb H) as [r' [E R]].
  exists r'. split; [exact E|]. unfold q_skip in R.
  destruct (Nat.leb_spec (length (waiting q) mod 8) (length (waiting q))); [exact R|].
  pose proof (Nat.mod_le (length (waiting q)) 8). lia.
Qed.

Lemma q_op_rep : forall e buf r q op, bytes buf -> rep e buf r q -> op_ok op ->
  match q_op e (bits_of e buf) q op with
  | Some (q', o) => exists r', run_op e r op = Ret (r', o) /\ rep e buf r' q'
  | None => run_op e r op = Panic
  end.
Proof.
  intros e buf r q op Hb H Hok.
  destruct op as [|n|n| |n|n|n| | |]; cbn [op_ok] in Hok; cbn [q_op run_op].
  - destruct (q_bit_rep e buf r q Hb H) as [r' [E R]]. rewrite E. cbn [obind].
    destruct (q_bit _ q) as [q' b]. exists r'. split; [reflexivity|exact R].
  - destruct (q_get32_rep e buf r q n Hb H Hok) as [r' [E R]]. rewrite E. cbn [obind].
    destruct (q_get32 _ q n) as [q' w]. exists r'. split; [reflexivity|exact R].
  - destruct (q_get64_rep e buf r q n Hb H Hok) as [r' [E R]]. rewrite E. cbn [obind].
    destruct (q_get64 _ q n) as [q' w]. exists r'. split; [reflexivity|exact R].
  - destruct (q_bit_rep e buf r q Hb H) as [r' [E R]]. unfold peek_bit. rewrite E. cbn [obind].
    exists r. split; [reflexivity|exact H].
  - destruct (q_get32_rep e buf r q n Hb H Hok) as [r' [E R]]. unfold peek_bits_32. rewrite E. cbn [obind].
    exists r. split; [reflexivity|exact H].
  - destruct (q_get64_rep e buf r q n Hb H Hok) as [r' [E R]]. unfold peek_bits_64. rewrite E. cbn [obind].
    exists r. split; [reflexivity|exact H].
  - destruct (q_skip_rep e buf r q n Hb H) as [r' [E R]]. rewrite E. cbn [obind].
    exists r'. split; [reflexivity|exact R].
  - destruct (q_align_rep e buf r q Hb H) as [r' [E R]]. rewrite E. cbn [obind].
    exists r'. split; [reflexivity|exact R].
  - exists r. split; [|exact H]. unfold consumed, csub. rewrite (rep_left _ _ _ _ H).
    pose proof (rep_index _ _ _ _ H). pose proof (rep_pos _ _ _ _ H).
    destruct (Nat.leb_spec (length (waiting q)) (index r * 8)); [|lia]. cbn [obind].
    do 3 f_equal. lia.
  - unfold available, csub. rewrite bits_of_length, (rep_left _ _ _ _ H), (rep_buffer _ _ _ _ H).
    pose proof (rep_index _ _ _ _ H).
    destruct (Nat.leb_spec (fetched q) (8 * length buf)), (Nat.leb_spec (index r) (length buf)); try lia; cbn [obind].
    + exists r. split; [|exact H]. do 3 f_equal. lia.
    + reflexivity.
Qed.

Lemma q_ops_rep : forall e buf ops r q, bytes buf -> rep e buf r q -> Forall op_ok ops ->
  match q_ops e (bits_of e buf) q ops with
  | Some (q', os) => exists r', run_ops e r ops = Ret (r', os) /\ rep e buf r' q'
  | None => run_ops e r ops = Panic
  end.
Proof.
  intros e buf ops. induction ops as [|op ops IH]; intros r q Hb H Hok; cbn [q_ops run_ops].
  - exists r. split; [reflexivity|exact H].
  - inversion Hok as [|? ? H1 H2]; subst. pose proof (q_op_rep e buf r q op Hb H H1) as G.
    destruct (q_op e (bits_of e buf) q op) as [[q1 o]|].
    + destruct G as [r1 [E R]]. rewrite E. cbn [obind]. specialize (IH r1 q1 Hb R H2).
      destruct (q_ops e (bits_of e buf) q1 ops) as [[q2 os]|].
      * destruct IH as [r2 [E2 R2]]. rewrite E2. cbn [obind]. exists r2. split; [reflexivity|exact R2].
      * rewrite IH. reflexivity.
    + rewrite G. reflexivity.
Qed.

Lemma rep_start : forall e buf, rep e buf (mk_reader buf 0 0%N 0) (mk_queue [] 0).
Proof.
  intros e buf. constructor; cbn [buffer index left cache waiting fetched length app]; try reflexivity; try lia.
  symmetry. apply value_zeros.
Qed.

Lemma rep_consumed : forall e buf r q, rep e buf r q -> consumed r = Ret (fetched q - length (waiting q)).
Proof.
  intros e buf r q H. unfold consumed, csub. rewrite (rep_left _ _ _ _ H).
  pose proof (rep_index _ _ _ _ H). pose proof (rep_pos _ _ _ _ H).
  destruct (Nat.leb_spec (length (waiting q)) (index r * 8)); [|lia]. f_equal. lia.
Qed.

(** ** C78 *)
Lemma bit_queue_rep : forall e buf ops, bytes buf -> Forall op_ok ops ->
  match q_run e buf ops with
  | Some (q, outs) => exists r, run_from_new e buf ops = Ret (r, outs) /\ rep e buf r q
  | None => run_from_new e buf ops = Panic
  end.
Proof.
  intros e buf ops Hb Hok. unfold q_run, run_from_new, new.
  destruct (rep_refill64 e buf _ _ Hb (rep_start e buf)) as [r [E R]]. rewrite E. cbn [obind].
  apply q_ops_rep; assumption.
Qed.

Lemma bit_queue_exact : forall e buf ops, bytes buf -> Forall op_ok ops ->
  match q_run e buf ops with
  | Some (q, outs) => exists r, run_from_new e buf ops = Ret (r, outs) /\
      left r = length (waiting q) /\ consumed r = Ret (fetched q - length (waiting q))
  | None => run_from_new e buf ops = Panic
  end.
Proof.
  intros e buf ops Hb Hok. pose proof (bit_queue_rep e buf ops Hb Hok) as G.
  destruct (q_run e buf ops) as [[q outs]|]; [|exact G]. destruct G as [r [E R]].
  exists r. split; [exact E|]. split; [apply R|]. eapply rep_consumed. exact R.
Qed.
