(** The benchmark programs on the models. *)
From Coq Require Import List Arith NArith ZArith Bool Lia.
From Coq Require Import ZifyBool ZifyNat ZifyN.
From Verif Require Import Base ByteModel ByteSpec BitModel BitSpec BitProofs BitProofs2 BitMain BitQueueSpec BitQueueProofs BitQueueProofs2.
From Verif Require Import BenchModel BenchSpec.
Import ListNotations.
Local Open Scope nat_scope.
Ltac Zify.zify_post_hook ::= Z.div_mod_to_equations.

Lemma loop_body_ok : Forall op_ok loop_body.
Proof. unfold loop_body. repeat constructor; cbn [op_ok]; lia. Qed.

(** ** One pass over a block of 64 bits *)

(** A queue holding the [m] bits from [p] on. *)
Definition held (l : list bool) (p m : nat) : queue := mk_queue (window l p m) (p + m).

Lemma held_skip : forall l p m n, p + m <= length l -> n <= m -> q_skip l (held l p m) n = held l (p + n) (m - n).
Proof.
  intros l p m n Hl Hn. unfold q_skip, held. cbn [waiting fetched]. rewrite window_length by lia.
  replace (n <=? m) with true by lia. unfold drop. cbn [waiting fetched]. rewrite window_skipn by lia.
  f_equal. lia.
Qed.

Lemma held_front : forall l p m n f, p + m <= length l -> n <= m -> front (mk_queue (window l p m) f) n = window l p n.
Proof.
  intros l p m n f Hl Hn. unfold front. cbn [waiting]. rewrite window_length by lia. rewrite window_firstn by lia.
  replace (n - m) with 0 by lia. apply app_nil_r.
Qed.

Lemma held_get32 : forall l p m n, p + m <= length l -> 0 < n < m ->
  q_get32 l (held l p m) n = (held l (p + n) (m - n), window l p n).
Proof.
  intros l p m n Hl Hn. unfold q_get32. replace (n =? 0) with false by lia.
  unfold held. cbn [waiting]. rewrite window_length by lia. replace (m <=? n) with false by lia.
  f_equal.
  - unfold drop. cbn [waiting fetched]. rewrite window_skipn by lia. f_equal. lia.
  - apply held_front; lia.
Qed.

Lemma held_peek32 : forall l p n, p + n <= length l -> 0 < n -> snd (q_get32 l (held l p n) n) = window l p n.
Proof.
  intros l p n Hl Hn. unfold q_get32. replace (n =? 0) with false by lia.
  unfold held. cbn [waiting]. rewrite window_length by lia. replace (n <=? n) with true by lia. cbn [snd].
  unfold fetch32. cbn [waiting fetched]. destruct (Nat.leb_spec (p + n + 64) (length l)).
  - rewrite <- window_split. apply held_front; lia.
  - apply held_front; lia.
Qed.

(** Between two blocks: the block ahead is held, or nothing is. *)
Definition between (l : list bool) (k : nat) (q : queue) : Prop :=
  (q = held l (64 * k) 64 /\ 64 * k + 64 <= length l) \/ (q = mk_queue [] (64 * k) /\ 64 * k <= length l).

Lemma between_skip : forall l k q, between l k q -> 64 * k + 64 <= length l -> q_skip l q 1 = held l (64 * k + 1) 63.
Proof.
  intros l k q [[-> _]|[-> _]] Hl; [apply held_skip; lia|].
  unfold q_skip. cbn [waiting length Nat.leb Nat.sub fetched]. cbn [Nat.ltb Nat.leb skipn].
  rewrite Nat.add_0_r. unfold fetch64. cbn [fetched]. replace (_ <=? _) with true by lia.
  unfold drop, held. cbn [waiting fetched]. rewrite window_skipn by lia. f_equal. lia.
Qed.

Lemma pass_block : forall e l k q, between l k q -> 64 * k + 64 <= length l ->
  q_ops e l q loop_body = Some (mk_queue [] (64 * S k), block_reads e l k).
Proof.
  intros e l k q H Hl. unfold loop_body. cbn [q_ops q_op]. rewrite (between_skip l k q H Hl).
  rewrite held_get32 by lia. rewrite held_skip by lia. rewrite held_get32 by lia. rewrite held_skip by lia.
  rewrite held_get32 by lia. rewrite held_skip by lia. rewrite held_get32 by lia. rewrite held_skip by lia.
  rewrite held_get32 by lia.
  match goal with |- context [held l ?p (63 - 1 - 3 - 3 - 5 - 5 - 7 - 7 - 11 - 11)] =>
    replace p with (64 * k + 54) by lia end.
  change (63 - 1 - 3 - 3 - 5 - 5 - 7 - 7 - 11 - 11) with 10.
  rewrite held_peek32 by lia. rewrite held_skip by lia.
  replace (held l (64 * k + 54 + 10) (10 - 10)) with (mk_queue [] (64 * S k))
    by (unfold held; cbn [Nat.sub]; unfold window; cbn [firstn]; f_equal; lia).
  unfold block_reads.
  rewrite <- !Nat.add_assoc. reflexivity.
Qed.

(** A pass that finds fewer than 64 bits leaves everything as it is. *)
Lemma pass_stuck : forall e l f, length l < f + 64 ->
  exists outs, q_ops e l (mk_queue [] f) loop_body = Some (mk_queue [] f, outs).
Proof.
  intros e l f Hl.
  assert (F64 : forall w, fetch64 l (mk_queue w f) = mk_queue w f) by (intros w; unfold fetch64; cbn [fetched]; replace (_ <=? _) with false by lia; reflexivity).
  assert (F32 : forall w, fetch32 l (mk_queue w f) = mk_queue w f) by (intros w; unfold fetch32; cbn [fetched]; replace (_ <=? _) with false by lia; reflexivity).
  assert (S1 : forall n, 0 < n <= 64 -> q_skip l (mk_queue [] f) n = mk_queue [] f).
  { intros n Hn. unfold q_skip. cbn [waiting length fetched]. replace (n <=? 0) with false by lia. rewrite Nat.sub_0_r.
    replace (64 <? n) with false by lia. rewrite skipn_nil, Nat.add_0_r, F64. unfold drop. cbn [waiting fetched]. rewrite skipn_nil. reflexivity. }
  assert (G1 : forall n, 0 < n -> q_get32 l (mk_queue [] f) n = (mk_queue [] f, repeat false n)).
  { intros n Hn. unfold q_get32. cbn [waiting length]. replace (n =? 0) with false by lia. cbn [Nat.leb]. rewrite F32.
    unfold drop, front. cbn [waiting fetched length]. rewrite skipn_nil, firstn_nil, Nat.sub_0_r. reflexivity. }
  unfold loop_body. cbn [q_ops q_op]. 
  repeat first [rewrite S1 by lia | rewrite G1 by lia]. eexists. reflexivity.
Qed.

(** ** The loop *)
Lemma loop_blocks : forall e buf n k r q, bytes buf -> rep e buf r q -> between (bits_of e buf) k q ->
  length buf = 8 * (k + n) ->
  exists r', while_available e loop_body n r = Ret (Some (r', map (block_reads e (bits_of e buf)) (seq k n))) /\
    consumed r' = Ret (8 * length buf) /\ available r' = Ret 0.
Proof.
  intros e buf. induction n as [|n IH]; intros k r q Hb R B Hl.
  - assert (q = mk_queue [] (64 * k)) as -> by (destruct B as [[_ B]|[B _]]; [rewrite bits_of_length in B; lia|exact B]).
    pose proof (rep_available _ _ _ _ R) as A. pose proof (rep_consumed _ _ _ _ R) as C. unfold qpos in A. cbn [fetched waiting length] in A, C.
    rewrite bits_of_length in A. replace (_ <=? _) with true in A by lia.
    cbn [while_available]. rewrite A. cbn [obind]. replace (0 <? _) with false by lia. cbn [seq map].
    exists r. split; [reflexivity|]. rewrite A, C. split; f_equal; lia.
  - assert (L : 64 * k + 64 <= length (bits_of e buf)) by (rewrite bits_of_length; lia).
    pose proof (rep_available _ _ _ _ R) as A.
    assert (P : exists a, available r = Ret a /\ 0 < a).
    { rewrite A. unfold qpos. destruct B as [[-> B]|[-> B]]; unfold held; cbn [fetched waiting length].
      - rewrite window_length by lia. replace (_ <=? _) with true by lia. eexists. split; [reflexivity|lia].
      - replace (_ <=? _) with true by lia. eexists. split; [reflexivity|lia]. }
    destruct P as [a [Ea Pa]]. cbn [while_available]. rewrite Ea. cbn [obind]. replace (0 <? a) with true by lia.
    pose proof (q_ops_rep e buf loop_body r q Hb R loop_body_ok) as G. rewrite (pass_block e _ k q B L) in G.
    destruct G as [r1 [E1 R1]]. rewrite E1. cbn [obind].
    destruct (IH (S k) r1 _ Hb R1) as [r2 [E2 G2]]; [right; split; [reflexivity|rewrite bits_of_length; lia]|lia|].
    rewrite E2. cbn [obind]. exists r2. split; [reflexivity|exact G2].
Qed.

Lemma loop_endless : forall e buf n k r q, bytes buf -> rep e buf r q -> between (bits_of e buf) k q ->
  length buf mod 8 <> 0 -> while_available e loop_body n r = Ret None.
Proof.
  intros e buf. induction n as [|n IH]; intros k r q Hb R B Hl.
  - assert (P : exists a, available r = Ret a /\ 0 < a).
    { rewrite (rep_available _ _ _ _ R). unfold qpos. destruct B as [[-> B]|[-> B]]; unfold held; cbn [fetched waiting length].
      - rewrite window_length by lia. replace (_ <=? _) with true by lia. eexists. split; [reflexivity|lia].
      - replace (_ <=? _) with true by lia. rewrite bits_of_length in *. eexists. split; [reflexivity|lia]. }
    destruct P as [a [Ea Pa]]. cbn [while_available]. rewrite Ea. cbn [obind]. replace (0 <? a) with true by lia. reflexivity.
  - assert (P : exists a, available r = Ret a /\ 0 < a).
    { rewrite (rep_available _ _ _ _ R). unfold qpos. destruct B as [[-> B]|[-> B]]; unfold held; cbn [fetched waiting length].
      - rewrite window_length by lia. replace (_ <=? _) with true by lia. eexists. split; [reflexivity|lia].
      - replace (_ <=? _) with true by lia. rewrite bits_of_length in *. eexists. split; [reflexivity|lia]. }
    destruct P as [a [Ea Pa]]. cbn [while_available]. rewrite Ea. cbn [obind]. replace (0 <? a) with true by lia.
    pose proof (q_ops_rep e buf loop_body r q Hb R loop_body_ok) as G.
    destruct (le_lt_dec (64 * k + 64) (length (bits_of e buf))) as [L|L].
    + rewrite (pass_block e _ k q B L) in G. destruct G as [r1 [E1 R1]]. rewrite E1. cbn [obind].
      rewrite (IH (S k) r1 _ Hb R1); [reflexivity|right; split; [reflexivity|lia]|exact Hl].
    + assert (q = mk_queue [] (64 * k)) as -> by (destruct B as [[_ B]|[B _]]; [lia|exact B]).
      destruct (pass_stuck e _ _ L) as [outs Eo]. rewrite Eo in G. destruct G as [r1 [E1 R1]]. rewrite E1. cbn [obind].
      rewrite (IH k r1 _ Hb R1); [reflexivity|exact B|exact Hl].
Qed.

Lemma start_between : forall l, between l 0 (fetch64 l (mk_queue [] 0)).
Proof.
  intros l. unfold fetch64, between, held. cbn [fetched]. change (64 * 0) with 0. cbn [Nat.add].
  destruct (Nat.leb_spec 64 (length l)); [left|right]; split; reflexivity || lia.
Qed.

Lemma drain_blocks : forall e buf, bytes buf -> length buf mod 8 = 0 ->
  exists r, bitread e (length buf / 8) buf
    = Ret (Some (r, map (block_reads e (bits_of e buf)) (seq 0 (length buf / 8)))) /\
    consumed r = Ret (8 * length buf) /\ available r = Ret 0.
Proof.
  intros e buf Hb Hl. unfold bitread, new.
  destruct (rep_refill64 e buf _ _ Hb (rep_start e buf)) as [r [E R]]. rewrite E. cbn [obind].
  apply (loop_blocks e buf _ 0 r _ Hb R (start_between _)). lia.
Qed.

Lemma drain_endless : forall e buf fuel, bytes buf -> length buf mod 8 <> 0 -> bitread e fuel buf = Ret None.
Proof.
  intros e buf fuel Hb Hl. unfold bitread, new.
  destruct (rep_refill64 e buf _ _ Hb (rep_start e buf)) as [r [E R]]. rewrite E. cbn [obind].
  exact (loop_endless e buf fuel 0 r _ Hb R (start_between _) Hl).
Qed.

(** ** What no reader drains *)
Definition quad (q : queue) (l : list bool) : Prop := fetched q mod 32 = 0 /\ fetched q <= length l /\ length (waiting q) <= fetched q.

Lemma quad_fetch64 : forall l q, quad q l -> quad (fetch64 l q) l.
Proof.
  intros l q [H1 [H2 H3]]. unfold fetch64. destruct (Nat.leb_spec (fetched q + 64) (length l)); [|split; [|split]; assumption].
  unfold quad. cbn [fetched waiting]. rewrite window_length by lia. lia.
Qed.
Lemma quad_fetch32 : forall l q, quad q l -> quad (fetch32 l q) l.
Proof.
  intros l q [H1 [H2 H3]]. unfold fetch32. destruct (Nat.leb_spec (fetched q + 64) (length l)); [|split; [|split]; assumption].
  unfold quad. cbn [fetched waiting]. rewrite app_length, window_length by lia. lia.
Qed.
Lemma quad_less : forall l q w, quad q l -> length w <= length (waiting q) -> quad (mk_queue w (fetched q)) l.
Proof. intros l q w [H1 [H2 H3]] H. unfold quad. cbn [fetched waiting]. lia. Qed.
Lemma quad_drop : forall l q n, quad q l -> quad (drop q n) l.
Proof. intros l q n H. apply quad_less; [exact H|]. rewrite skipn_length. lia. Qed.

Lemma quad_op : forall e l q op q' o, near_op op -> quad q l -> q_op e l q op = Some (q', o) -> quad q' l.
Proof.
  intros e l q op q' o Hn H E. destruct op as [|n|n| |n|n|n| | |]; cbn [q_op near_op op_ok] in *.
  - unfold q_bit in E. injection E as <- _. apply quad_drop. destruct (waiting q); [apply quad_fetch64|]; exact H.
  - unfold q_get32 in E. destruct (n =? 0); injection E as <- _; [exact H|].
    apply quad_drop. destruct (_ <=? _); [apply quad_fetch32|]; exact H.
  - unfold q_get64 in E. destruct (_ <=? _); injection E as <- _; apply quad_drop; [exact H|].
    apply quad_fetch64, quad_less; [exact H|cbn [length]; lia].
  - injection E as <- _. exact H.
  - injection E as <- _. exact H.
  - injection E as <- _. exact H.
  - injection E as <- _. unfold q_skip. destruct (_ <=? _); [apply quad_drop; exact H|].
    replace (64 <? _) with false by lia. rewrite Nat.add_0_r. apply quad_drop, quad_fetch64, quad_less; [exact H|].
    rewrite skipn_length. lia.
  - injection E as <- _. apply quad_drop. exact H.
  - injection E as <- _. exact H.
  - destruct (_ <=? _); [|discriminate E]. injection E as <- _. exact H.
Qed.

Lemma quad_available : forall e l q, quad q l -> exists q' o, q_op e l q OpAvailable = Some (q', o).
Proof. intros e l q [_ [H _]]. cbn [q_op]. replace (_ <=? _) with true by lia. eexists _, _. reflexivity. Qed.

Lemma quad_ops : forall e l ops q, Forall near_op ops -> quad q l ->
  exists q' outs, q_ops e l q ops = Some (q', outs) /\ quad q' l.
Proof.
  intros e l ops. induction ops as [|op ops IH]; intros q Hn H; cbn [q_ops]; [eexists _, _; split; [reflexivity|exact H]|].
  inversion Hn as [|? ? H1 H2]; subst. destruct (q_op e l q op) as [[q1 o]|] eqn:E.
  - destruct (IH q1 H2 (quad_op e l q op q1 o H1 H E)) as [q2 [os [E2 Q2]]]. rewrite E2. eexists _, _. split; [reflexivity|exact Q2].
  - destruct op; cbn [q_op] in E; try discriminate E;
      try (destruct (q_bit l q); discriminate E); try (destruct (q_get32 l q n); discriminate E);
      try (destruct (q_get64 l q n); discriminate E).
    destruct (quad_available e l q H) as [? [? G]]. cbn [q_op] in G. rewrite E in G. discriminate G.
Qed.

Lemma near_ok : forall op, near_op op -> op_ok op.
Proof. intros [] H; try exact H; exact I. Qed.

Lemma tail_left : forall e buf ops, bytes buf -> Forall near_op ops ->
  exists r outs a, run_from_new e buf ops = Ret (r, outs) /\ available r = Ret a /\ 8 * (length buf mod 4) <= a.
Proof.
  intros e buf ops Hb Hn. pose proof (bit_queue_rep e buf ops Hb (Forall_impl _ near_ok Hn)) as G. unfold q_run in G.
  destruct (quad_ops e (bits_of e buf) ops (fetch64 (bits_of e buf) (mk_queue [] 0)) Hn) as [q [outs [E Q]]].
  { apply quad_fetch64. unfold quad. cbn [fetched waiting length]. split; [reflexivity|lia]. }
  rewrite E in G. destruct G as [r [Er R]]. exists r, outs. rewrite (rep_available _ _ _ _ R). destruct Q as [Q1 [Q2 Q3]].
  replace (_ <=? _) with true by lia. eexists. split; [exact Er|]. split; [reflexivity|]. unfold qpos.
  rewrite bits_of_length in *. lia.
Qed.

Lemma while_never : forall e buf body fuel, bytes buf -> Forall near_op body -> length buf mod 4 <> 0 ->
  (let! r := new e buf in while_available e body fuel r) = Ret None.
Proof.
  intros e buf body fuel Hb Hn Hl. unfold new.
  destruct (rep_refill64 e buf _ _ Hb (rep_start e buf)) as [r [E R]]. rewrite E. cbn [obind].
  assert (Q : quad (fetch64 (bits_of e buf) (mk_queue [] 0)) (bits_of e buf)).
  { apply quad_fetch64. unfold quad. cbn [fetched waiting length]. split; [reflexivity|lia]. }
  revert R Q. generalize (fetch64 (bits_of e buf) (mk_queue [] 0)). clear E. revert r.
  induction fuel as [|fuel IH]; intros r q R Q.
  - cbn [while_available]. rewrite (rep_available _ _ _ _ R). destruct Q as [Q1 [Q2 Q3]].
    replace (_ <=? _) with true by lia. cbn [obind]. unfold qpos. rewrite bits_of_length in *.
    replace (0 <? _) with true by lia. reflexivity.
  - cbn [while_available]. rewrite (rep_available _ _ _ _ R). pose proof Q as [Q1 [Q2 Q3]].
    replace (_ <=? _) with true by lia. cbn [obind]. unfold qpos. rewrite bits_of_length in *.
    replace (0 <? _) with true by lia.
    pose proof (q_ops_rep e buf body r q Hb R (Forall_impl _ near_ok Hn)) as G.
    destruct (quad_ops e (bits_of e buf) body q Hn Q) as [q1 [outs [E1 Q']]]. rewrite E1 in G.
    destruct G as [r1 [Er R1]]. rewrite Er. cbn [obind]. rewrite (IH r1 q1 R1 Q'). reflexivity.
Qed.
