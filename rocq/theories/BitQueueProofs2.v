(** Consequences of the refinement of [BitQueueProofs]. *)
From Coq Require Import List Arith NArith ZArith Bool Lia.
From Coq Require Import ZifyBool ZifyNat ZifyN.
From Verif Require Import Base ByteModel ByteSpec ByteProofs BitModel BitSpec BitProofs BitProofs2 BitQueueSpec BitQueueProofs.
Import ListNotations.
Local Open Scope nat_scope.
Ltac Zify.zify_post_hook ::= Z.div_mod_to_equations.

(** The queue holds the bits of [l] that end at [fetched]. *)
Record clean (l : list bool) (q : queue) : Prop := {
  cl_fetched : fetched q <= length l;
  cl_pos : length (waiting q) <= fetched q;
  cl_waiting : waiting q = window l (fetched q - length (waiting q)) (length (waiting q))
}.

Definition qpos (q : queue) : nat := fetched q - length (waiting q).

Lemma clean_drop : forall l q n, clean l q ->
  clean l (drop q n) /\ qpos (drop q n) = qpos q + Nat.min n (length (waiting q)).
Proof.
  intros l q n [Hf Hp Hw]. split.
  - constructor; cbn [drop waiting fetched]; rewrite ?skipn_length; try lia.
    destruct (Nat.le_ge_cases n (length (waiting q))).
    + rewrite Hw at 1. rewrite window_skipn by lia. f_equal. lia.
    + rewrite skipn_all2 by lia. replace (length (waiting q) - n) with 0 by lia. reflexivity.
  - unfold qpos, drop. cbn [waiting fetched]. rewrite skipn_length. lia.
Qed.

Lemma clean_front : forall l q n, clean l q ->
  front q n = window l (qpos q) (Nat.min n (length (waiting q))) ++ repeat false (n - length (waiting q)).
Proof.
  intros l q n [Hf Hp Hw]. unfold front, qpos. f_equal. rewrite Hw at 1.
  destruct (Nat.le_ge_cases n (length (waiting q))).
  - rewrite window_firstn, Nat.min_l by lia. reflexivity.
  - rewrite firstn_all2, Nat.min_r by (rewrite <- ?Hw; lia). reflexivity.
Qed.

Lemma clean_start : forall l, clean l (mk_queue [] 0).
Proof. intros l. constructor; cbn [waiting fetched length]; try lia. reflexivity. Qed.

Lemma clean_fetch64 : forall l w f, clean l (fetch64 l (mk_queue w f)) \/ f + 64 > length l.
Proof.
  intros l w f. unfold fetch64. cbn [waiting fetched].
  destruct (Nat.leb_spec (f + 64) (length l)); [left|right; lia].
  assert (Hl : length (window l f 64) = 64) by (apply window_length; lia).
  constructor; cbn [waiting fetched]; rewrite ?Hl; try lia.
  f_equal. lia.
Qed.

Lemma clean_fetch32 : forall l q, clean l q -> clean l (fetch32 l q) /\ qpos (fetch32 l q) = qpos q.
Proof.
  intros l q H. unfold fetch32. destruct (Nat.leb_spec (fetched q + 64) (length l)); [|split; [exact H|reflexivity]].
  destruct H as [Hf Hp Hw].
  assert (Hl : length (window l (fetched q) 32) = 32) by (apply window_length; lia).
  split.
  - constructor; cbn [waiting fetched]; rewrite ?app_length, ?Hl; try lia.
    replace (fetched q + 32 - (length (waiting q) + 32)) with (fetched q - length (waiting q)) by lia.
    rewrite window_split, <- Hw. do 2 f_equal. lia.
  - unfold qpos. cbn [waiting fetched]. rewrite app_length, Hl. lia.
Qed.

Lemma clean_empty : forall l f, f <= length l -> clean l (mk_queue [] f).
Proof. intros l f H. constructor; cbn [waiting fetched length]; try lia. reflexivity. Qed.

Lemma get64_clean : forall l q n, clean l q ->
  snd (q_get64 l q n) = read_from l (qpos q) (length (waiting q)) n \/ n > 64.
Proof.
  intros l q n H. destruct (Nat.le_gt_cases n 64) as [Hn|]; [left|right; assumption].
  pose proof (cl_pos _ _ H) as Hp. pose proof (cl_fetched _ _ H) as Hf.
  unfold q_get64, read_from, readable.
  destruct (Nat.leb_spec n (length (waiting q))) as [Hle|Hgt]; cbn [orb snd].
  - rewrite (clean_front l) by exact H. rewrite Nat.min_l by lia.
    replace (n - length (waiting q)) with 0 by lia. apply app_nil_r.
  - replace (qpos q + length (waiting q)) with (fetched q) by (unfold qpos; lia).
    unfold fetch64. cbn [waiting fetched].
    destruct (Nat.leb_spec (fetched q + 64) (length l)); cbn [orb].
    + assert (Hl : length (window l (fetched q) 64) = 64) by (apply window_length; lia).
      rewrite front_exact by (cbn [waiting]; lia). cbn [waiting]. rewrite window_firstn by lia.
      replace n with (length (waiting q) + (n - length (waiting q))) at 2 by lia.
      rewrite window_split. f_equal; [apply H|]. f_equal. unfold qpos. lia.
    + unfold front. cbn [waiting length]. rewrite firstn_nil, Nat.sub_0_r. cbn [app].
      f_equal. apply H.
Qed.

Lemma get32_clean : forall l q n, clean l q -> n <= 32 ->
  snd (q_get32 l q n) = read_from l (qpos q) (length (waiting q)) n.
Proof.
  intros l q n H Hn. pose proof (cl_pos _ _ H) as Hp. pose proof (cl_fetched _ _ H) as Hf.
  unfold q_get32, read_from, readable.
  destruct (Nat.eqb_spec n 0) as [->|Hn0]; [reflexivity|]. cbn [snd].
  destruct (clean_fetch32 l q H) as [C P].
  destruct (Nat.leb_spec (length (waiting q)) n) as [Hle|Hgt].
  - rewrite (clean_front l) by exact C. rewrite P.
    replace (qpos q + length (waiting q)) with (fetched q) by (unfold qpos; lia).
    unfold fetch32. destruct (Nat.leb_spec (fetched q + 64) (length l)); cbn [waiting].
    + assert (Hl : length (window l (fetched q) 32) = 32) by (apply window_length; lia).
      rewrite app_length, Hl, orb_true_r, Nat.min_l by lia.
      replace (n - (length (waiting q) + 32)) with 0 by lia. apply app_nil_r.
    + rewrite Nat.min_r by lia. destruct (Nat.leb_spec n (length (waiting q))); cbn [orb].
      * replace (length (waiting q)) with n by lia. rewrite Nat.sub_diag. apply app_nil_r.
      * reflexivity.
  - rewrite (clean_front l) by exact H. rewrite Nat.min_l by lia.
    destruct (Nat.leb_spec n (length (waiting q))); [|lia]. cbn [orb].
    replace (n - length (waiting q)) with 0 by lia. apply app_nil_r.
Qed.

Lemma nth_window_hd : forall l p, hd false (window l p 1) = nth p l false.
Proof.
  intros l p. unfold window. revert p. induction l as [|a l IH]; intros p.
  - destruct p; reflexivity.
  - destruct p; [reflexivity|]. cbn [skipn nth]. apply IH.
Qed.

Lemma bit_clean : forall l q, clean l q ->
  [snd (q_bit l q)] = read_from l (qpos q) (length (waiting q)) 1.
Proof.
  intros l q H. pose proof (get64_clean l q 1 H) as [G|G]; [|lia]. rewrite <- G.
  unfold q_bit, q_get64. cbn [snd]. destruct (waiting q) as [|b w] eqn:E; cbn [length Nat.leb fst snd app Nat.sub].
  - unfold fetch64. cbn [waiting fetched]. destruct (Nat.leb_spec (fetched q + 64) (length l)).
    + cbn [waiting]. unfold front. cbn [waiting].
      assert (Hl : length (window l (fetched q) 64) = 64) by (apply window_length; lia).
      destruct (window l (fetched q) 64) as [|b w]; [discriminate Hl|].
      cbn [length Nat.sub repeat firstn hd app]. reflexivity.
    + rewrite E. reflexivity.
  - unfold front. rewrite E. reflexivity.
Qed.

(** ** Skips *)
Lemma skip_parts : forall k, (if 64 <? k then (8 * (k / 8), k mod 8) else (0, k)) = (skip_far k, skip_rest k).
Proof. intros k. unfold skip_far, skip_rest. destruct (64 <? k); reflexivity. Qed.

Lemma skip_far_rest : forall k, skip_far k + skip_rest k = k /\ skip_rest k <= 64 /\ (skip_rest k = 0 -> k <= 64 -> k = 0).
Proof. intros k. unfold skip_far, skip_rest. destruct (Nat.ltb_spec 64 k); lia. Qed.

Definition skip_moves (n : nat) (left : nat) : nat := if n <=? left then 0 else skip_far (n - left).

Lemma skip_target_spec : forall l q n, length (waiting q) <= 64 -> length (waiting q) <= fetched q ->
  qpos (q_skip l q n) = skip_target (length l) (qpos q) (length (waiting q)) n.
Proof.
  intros l q n H64 Hp. unfold q_skip, skip_target. rewrite skip_parts.
  destruct (Nat.leb_spec n (length (waiting q))).
  - unfold qpos, drop. cbn [waiting fetched]. rewrite skipn_length. lia.
  - set (k := n - length (waiting q)). pose proof (skip_far_rest k) as [G [G2 G3]].
    replace (qpos q + length (waiting q)) with (fetched q) by (unfold qpos; lia).
    unfold fetch64. cbn [waiting fetched].
    destruct (Nat.leb_spec (fetched q + skip_far k + 64) (length l)).
    + unfold qpos, drop. cbn [waiting fetched]. rewrite skipn_length, window_length by lia. lia.
    + unfold qpos, drop. cbn [waiting fetched]. rewrite !skipn_length. lia.
Qed.

Lemma q_skip_fetched : forall l q n, length (waiting q) <= fetched q ->
  (fetched (q_skip l q n) <=? length l) =
  (qpos q + length (waiting q) + skip_moves n (length (waiting q)) <=? length l).
Proof.
  intros l q n Hp. unfold q_skip, skip_moves. rewrite skip_parts.
  replace (qpos q + length (waiting q)) with (fetched q) by (unfold qpos; lia).
  destruct (Nat.leb_spec n (length (waiting q))).
  - cbn [drop fetched]. rewrite Nat.add_0_r. reflexivity.
  - unfold fetch64. cbn [waiting fetched].
    set (k := n - length (waiting q)).
    destruct (Nat.leb_spec (fetched q + skip_far k + 64) (length l)); cbn [drop fetched]; [|reflexivity].
    destruct (Nat.leb_spec (fetched q + skip_far k + 64) (length l)),
      (Nat.leb_spec (fetched q + skip_far k) (length l)); reflexivity || lia.
Qed.

Lemma skip_clean : forall l q n, clean l q -> length (waiting q) <= 64 ->
  qpos (q_skip l q n) = qpos q + n -> qpos q + n <= length l -> clean l (q_skip l q n).
Proof.
  intros l q n H H64 E Hin. pose proof (cl_pos _ _ H) as Hp.
  revert E. rewrite skip_target_spec by assumption. unfold skip_target, q_skip. rewrite skip_parts.
  destruct (Nat.leb_spec n (length (waiting q))); [intros _; apply clean_drop; exact H|].
  set (k := n - length (waiting q)) in *. pose proof (skip_far_rest k) as [G [G2 G3]].
  replace (qpos q + length (waiting q)) with (fetched q) by (unfold qpos; lia).
  destruct (Nat.leb_spec (fetched q + skip_far k + 64) (length l)) as [Hc|Hc].
  - intros _. apply clean_drop. destruct (clean_fetch64 l (skipn (skip_rest k) (waiting q)) (fetched q + skip_far k)); [assumption|lia].
  - intros E.
    assert (skip_rest k = 0 /\ length (waiting q) = 0) as [R0 L0] by lia.
    destruct (waiting q) eqn:Ew; [|cbn [length] in L0; lia].
    rewrite R0. unfold fetch64. cbn [waiting fetched].
    destruct (Nat.leb_spec (fetched q + skip_far k + 64) (length l)); [lia|].
    cbn [skipn]. rewrite drop_0. apply clean_empty. unfold qpos in Hin. rewrite Ew in Hin. cbn [length] in Hin. lia.
Qed.

(** ** C14 exact *)
Lemma run_rep : forall e buf ops r outs, bytes buf -> Forall op_ok ops ->
  run_from_new e buf ops = Ret (r, outs) -> exists q, rep e buf r q.
Proof.
  intros e buf ops r outs Hb Hok E. pose proof (bit_queue_rep e buf ops Hb Hok) as G.
  destruct (q_run e buf ops) as [[q os]|]; [|rewrite E in G; discriminate G].
  destruct G as [r' [E' R]]. rewrite E in E'. injection E' as -> _. exists q. exact R.
Qed.

Lemma rep_available : forall e buf r q, rep e buf r q ->
  available r = if fetched q <=? length (bits_of e buf)
                then Ret (length (bits_of e buf) - qpos q) else Panic.
Proof.
  intros e buf r q H. unfold available, csub. rewrite bits_of_length, (rep_left _ _ _ _ H), (rep_buffer _ _ _ _ H).
  pose proof (rep_index _ _ _ _ H). pose proof (rep_pos _ _ _ _ H).
  destruct (Nat.leb_spec (fetched q) (8 * length buf)), (Nat.leb_spec (index r) (length buf)); try lia; cbn [obind].
  - f_equal. unfold qpos. lia.
  - reflexivity.
Qed.

Lemma skip_exact : forall e buf ops n r outs c, bytes buf -> Forall op_ok ops ->
  run_from_new e buf ops = Ret (r, outs) -> consumed r = Ret c ->
  exists r', skip_bits e r n = Ret r' /\
    consumed r' = Ret (skip_target (8 * length buf) c (left r) n) /\
    available r' =
      if c + left r + (if n <=? left r then 0 else skip_far (n - left r)) <=? 8 * length buf
      then Ret (8 * length buf - skip_target (8 * length buf) c (left r) n) else Panic.
Proof.
  intros e buf ops n r outs c Hb Hok E Hc.
  destruct (run_rep _ _ _ _ _ Hb Hok E) as [q R].
  destruct (q_skip_rep e buf r q n Hb R) as [r' [E' R']].
  pose proof (rep_consumed _ _ _ _ R) as Ec. rewrite Hc in Ec. injection Ec as Ec.
  exists r'. split; [exact E'|].
  rewrite (rep_left _ _ _ _ R). change (fetched q - length (waiting q)) with (qpos q) in Ec. subst c.
  rewrite <- (bits_of_length e buf).
  rewrite <- (skip_target_spec (bits_of e buf) q n) by apply R.
  split; [apply (rep_consumed _ _ _ _ R')|].
  rewrite (rep_available _ _ _ _ R'). rewrite q_skip_fetched by apply R. reflexivity.
Qed.

(** ** C13 exact *)
Lemma fetch64_empty_clean : forall l f, f <= length l ->
  clean l (fetch64 l (mk_queue [] f)) /\ qpos (fetch64 l (mk_queue [] f)) = f.
Proof.
  intros l f H. unfold fetch64. cbn [waiting fetched].
  destruct (Nat.leb_spec (f + 64) (length l)) as [Hc|Hc].
  - destruct (clean_fetch64 l [] f) as [C|C]; [|lia].
    unfold fetch64 in C. cbn [waiting fetched] in C. rewrite (proj2 (Nat.leb_le _ _) Hc) in C.
    split; [exact C|]. unfold qpos. cbn [waiting fetched]. rewrite window_length by lia. lia.
  - split; [apply clean_empty; exact H|]. unfold qpos. cbn [waiting fetched length]. lia.
Qed.

Lemma q_op_clean : forall e buf r q op q' o, bytes buf -> rep e buf r q -> clean (bits_of e buf) q -> op_ok op ->
  (forall n c r1 c1, op = OpSkip n -> consumed r = Ret c -> skip_bits e r n = Ret r1 ->
     consumed r1 = Ret c1 -> c1 = c + n /\ c + n <= 8 * length (buffer r)) ->
  q_op e (bits_of e buf) q op = Some (q', o) -> clean (bits_of e buf) q'.
Proof.
  intros e buf r q op q' o Hb R H Hok Hs E. set (l := bits_of e buf) in *.
  destruct op as [|n|n| |n|n|n| | |]; cbn [op_ok] in Hok; cbn [q_op] in E.
  - unfold q_bit in E. injection E as <- _. destruct (waiting q) eqn:Ew.
    + apply clean_drop. destruct q as [w f]. cbn [waiting] in Ew. subst w.
      apply fetch64_empty_clean. apply H.
    + apply clean_drop. exact H.
  - unfold q_get32 in E. destruct (n =? 0); injection E as <- _; [exact H|].
    apply clean_drop. destruct (length (waiting q) <=? n); [apply clean_fetch32|]; exact H.
  - unfold q_get64 in E. destruct (n <=? length (waiting q)); injection E as <- _; apply clean_drop; [exact H|].
    apply fetch64_empty_clean. apply H.
  - injection E as <- _. exact H.
  - injection E as <- _. exact H.
  - injection E as <- _. exact H.
  - injection E as <- _. pose proof (rep_consumed _ _ _ _ R) as Ec.
    destruct (q_skip_rep e buf r q n Hb R) as [r1 [E1 R1]].
    destruct (Hs n _ r1 _ eq_refl Ec E1 (rep_consumed _ _ _ _ R1)) as [A B].
    rewrite (rep_buffer _ _ _ _ R) in B.
    apply skip_clean; [exact H|apply R|exact A|]. unfold l. rewrite bits_of_length. exact B.
  - injection E as <- _. apply clean_drop. exact H.
  - injection E as <- _. exact H.
  - destruct (fetched q <=? length l); [|discriminate E]. injection E as <- _. exact H.
Qed.

Lemma q_ops_clean : forall e buf ops r q r' outs, bytes buf -> rep e buf r q -> clean (bits_of e buf) q ->
  skips_arrive e r ops -> run_ops e r ops = Ret (r', outs) ->
  exists q', rep e buf r' q' /\ clean (bits_of e buf) q'.
Proof.
  intros e buf ops. induction ops as [|op ops IH]; intros r q r' outs Hb R H Hs E.
  - injection E as <- _. exists q. split; assumption.
  - destruct Hs as [H1 [H2 H3]]. pose proof (q_op_rep e buf r q op Hb R H1) as G.
    cbn [run_ops] in E.
    destruct (q_op e (bits_of e buf) q op) as [[q1 o]|] eqn:Eq.
    + destruct G as [r1 [E1 R1]]. rewrite E1 in E. cbn [obind] in E.
      pose proof (q_op_clean _ _ _ _ _ _ _ Hb R H H1 H2 Eq) as C1.
      destruct (run_ops e r1 ops) as [[r2 os]| |] eqn:E2; cbn [obind] in E; try discriminate E.
      injection E as <- _. eapply IH; [exact Hb|exact R1|exact C1|apply (H3 _ _ E1)|exact E2].
    + rewrite G in E. discriminate E.
Qed.

Lemma readable_exact : forall e buf ops r0 r outs c n, bytes buf -> new e buf = Ret r0 ->
  skips_arrive e r0 ops -> run_ops e r0 ops = Ret (r, outs) -> consumed r = Ret c ->
  (n <= 64 -> exists r', get_bits_64 e r n = Ret (r', value e (read_from (bits_of e buf) c (left r) n))) /\
  (n <= 32 -> exists r', get_bits_32 e r n = Ret (r', value e (read_from (bits_of e buf) c (left r) n))) /\
  (exists r' b, get_bit e r = Ret (r', b) /\ [b] = read_from (bits_of e buf) c (left r) 1).
Proof.
  intros e buf ops r0 r outs c n Hb E0 Hs E Hc. unfold new in E0.
  destruct (rep_refill64 e buf _ _ Hb (rep_start e buf)) as [r00 [E00 R0]]. rewrite E0 in E00. injection E00 as <-.
  destruct (q_ops_clean e buf ops r0 _ r outs Hb R0 (proj1 (fetch64_empty_clean _ 0 (Nat.le_0_l _))) Hs E) as [q [R C]].
  pose proof (rep_consumed _ _ _ _ R) as Ec. rewrite Hc in Ec. injection Ec as Ec.
  change (fetched q - length (waiting q)) with (qpos q) in Ec. rewrite (rep_left _ _ _ _ R).
  split; [|split].
  - intros Hn. destruct (q_get64_rep e buf r q n Hb R Hn) as [r' [E' _]].
    exists r'. rewrite E'. destruct (get64_clean _ q n C) as [G|G]; [|lia]. rewrite G, Ec. reflexivity.
  - intros Hn. destruct (q_get32_rep e buf r q n Hb R Hn) as [r' [E' _]].
    exists r'. rewrite E', (get32_clean _ q n C Hn), Ec. reflexivity.
  - destruct (q_bit_rep e buf r q Hb R) as [r' [E' _]]. eexists _, _. split; [exact E'|].
    rewrite (bit_clean _ q C), Ec. reflexivity.
Qed.

(** ** C79: blocks of 8 bytes *)
Record blocks (l : list bool) (q : queue) : Prop := {
  bl_clean : clean (firstn (64 * (length l / 64)) l) q;
  bl_mod : fetched q mod 64 = 0;
  bl_64 : length (waiting q) <= 64
}.

Lemma firstn_blocks_length : forall l : list bool, length (firstn (64 * (length l / 64)) l) = 64 * (length l / 64).
Proof. intros l. rewrite firstn_length. lia. Qed.

Lemma skipn_firstn_sub : forall (A : Type) (l : list A) a b, skipn a (firstn b l) = firstn (b - a) (skipn a l).
Proof.
  intros A l. induction l as [|x l IH]; intros a b.
  - rewrite firstn_nil, !skipn_nil, firstn_nil. reflexivity.
  - destruct a; [rewrite Nat.sub_0_r; reflexivity|]. destruct b; [reflexivity|]. cbn [firstn skipn Nat.sub]. apply IH.
Qed.

Lemma window_firstn_outer : forall l m p n, p + n <= m -> window (firstn m l) p n = window l p n.
Proof.
  intros l m p n H. unfold window. rewrite skipn_firstn_sub, firstn_firstn. f_equal. lia.
Qed.

Lemma fetch64_blocks : forall l q, fetched q mod 64 = 0 ->
  fetch64 l q = fetch64 (firstn (64 * (length l / 64)) l) q.
Proof.
  intros l q Hm. unfold fetch64. rewrite firstn_blocks_length.
  destruct (Nat.leb_spec (fetched q + 64) (length l)), (Nat.leb_spec (fetched q + 64) (64 * (length l / 64)));
    try reflexivity; [|exfalso; lia|exfalso; lia].
  rewrite window_firstn_outer by lia. reflexivity.
Qed.

Lemma blocks_step : forall e l q op, read64 op -> blocks l q ->
  exists q', q_op e l q op = Some (q', snd (clamp_op e (firstn (64 * (length l / 64)) l) (qpos q) op)) /\
    blocks l q' /\ qpos q' = fst (clamp_op e (firstn (64 * (length l / 64)) l) (qpos q) op).
Proof.
  intros e l q op Hop [C M L64].
  assert (Mb : (64 * (length l / 64)) mod 64 = 0) by (rewrite Nat.mul_comm; apply Nat.mod_mul; lia).
  pose proof (firstn_blocks_length l) as HL.
  pose proof (fetch64_blocks l) as HF.
  set (m := firstn (64 * (length l / 64)) l) in *.
  rewrite <- HL in Mb. clear HL.
  pose proof (cl_fetched _ _ C) as Hf. pose proof (cl_pos _ _ C) as Hp.
  (* reading n bits *)
  assert (RD : forall n, n <= 64 -> read_from m (qpos q) (length (waiting q)) n
               = window m (qpos q) n ++ repeat false (n - (length m - qpos q))).
  { intros n Hn. unfold read_from, readable.
    replace (qpos q + length (waiting q)) with (fetched q) by (unfold qpos; lia).
    destruct (Nat.leb_spec n (length (waiting q))); cbn [orb].
    - replace (n - (length m - qpos q)) with 0 by (unfold qpos; lia). symmetry. apply app_nil_r.
    - destruct (Nat.leb_spec (fetched q + 64) (length m)).
      + replace (n - (length m - qpos q)) with 0 by (unfold qpos; lia). symmetry. apply app_nil_r.
      + assert (Ef : fetched q = length m) by lia.
        replace (length m - qpos q) with (length (waiting q)) by (unfold qpos; lia). f_equal.
        unfold window. rewrite !firstn_all2; [reflexivity| |]; rewrite skipn_length; unfold qpos; lia. }
  assert (G64 : forall n, n <= 64 ->
            blocks l (fst (q_get64 l q n)) /\ qpos (fst (q_get64 l q n)) = Nat.min (qpos q + n) (length m) /\
            snd (q_get64 l q n) = window m (qpos q) n ++ repeat false (n - (length m - qpos q))).
  { intros n Hn.
    assert (Eq : q_get64 l q n = q_get64 m q n).
    { unfold q_get64. destruct (n <=? length (waiting q)); [reflexivity|]. rewrite HF by exact M. reflexivity. }
    rewrite Eq. destruct (get64_clean m q n C) as [G|G]; [|lia]. rewrite G, (RD n Hn).
    clear Eq G. unfold q_get64. destruct (Nat.leb_spec n (length (waiting q))); cbn [fst].
    - destruct (clean_drop m q n C) as [Cd Pd]. split; [|split; [|reflexivity]].
      + constructor; [exact Cd|exact M|]. cbn [drop waiting]. rewrite skipn_length. lia.
      + rewrite Pd. unfold qpos. lia.
    - destruct (fetch64_empty_clean m (fetched q) Hf) as [Cf Pf].
      destruct (clean_drop m _ (n - length (waiting q)) Cf) as [Cd Pd].
      split; [constructor; [exact Cd| |]|split; [|reflexivity]].
      + cbn [drop fetched]. unfold fetch64. cbn [waiting fetched].
        destruct (Nat.leb_spec (fetched q + 64) (length m)); cbn [fetched]; lia.
      + cbn [drop waiting]. rewrite skipn_length. unfold fetch64. cbn [waiting fetched].
        destruct (Nat.leb_spec (fetched q + 64) (length m)); cbn [waiting]; rewrite ?window_length by lia; cbn [length]; lia.
      + rewrite Pd, Pf. unfold fetch64. cbn [waiting fetched].
        destruct (Nat.leb_spec (fetched q + 64) (length m)); cbn [waiting]; rewrite ?window_length by lia; cbn [length];
          unfold qpos; lia. }
  assert (G1 : q_bit l q = (fst (q_get64 l q 1), hd false (snd (q_get64 l q 1)))).
  { unfold q_bit, q_get64. destruct q as [w f]. cbn [waiting fetched]. destruct w as [|b w]; cbn [length Nat.leb fst snd app Nat.sub].
    - f_equal. unfold front. destruct (waiting (fetch64 l (mk_queue [] f))); reflexivity.
    - reflexivity. }
  assert (GB : snd (q_bit l q) = nth (qpos q) m false).
  { rewrite G1. cbn [snd]. destruct (G64 1 ltac:(lia)) as [_ [_ ->]].
    rewrite <- nth_window_hd. destruct (Nat.le_gt_cases (length m) (qpos q)).
    - unfold window. rewrite skipn_all2 by lia. destruct (1 - (length m - qpos q)); reflexivity.
    - assert (Hl : length (window m (qpos q) 1) = 1) by (apply window_length; lia).
      destruct (window m (qpos q) 1); [discriminate Hl|reflexivity]. }
  destruct op as [|n|n| |n|n|n| | |]; cbn [read64] in Hop; try contradiction; cbn [q_op clamp_op fst snd].
  - rewrite G1 in *. cbn [snd] in GB. rewrite GB. destruct (G64 1 ltac:(lia)) as [B [P _]].
    eexists. split; [reflexivity|]. split; assumption.
  - destruct (G64 n Hop) as [B [P V]]. destruct (q_get64 l q n) as [q' w]. cbn [fst snd] in *. subst w.
    eexists. split; [reflexivity|]. split; assumption.
  - rewrite GB. eexists. split; [reflexivity|]. split; [constructor; assumption|reflexivity].
  - destruct (G64 n Hop) as [B [P V]]. rewrite V.
    eexists. split; [reflexivity|]. split; [constructor; assumption|reflexivity].
  - destruct (clean_drop m q (length (waiting q) mod 8) C) as [Cd Pd].
    eexists. split; [reflexivity|]. split.
    + constructor; [exact Cd|exact M|]. cbn [drop waiting]. rewrite skipn_length. lia.
    + rewrite Pd. unfold align8, qpos. lia.
  - eexists. split; [reflexivity|]. split; [constructor; assumption|reflexivity].
Qed.

Lemma blocks_ops : forall e l ops q, Forall read64 ops -> blocks l q ->
  exists q', q_ops e l q ops = Some (q', snd (clamp_ops e (firstn (64 * (length l / 64)) l) (qpos q) ops)) /\
    qpos q' = fst (clamp_ops e (firstn (64 * (length l / 64)) l) (qpos q) ops).
Proof.
  intros e l ops. induction ops as [|op ops IH]; intros q Hok B; cbn [q_ops clamp_ops].
  - exists q. split; reflexivity.
  - inversion Hok as [|? ? H1 H2]; subst.
    destruct (blocks_step e l q op H1 B) as [q1 [E1 [B1 P1]]]. rewrite E1.
    destruct (clamp_op e _ (qpos q) op) as [p1 o]. cbn [fst snd] in *. rewrite <- P1.
    destruct (IH q1 H2 B1) as [q2 [E2 P2]]. rewrite E2.
    destruct (clamp_ops e _ (qpos q1) ops) as [p2 os]. cbn [fst snd] in *.
    exists q2. split; [reflexivity|exact P2].
Qed.

Lemma read64_ok : forall op, read64 op -> op_ok op.
Proof. intros []; cbn [read64 op_ok]; tauto. Qed.

Lemma blocks_exact : forall e buf ops, bytes buf -> Forall read64 ops ->
  exists r, run_from_new e buf ops
    = Ret (r, snd (clamp_ops e (bits_of e (firstn (8 * (length buf / 8)) buf)) 0 ops)) /\
    consumed r = Ret (fst (clamp_ops e (bits_of e (firstn (8 * (length buf / 8)) buf)) 0 ops)).
Proof.
  intros e buf ops Hb Hops.
  assert (Hok : Forall op_ok ops) by (eapply Forall_impl; [apply read64_ok|exact Hops]).
  pose proof (bit_queue_rep e buf ops Hb Hok) as G. unfold q_run in G. set (l := bits_of e buf) in *.
  assert (El : bits_of e (firstn (8 * (length buf / 8)) buf) = firstn (64 * (length l / 64)) l).
  { unfold l. rewrite bits_of_length, <- firstn_bits. f_equal. lia. }
  assert (B : blocks l (fetch64 l (mk_queue [] 0))).
  { rewrite fetch64_blocks by reflexivity. constructor.
    - apply fetch64_empty_clean. lia.
    - unfold fetch64. cbn [waiting fetched]. destruct (_ <=? _); reflexivity.
    - unfold fetch64. cbn [waiting fetched]. destruct (Nat.leb_spec (0 + 64) (length (firstn (64 * (length l / 64)) l)));
        cbn [waiting]; rewrite ?window_length by lia; cbn [length]; lia. }
  assert (P : qpos (fetch64 l (mk_queue [] 0)) = 0) by (apply (fetch64_empty_clean l 0); lia).
  destruct (blocks_ops e l ops _ Hops B) as [q [E Pq]]. rewrite P in E, Pq.
  rewrite E in G. destruct G as [r [Er R]]. rewrite El. exists r. split; [exact Er|].
  rewrite (rep_consumed _ _ _ _ R). f_equal. exact Pq.
Qed.
