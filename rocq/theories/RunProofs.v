(** Proofs for C198. *)
From Coq Require Import List Arith NArith ZArith Bool Lia.
From Coq Require Import ZifyBool ZifyNat ZifyN.
From Verif Require Import Base BitModel BitSpec BitQueueSpec BitProofs BitProofs2 BitQueueProofs CbQueueProofs CbLoopProofs RunSpec.
Import ListNotations.
Local Open Scope nat_scope.
Ltac Zify.zify_post_hook ::= Z.div_mod_to_equations.

Lemma get_bit_rep : forall e buf r q, bytes buf -> rep e buf r q ->
  exists r', get_bit e r = Ret (r', snd (q_bit (bits_of e buf) q)) /\ rep e buf r' (fst (q_bit (bits_of e buf) q)).
Proof.
  intros e buf r q Hb R. pose proof (q_op_rep e buf r q OpGetBit Hb R I) as G. cbn [q_op run_op] in G.
  destruct (q_bit (bits_of e buf) q) as [q' b]. destruct G as [r' [E R']]. destruct (get_bit e r) as [[r1 x]| |]; cbn [obind] in E; try discriminate E.
  injection E as -> ->. exists r'. auto.
Qed.

Lemma bit_facts : forall l q, fetched q <= length l ->
  fetched (fst (q_bit l q)) <= length l /\ (0 < mu l q -> mu l (fst (q_bit l q)) < mu l q) /\ (mu l q = 0 -> q_bit l q = (q, false)).
Proof.
  intros l [w F] HF. unfold q_bit, mu. cbn [waiting fetched fst] in *. destruct w as [|b w]; cbn [length].
  - unfold fetch64, drop. cbn [fetched]. destruct (Nat.leb_spec (F + 64) (length l)) as [G|G]; cbn [waiting fetched].
    + rewrite skipn_length, window_length by lia. repeat split; try lia.
    + cbn [skipn length hd]. repeat split; try lia.
  - unfold drop. cbn [waiting fetched skipn]. repeat split; try lia.
Qed.

Lemma run_dichotomy : forall e buf b, bytes buf -> forall k r q, rep e buf r q -> fetched q <= length (bits_of e buf) -> mu (bits_of e buf) q <= k ->
  (exists r' n, count_run (k + 1) e b r = Ret (Some (r', n)) /\ n <= k) \/ (b = false /\ forall fuel, count_run fuel e b r = Ret None).
Proof.
  intros e buf b Hb k. set (l := bits_of e buf).
  assert (Z : forall r q, rep e buf r q -> fetched q <= length l -> mu l q = 0 -> forall fuel, count_run fuel e false r = Ret None).
  { intros r q R HF M fuel. revert r R. induction fuel as [|fuel IH]; intros r R; [reflexivity|]. cbn [count_run].
    destruct (get_bit_rep e buf r q Hb R) as [r1 [E R1]]. fold l in E, R1. destruct (bit_facts l q HF) as [_ [_ B]]. rewrite (B M) in E, R1. cbn [fst snd] in *.
    rewrite E. cbn [obind Bool.eqb]. rewrite (IH r1 R1). reflexivity. }
  assert (D : forall r q, rep e buf r q -> fetched q <= length l -> mu l q = 0 -> forall j, (exists r' n, count_run (j + 1) e b r = Ret (Some (r', n)) /\ n <= j) \/ (b = false /\ forall fuel, count_run fuel e b r = Ret None)).
  { intros r q R HF M j. destruct b; [|right; split; [reflexivity|apply (Z r q R HF M)]]. left.
    destruct (get_bit_rep e buf r q Hb R) as [r1 [E R1]]. fold l in E, R1. destruct (bit_facts l q HF) as [_ [_ B]]. rewrite (B M) in E. cbn [snd] in E.
    exists r1, 0. split; [|lia]. rewrite Nat.add_comm. cbn [Nat.add count_run]. rewrite E. reflexivity. }
  induction k as [|k IH]; intros r q R HF M; [apply (D r q R HF ltac:(lia))|].
  destruct (Nat.eq_dec (mu l q) 0) as [M0|M0]; [apply (D r q R HF M0)|].
  destruct (get_bit_rep e buf r q Hb R) as [r1 [E R1]]. fold l in E, R1. destruct (bit_facts l q HF) as [B1 [B2 _]].
  destruct (q_bit l q) as [q' x]. cbn [fst snd] in *. specialize (B2 ltac:(lia)).
  destruct (Bool.eqb x b) eqn:X.
  - destruct (IH r1 q' R1 B1 ltac:(lia)) as [[r2 [n [E2 L2]]]|[Hbf E2]].
    + left. exists r2, (S n). split; [|lia]. cbn [Nat.add count_run]. rewrite E. cbn [obind]. rewrite X, E2. reflexivity.
    + right. split; [exact Hbf|]. intros [|fuel]; [reflexivity|]. cbn [count_run]. rewrite E. cbn [obind]. rewrite X, E2. reflexivity.
  - left. exists r1, 0. split; [|lia]. cbn [Nat.add count_run]. rewrite E. cbn [obind]. rewrite X. reflexivity.
Qed.

Lemma run_state : forall e buf ops r outs a, bytes buf -> Forall op_ok ops -> run_from_new e buf ops = Ret (r, outs) -> available r = Ret a ->
  exists q, rep e buf r q /\ fetched q <= length (bits_of e buf) /\ mu (bits_of e buf) q <= a.
Proof.
  intros e buf ops r outs a Hb Hok E Ha. unfold run_from_new in E. destruct (new_rep e buf Hb) as [r0 [E0 R0]]. rewrite E0 in E. cbn [obind] in E.
  pose proof (q_ops_rep e buf ops r0 _ Hb R0 Hok) as G. destruct (q_ops e (bits_of e buf) _ ops) as [[q os]|]; [|congruence].
  destruct G as [r' [E' R]]. assert (r' = r) by congruence. subst r'. exists q. split; [exact R|]. destruct (available_fetched e buf r q a R Ha) as [HF HA].
  split; [exact HF|]. unfold mu. lia.
Qed.

Lemma ones_end : forall e buf ops r outs a, bytes buf -> Forall op_ok ops -> run_from_new e buf ops = Ret (r, outs) -> available r = Ret a ->
  exists r' n, count_run (a + 1) e true r = Ret (Some (r', n)) /\ n <= a.
Proof.
  intros e buf ops r outs a Hb Hok E Ha. destruct (run_state e buf ops r outs a Hb Hok E Ha) as [q [R [HF M]]].
  destruct (run_dichotomy e buf true Hb a r q R HF M) as [H|[H _]]; [exact H|discriminate H].
Qed.

Lemma zeros_soon_or_never : forall e buf ops r outs a, bytes buf -> Forall op_ok ops -> run_from_new e buf ops = Ret (r, outs) -> available r = Ret a ->
  (exists r' n, count_run (a + 1) e false r = Ret (Some (r', n)) /\ n <= a) \/ (forall fuel, count_run fuel e false r = Ret None).
Proof.
  intros e buf ops r outs a Hb Hok E Ha. destruct (run_state e buf ops r outs a Hb Hok E Ha) as [q [R [HF M]]].
  destruct (run_dichotomy e buf false Hb a r q R HF M) as [H|[_ H]]; [left|right]; exact H.
Qed.

Lemma zeros_endless : forall e n, exists r, new e (repeat 0%N n) = Ret r /\ forall fuel, count_run fuel e false r = Ret None.
Proof.
  intros e n. assert (Hb : bytes (repeat 0%N n)). { apply Forall_forall. intros x Hx. apply repeat_spec in Hx. subst x. reflexivity. }
  destruct (new_rep e _ Hb) as [r0 [E0 R]]. exists r0. split; [exact E0|].
  assert (K : forall fuel r q, rep e (repeat 0%N n) r q -> zeros_only (waiting q) -> count_run fuel e false r = Ret None).
  { induction fuel as [|fuel IH]; intros r q R' Z; [reflexivity|]. cbn [count_run]. destruct (get_bit_rep e _ r q Hb R') as [r1 [E1 R1]]. rewrite bits_zero in E1, R1.
    assert (Q : snd (q_bit (repeat false (8 * n)) q) = false /\ zeros_only (waiting (fst (q_bit (repeat false (8 * n)) q)))).
    { unfold q_bit. cbn [fst snd]. set (q1 := match waiting q with [] => _ | _ => _ end). assert (Z1 : zeros_only (waiting q1)).
      { unfold q1. destruct (waiting q) as [|x w] eqn:W; [|rewrite W; exact Z]. unfold fetch64. destruct (_ <=? _); cbn [waiting]; [|rewrite W; reflexivity].
        unfold window, zeros_only. rewrite skipn_false, firstn_false, repeat_length. reflexivity. }
      unfold drop. cbn [waiting]. split; [|apply zeros_skipn; exact Z1]. unfold zeros_only in Z1. rewrite Z1. destruct (length (waiting q1)); reflexivity. }
    destruct Q as [Q1 Q2]. rewrite E1, Q1. cbn [obind Bool.eqb]. rewrite (IH r1 _ R1 Q2). reflexivity. }
  intros fuel. apply (K fuel r0 _ R). unfold fetch64. cbn [fetched]. destruct (_ <=? _); cbn [waiting]; [|reflexivity].
  rewrite bits_zero. unfold window, zeros_only. rewrite skipn_false, firstn_false, repeat_length. reflexivity.
Qed.

Lemma count_exact : forall e b k r p, inv e r p -> 64 <= 8 * length (buffer r) -> run_at (bits_of e (buffer r)) p k b -> p + k + 1 <= 8 * length (buffer r) - 64 ->
  exists r', count_run (k + 1) e b r = Ret (Some (r', k)) /\ consumed r' = Ret (p + k + 1).
Proof.
  intros e b k. induction k as [|k IH]; intros r p I L [H1 H2] Hl.
  - destruct (run_ops_exact e [OpGetBit] r p I) as [r' [E [I' B']]]; [cbn; split; [exact Logic.I|]; split; [lia|exact Logic.I]|exact L|].
    cbn [run_ops run_op spec_ops spec_op fst snd] in E, I'. destruct (get_bit e r) as [[r1 x]| |] eqn:G; cbn [obind] in E; try discriminate E. injection E as -> Ex.
    rewrite Nat.add_0_r in H2. rewrite (nth_error_nth _ _ false H2) in Ex. subst x. exists r'. cbn [Nat.add count_run]. rewrite G. cbn [obind]. destruct b; cbn [negb Bool.eqb].
    + split; [reflexivity|]. rewrite Nat.add_0_r. apply (consumed_inv _ _ _ I').
    + split; [reflexivity|]. rewrite Nat.add_0_r. apply (consumed_inv _ _ _ I').
  - destruct (run_ops_exact e [OpGetBit] r p I) as [r' [E [I' B']]]; [cbn; split; [exact Logic.I|]; split; [lia|exact Logic.I]|exact L|].
    cbn [run_ops run_op spec_ops spec_op fst snd] in E, I'. destruct (get_bit e r) as [[r1 x]| |] eqn:G; cbn [obind] in E; try discriminate E. injection E as -> Ex.
    pose proof (H1 0 ltac:(lia)) as H0. rewrite Nat.add_0_r in H0. rewrite (nth_error_nth _ _ false H0) in Ex. subst x.
    destruct (IH r' (p + 1)) as [r2 [E2 C2]].
    + exact I'.
    + rewrite B'. exact L.
    + rewrite B'. split; [intros i Hi; specialize (H1 (S i) ltac:(lia)); replace (p + 1 + i) with (p + S i) by lia; exact H1|].
      replace (p + 1 + k) with (p + S k) by lia. exact H2.
    + rewrite B'. lia.
    + exists r2. cbn [Nat.add count_run]. rewrite G. cbn [obind]. rewrite Bool.eqb_reflx, E2. cbn [obind]. split; [reflexivity|]. rewrite C2. f_equal. lia.
Qed.

Lemma run_exact : forall e b buf ops k, bytes buf -> 8 <= length buf -> ops_within e (bits_of e buf) (8 * length buf - 64) 0 ops ->
  run_at (bits_of e buf) (fst (spec_ops e (bits_of e buf) 0 ops)) k b -> fst (spec_ops e (bits_of e buf) 0 ops) + k + 1 <= 8 * length buf - 64 ->
  exists r outs r', run_from_new e buf ops = Ret (r, outs) /\ count_run (k + 1) e b r = Ret (Some (r', k)) /\
    consumed r' = Ret (fst (spec_ops e (bits_of e buf) 0 ops) + k + 1).
Proof.
  intros e b buf ops k Hb L Hw Hr Hl. destruct (new_inv e buf Hb) as [r0 [E0 [I0 B0]]].
  destruct (run_ops_exact e ops r0 0 I0) as [r [E [Ir Br]]]; [rewrite B0; exact Hw|rewrite B0; lia|]. rewrite B0 in E, Ir, Br.
  destruct (count_exact e b k r _ Ir) as [r' [C1 C2]]; [rewrite Br; lia|rewrite Br; exact Hr|rewrite Br; exact Hl|].
  exists r, (snd (spec_ops e (bits_of e buf) 0 ops)), r'. split; [unfold run_from_new; rewrite E0; exact E|]. split; assumption.
Qed.

(** The bits to come: those waiting and those of whole blocks behind. *)
Definition to_come (l : list bool) (q : queue) : list bool :=
  waiting q ++ firstn (64 * ((length l - fetched q) / 64)) (skipn (fetched q) l).

Lemma firstn_split : forall (A : Type) (l : list A) a b, firstn (a + b) l = firstn a l ++ firstn b (skipn a l).
Proof.
  intros A l a. revert l. induction a as [|a IH]; intros l b; [reflexivity|]. destruct l as [|x l]; [rewrite skipn_nil, !firstn_nil; reflexivity|].
  cbn [Nat.add firstn skipn app]. rewrite IH. reflexivity.
Qed.

Lemma skipn_more : forall (A : Type) (l : list A) a b, skipn a (skipn b l) = skipn (b + a) l.
Proof.
  intros A l a b. revert l. induction b as [|b IH]; intros l; [reflexivity|]. destruct l as [|x l]; [rewrite !skipn_nil; reflexivity|]. apply IH.
Qed.

Lemma bit_to_come : forall l q, snd (q_bit l q) = hd false (to_come l q) /\ to_come l (fst (q_bit l q)) = tl (to_come l q).
Proof.
  intros l [w F]. unfold q_bit, to_come. cbn [waiting fetched fst snd]. destruct w as [|b w].
  - unfold fetch64, drop. cbn [fetched]. destruct (Nat.leb_spec (F + 64) (length l)) as [G|G]; cbn [waiting fetched].
    + replace (64 * ((length l - F) / 64)) with (64 + 64 * ((length l - (F + 64)) / 64)) by lia.
      rewrite firstn_split, skipn_more. fold (window l F 64). cbn [app].
      assert (W : length (window l F 64) = 64) by (apply window_length; lia). destruct (window l F 64) as [|x t]; [discriminate W|]. split; reflexivity.
    + replace (64 * ((length l - F) / 64)) with 0 by lia. rewrite firstn_O. split; reflexivity.
  - unfold drop. cbn [waiting fetched skipn]. split; reflexivity.
Qed.

Lemma count_to_come : forall e buf b, bytes buf -> forall s r q, rep e buf r q -> to_come (bits_of e buf) q = s ->
  match run_length b s with
  | Some n => exists r', count_run (n + 1) e b r = Ret (Some (r', n))
  | None => forall fuel, count_run fuel e b r = Ret None
  end.
Proof.
  intros e buf b Hb s. induction s as [|x s IH]; intros r q R T.
  - cbn [run_length]. destruct b.
    + destruct (get_bit_rep e buf r q Hb R) as [r1 [E R1]]. destruct (bit_to_come (bits_of e buf) q) as [B _]. rewrite T in B. cbn [hd] in B. rewrite B in E.
      exists r1. cbn [Nat.add count_run]. rewrite E. reflexivity.
    + intros fuel. revert r q R T. induction fuel as [|fuel IH]; intros r q R T; [reflexivity|]. cbn [count_run].
      destruct (get_bit_rep e buf r q Hb R) as [r1 [E R1]]. destruct (bit_to_come (bits_of e buf) q) as [B1 B2]. rewrite T in B1, B2. cbn [hd tl] in B1, B2. rewrite B1 in E.
      rewrite E. cbn [obind Bool.eqb]. rewrite (IH r1 _ R1 B2). reflexivity.
  - destruct (get_bit_rep e buf r q Hb R) as [r1 [E R1]]. destruct (bit_to_come (bits_of e buf) q) as [B1 B2]. rewrite T in B1, B2. cbn [hd tl] in B1, B2. rewrite B1 in E.
    cbn [run_length]. destruct (Bool.eqb x b) eqn:X.
    + specialize (IH r1 _ R1 B2). destruct (run_length b s) as [n|]; cbn [option_map].
      * destruct IH as [r' E']. exists r'. cbn [Nat.add count_run]. rewrite E. cbn [obind]. rewrite X, E'. reflexivity.
      * intros [|fuel]; [reflexivity|]. cbn [count_run]. rewrite E. cbn [obind]. rewrite X, IH. reflexivity.
    + exists r1. cbn [Nat.add count_run]. rewrite E. cbn [obind]. rewrite X. reflexivity.
Qed.

Lemma new_run : forall e b buf r0, bytes buf -> new e buf = Ret r0 ->
  match run_length b (firstn (64 * (length buf / 8)) (bits_of e buf)) with
  | Some n => exists r', count_run (n + 1) e b r0 = Ret (Some (r', n))
  | None => forall fuel, count_run fuel e b r0 = Ret None
  end.
Proof.
  intros e b buf r0 Hb E0. destruct (new_rep e buf Hb) as [r [E R]]. assert (r = r0) by congruence. subst r.
  apply (count_to_come e buf b Hb _ r0 _ R). pose proof (bits_of_length e buf) as L. set (l := bits_of e buf) in *. unfold to_come, fetch64. cbn [fetched].
  destruct (Nat.leb_spec (0 + 64) (length l)) as [G|G]; cbn [waiting fetched].
  - replace (64 * (length buf / 8)) with (64 + 64 * ((length l - (0 + 64)) / 64)) by lia. rewrite firstn_split. reflexivity.
  - replace (64 * ((length l - 0) / 64)) with 0 by lia. replace (64 * (length buf / 8)) with 0 by lia. reflexivity.
Qed.

Lemma run_ends_false : exists e buf r, bytes buf /\ new e buf = Ret r /\ available r = Ret 64 /\ forall fuel, count_run fuel e false r = Ret None.
Proof.
  destruct (zeros_endless BE 8) as [r [E H]]. exists BE, (repeat 0%N 8), r. split; [repeat constructor|]. split; [exact E|]. split; [|exact H].
  vm_compute in E. injection E as <-. vm_compute. reflexivity.
Qed.

Lemma available_rep : forall e buf r q, rep e buf r q -> fetched q <= length (bits_of e buf) ->
  available r = Ret (length (bits_of e buf) - fetched q + length (waiting q)).
Proof.
  intros e buf r q H HF. rewrite bits_of_length in *. unfold available, csub. rewrite (rep_left _ _ _ _ H), (rep_buffer _ _ _ _ H). pose proof (rep_index _ _ _ _ H).
  destruct (Nat.leb_spec (index r) (length buf)); cbn [obind]; [|lia]. f_equal. lia.
Qed.

Definition by_blocks (l : list bool) (q : queue) : Prop := fetched q <= length l /\ fetched q mod 64 = 0.

Lemma bit_by_blocks : forall l q, by_blocks l q -> by_blocks l (fst (q_bit l q)).
Proof.
  intros l [w F] [H1 H2]. unfold q_bit, by_blocks in *. cbn [waiting fetched fst] in *. destruct w as [|b w]; [|split; assumption].
  unfold fetch64, drop. cbn [fetched]. destruct (Nat.leb_spec (F + 64) (length l)); cbn [fetched]; lia.
Qed.

Lemma new_by_blocks : forall e buf, by_blocks (bits_of e buf) (fetch64 (bits_of e buf) (mk_queue [] 0)).
Proof.
  intros e buf. unfold by_blocks, fetch64. cbn [fetched]. destruct (Nat.leb_spec (0 + 64) (length (bits_of e buf))); cbn [fetched]; [split; [lia|reflexivity]|split; [lia|reflexivity]].
Qed.

Lemma guarded_same : forall e b buf r0 fuel, bytes buf -> length buf mod 8 <> 0 -> new e buf = Ret r0 -> count_guarded fuel e b r0 = count_run fuel e b r0.
Proof.
  intros e b buf r0 fuel Hb Hm E0. destruct (new_rep e buf Hb) as [r [E R]]. assert (r = r0) by congruence. subst r. clear E E0.
  pose proof (new_by_blocks e buf) as B. revert B R. generalize (fetch64 (bits_of e buf) (mk_queue [] 0)) as q. revert r0.
  induction fuel as [|fuel IH]; intros r q B R; [reflexivity|]. cbn [count_guarded count_run]. pose proof (bits_of_length e buf) as L.
  rewrite (available_rep e buf r q R (proj1 B)). cbn [obind]. destruct (Nat.eqb_spec (length (bits_of e buf) - fetched q + length (waiting q)) 0) as [Z|_]; [destruct B; lia|].
  destruct (get_bit_rep e buf r q Hb R) as [r1 [E1 R1]]. rewrite E1. cbn [obind]. rewrite (IH r1 _ (bit_by_blocks _ _ B) R1). reflexivity.
Qed.

Lemma guarded_blocks : forall e b buf r0, bytes buf -> length buf mod 8 = 0 -> new e buf = Ret r0 ->
  exists r', count_guarded (8 * length buf + 1) e b r0 = Ret (Some (r', leading b (bits_of e buf))).
Proof.
  intros e b buf r0 Hb Hm E0. destruct (new_rep e buf Hb) as [r [E R]]. assert (r = r0) by congruence. subst r. clear E E0.
  pose proof (bits_of_length e buf) as L. pose proof (new_by_blocks e buf) as B.
  assert (T : to_come (bits_of e buf) (fetch64 (bits_of e buf) (mk_queue [] 0)) = bits_of e buf).
  { set (l := bits_of e buf) in *. unfold to_come, fetch64. cbn [fetched]. destruct (Nat.leb_spec (0 + 64) (length l)) as [G|G]; cbn [waiting fetched].
    - replace (64 * ((length l - (0 + 64)) / 64)) with (length l - 64) by lia. unfold window. rewrite (firstn_all2 (n := length l - 64)) by (rewrite skipn_length; lia).
      cbn [skipn Nat.add]. apply firstn_skipn.
    - assert (length l = 0) by lia. destruct l; [reflexivity|discriminate]. }
  assert (K : forall s r q fuel, rep e buf r q -> by_blocks (bits_of e buf) q -> to_come (bits_of e buf) q = s -> length s < fuel ->
    exists r', count_guarded fuel e b r = Ret (Some (r', leading b s))).
  { induction s as [|x s IH]; intros r q fuel R' B' T' Hf; (destruct fuel as [|fuel]; [lia|]); cbn [count_guarded leading];
      rewrite (available_rep e buf r q R' (proj1 B')); cbn [obind]; pose proof (f_equal (@length bool) T') as TL; unfold to_come in TL;
      rewrite app_length, firstn_length, skipn_length in TL; cbn [length] in TL, Hf; destruct B' as [B1 B2].
    - destruct (Nat.eqb_spec (length (bits_of e buf) - fetched q + length (waiting q)) 0) as [_|Z]; [exists r; reflexivity|lia].
    - destruct (Nat.eqb_spec (length (bits_of e buf) - fetched q + length (waiting q)) 0) as [Z|_]; [lia|].
      destruct (get_bit_rep e buf r q Hb R') as [r1 [E1 R1]]. destruct (bit_to_come (bits_of e buf) q) as [C1 C2]. rewrite T' in C1, C2. cbn [hd tl] in C1, C2.
      rewrite E1, C1. cbn [obind]. destruct (Bool.eqb x b); [|exists r1; reflexivity].
      destruct (IH r1 _ fuel R1 (bit_by_blocks _ _ (conj B1 B2)) C2 ltac:(lia)) as [r2 E2]. exists r2. rewrite E2. reflexivity. }
  apply (K _ r0 _ _ R B T). lia.
Qed.
