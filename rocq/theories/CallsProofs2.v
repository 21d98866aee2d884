(** Reading byte by byte. *)
From Coq Require Import List Arith NArith ZArith Bool Lia.
From Coq Require Import ZifyBool ZifyNat ZifyN.
From Verif Require Import Base AccModel AccSpec AccProofs AccProofs2 CallsSpec CallsProofs.
Import ListNotations.
Local Open Scope nat_scope.

Section Bytes.
Context {R : Type}.
Variable i : io R.
Variable src : list N.
Variable good : R -> Prop.
Variable tell : R -> nat.
Hypothesis Hsrc : source_ok i src good tell.
Hypothesis Hfills : fills i src good tell.
Notation rep := (rep src good tell).

Lemma rep_proper : forall a p, rep a p -> proper a.
Proof. intros a p H. split; apply H. Qed.

Lemma fill_fills : forall a p a' o, rep a p -> fill_buf i a = Ret (a', o) ->
  (exists d, o = Okay d) /\ held a' = Nat.min (length (abuf a)) (length src - p).
Proof.
  intros a p a' o H E. pose proof (rep_proper a p H) as Hp. unfold fill_buf in E.
  pose proof (rp_tell _ _ _ _ _ H) as Ht. pose proof (rp_avail _ _ _ _ _ H) as Hav. fold (held a) in Ht, Hav.
  destruct (negb (apos a =? 0) || negb (aend a =? length (abuf a))) eqn:Ec.
  - destruct (reset_proper a Hp) as [a1 [E1 [P1 [N1 [L1 I1]]]]]. rewrite E1 in E. cbn [obind] in E. destruct Hp as [Hp1 Hp2].
    assert (He : aend a1 <= length (abuf a1)) by (rewrite N1, L1; unfold held; lia).
    rewrite slice_ok in E by lia. cbn [obind] in E.
    set (tail := firstn (length (abuf a1) - aend a1) (skipn (aend a1) (abuf a1))) in *.
    assert (Lt : length tail = length (abuf a) - held a).
    { unfold tail. rewrite firstn_length, skipn_length, N1, L1. lia. }
    destruct (io_read i (inner a1) tail) as [[r' tail'] res] eqn:Er.
    apply Hfills in Er; [|rewrite I1; apply H]. subst res. cbn [abuf apos aend] in E.
    destruct (slice (with_tail (abuf a1) (aend a1) tail') (apos a1) _) as [d| |]; cbn [obind] in E; try discriminate.
    injection E as <- <-. split; [eexists; reflexivity|]. unfold held at 1. cbn [apos aend].
    rewrite P1, N1, I1, Ht, Lt. unfold held in *. lia.
  - rewrite slice_ok in E by apply Hp. cbn [obind] in E. injection E as <- <-. split; [eexists; reflexivity|].
    unfold held in *. lia.
Qed.

Lemma byte_read : forall a p x, rep a p -> p < length src ->
  exists a', acc_step i a (ARead [x]) = Ret (a', ORead [nth p src 0%N] (Okay 1)) /\ rep a' (p + 1) /\
    length (abuf a') = length (abuf a) /\
    held a' = (if 2 <=? held a then held a - 1 else if length (abuf a) =? 0 then 0 else Nat.min (length (abuf a)) (length src - p) - 1).
Proof.
  intros a p x H Hlt. destruct (read_rep i src good tell Hsrc a p [x] H) as [a' [dst' [res [p' [E [H' [Rd L]]]]]]].
  cbn [acc_step]. rewrite E. cbn [obind]. exists a'.
  destruct Rd as [Ld Rd]. cbn [length] in Ld.
  pose proof (rp_avail _ _ _ _ _ H) as Hav. pose proof (rp_end _ _ _ _ _ H) as Hend. pose proof (rp_tell _ _ _ _ _ H) as Ht.
  fold (held a) in Hav, Ht.
  assert (G : (exists k, res = Okay k) /\
    held a' = (if 2 <=? held a then held a - 1 else if length (abuf a) =? 0 then 0 else Nat.min (length (abuf a)) (length src - p) - 1)).
  { pose proof (rep_proper a p H) as Hp. pose proof (proj1 Hp) as Hpe. unfold read in E. rewrite csub_ok in E by apply Hp. cbn [obind] in E. fold (held a) in E.
    cbn [length] in E. destruct (Nat.leb_spec 2 (held a)) as [H2|H2].
    - destruct (Nat.ltb_spec 1 (held a)); [|lia]. rewrite slice_ok in E by (unfold held in *; lia). cbn [obind] in E.
      replace (apos a + 1 - apos a) with 1 in E by lia.
      destruct (slice_read (firstn 1 (skipn (apos a) (abuf a))) [x]) as [d n] eqn:Es. apply slice_read_spec in Es.
      rewrite firstn_length, skipn_length in Es. cbn [length] in Es. injection E as <- <- <-. split; [eexists; reflexivity|].
      unfold held in *. cbn [consume apos aend]. lia.
    - destruct (Nat.ltb_spec 1 (held a)); [lia|]. destruct (Nat.eqb_spec (length (abuf a)) 0) as [Z|NZ].
      + assert (held a = 0) by (unfold held; lia).
        destruct (Nat.ltb_spec (length (abuf a)) 1); [|lia]. rewrite slice_ok in E by lia. cbn [obind] in E.
        destruct (slice_read (firstn (aend a - apos a) (skipn (apos a) (abuf a))) [x]) as [d n] eqn:Es. apply slice_read_spec in Es.
        destruct Es as [_ [Es _]]. cbn [length] in Es. rewrite slice_ok in E by lia. cbn [obind] in E.
        destruct (io_read i (inner a) _) as [[r' t'] rr] eqn:Er. apply Hfills in Er; [|apply H]. subst rr.
        set (b := consume _ _) in E. assert (Hb : proper b) by (apply consume_keeps; destruct Hp; split; assumption).
        destruct (reset_proper b Hb) as [b1 [E1 [P1 [N1 _]]]]. rewrite E1 in E. cbn [obind] in E. injection E as <- <- <-.
        split; [eexists; reflexivity|]. unfold held at 1. rewrite P1, N1. unfold b, held. cbn [consume apos aend]. unfold held in *. lia.
      + destruct (Nat.ltb_spec (length (abuf a)) 1); [lia|].
        destruct (fill_buf i a) as [[a1 fr]| |] eqn:Ef; cbn [obind] in E; try discriminate.
        destruct (fill_fills a p a1 fr H Ef) as [[d ->] Hh].
        destruct (fill_rep i src good tell Hsrc a p H) as [a2 [r2 [E2 [H2' [_ D2]]]]]. rewrite Ef in E2. injection E2 as <- <-.
        destruct D2 as [D2 _]. rewrite (data_rep src good tell a1 p H2') in D2. injection D2 as <-.
        pose proof (data_length src good tell a1 p H2') as Dl.
        destruct (slice_read _ [x]) as [d1 n1] eqn:Es. apply slice_read_spec in Es. rewrite Dl in Es. cbn [length] in Es.
        injection E as <- <- <-. split; [eexists; reflexivity|].
        unfold buffered in Es. fold (held a1) in Es. rewrite Hh in Es. destruct Es as [-> _].
        unfold held in *. cbn [consume apos aend]. lia. }
  destruct G as [[k ->] G]. destruct Rd as [K1 [K2 [K3 [K4 K5]]]]. cbn [length] in K1, K4.
  assert (k = 1) by lia. subst k p'. split; [|split; [exact H'|split; [exact L|exact G]]].
  destruct dst' as [|y [|z l]]; cbn [length] in Ld; try lia. repeat f_equal.
  rewrite <- (firstn_skipn p src) at 1. rewrite app_nth2 by (rewrite firstn_length; lia).
  rewrite firstn_length, Nat.min_l, Nat.sub_diag by lia. cbn [firstn] in K3.
  destruct (skipn p src) as [|w l]; [discriminate|]. cbn [firstn] in K3. injection K3 as ->. reflexivity.
Qed.

(** Source calls of one byte-sized read. *)
Definition costs (cap h : nat) : nat := if 2 <=? h then 0 else if cap =? 0 then 1 else if cap <=? h then 0 else 1.

Lemma byte_step : forall a p x log, rep a p -> p < length src ->
  exists a' c, acc_step (traced i) (logged a log) (ARead [x]) = Ret (logged a' (log ++ c), ORead [nth p src 0%N] (Okay 1)) /\
    count_reads c = costs (length (abuf a)) (held a) /\ rep a' (p + 1) /\ length (abuf a') = length (abuf a) /\
    held a' = (if 2 <=? held a then held a - 1 else if length (abuf a) =? 0 then 0 else Nat.min (length (abuf a)) (length src - p) - 1).
Proof.
  intros a p x log H Hlt. destruct (byte_read a p x H Hlt) as [a' [E [H' [L Hh]]]].
  destruct (step_calls i a log _ _ _ (rep_proper a p H) E) as [c [E1 M]]. exists a', c. split; [exact E1|].
  split; [|split; [exact H'|split; [exact L|exact Hh]]]. cbn [makes asks length] in M. unfold costs.
  assert (Hl : held a <= length (abuf a)) by (destruct (rep_proper a p H); unfold held; lia).
  assert (N : forall n, one_read n c -> count_reads c = if n =? 0 then 0 else 1).
  { intros [|n] Hn; cbn [one_read] in Hn; [subst c; reflexivity|]. destruct Hn as [res ->]. reflexivity. }
  apply N in M. rewrite M.
  destruct (Nat.ltb_spec 1 (held a)), (Nat.leb_spec 2 (held a)); try lia; [reflexivity|].
  destruct (Nat.ltb_spec (length (abuf a)) 1), (Nat.eqb_spec (length (abuf a)) 0); try lia.
  - destruct (Nat.eqb_spec (1 - held a) 0); [|reflexivity]. lia.
  - destruct (Nat.leb_spec (length (abuf a)) (held a)), (Nat.eqb_spec (length (abuf a) - held a) 0); try lia; reflexivity.
Qed.

Lemma run_snoc : forall (R' : Type) (j : io R') ops op a a1 outs a2 o,
  acc_run j a ops = Ret (a1, outs) -> acc_step j a1 op = Ret (a2, o) -> acc_run j a (ops ++ [op]) = Ret (a2, outs ++ [o]).
Proof.
  intros R' j ops op. induction ops as [|b ops IH]; intros a a1 outs a2 o E1 E2; cbn [acc_run app] in *.
  - injection E1 as <- <-. rewrite E2. reflexivity.
  - destruct (acc_step j a b) as [[x y]| |]; cbn [obind] in *; try discriminate.
    destruct (acc_run j x ops) as [[u v]| |] eqn:Er; cbn [obind] in *; try discriminate. injection E1 as <- <-.
    rewrite (IH _ _ _ _ _ Er E2). reflexivity.
Qed.

Lemma repeat_snoc : forall (A : Type) (x : A) n, repeat x (S n) = repeat x n ++ [x].
Proof. intros A x n. induction n as [|n IH]; [reflexivity|]. cbn [repeat app] in *. rewrite <- IH. reflexivity. Qed.

Lemma firstn_snoc : forall (l : list N) n, n < length l -> firstn (S n) l = firstn n l ++ [nth n l 0%N].
Proof.
  induction l as [|a l IH]; intros n H; cbn [length] in H; [lia|]. destruct n; [reflexivity|].
  cbn [firstn nth app]. rewrite <- IH by lia. reflexivity.
Qed.

(** [n] source calls after [k] bytes. *)
Definition level (cap k n h : nat) : Prop :=
  (k = 0 /\ n = 0 /\ h = 0) \/
  (0 < n /\ h = Nat.min (length src) (1 + n * (cap - 1)) - k /\ k <= n * (cap - 1) /\ (n - 1) * (cap - 1) < k).

Lemma level_step : forall cap k n h, 2 <= cap -> S k < length src -> level cap k n h ->
  level cap (S k) (n + costs cap h) (if 2 <=? h then h - 1 else if cap =? 0 then 0 else Nat.min cap (length src - k) - 1).
Proof.
  intros cap k n h Hc Hk Hl. unfold costs. destruct (Nat.eqb_spec cap 0); [lia|]. destruct Hl as [[-> [-> ->]]|[Hn [Hh [H1 H2]]]].
  - cbn [Nat.leb]. destruct (Nat.leb_spec cap 0); [lia|]. right. cbn [Nat.add Nat.mul Nat.sub]. lia.
  - destruct (Nat.leb_spec 2 h).
    + right. rewrite Nat.add_0_r. split; [exact Hn|]. split; [lia|]. split; [lia|]. lia.
    + destruct (Nat.leb_spec cap h); [lia|]. right.
      assert (K : k = n * (cap - 1)) by lia.
      replace (n + 1 - 1) with n by lia. rewrite Nat.mul_add_distr_r, Nat.mul_1_l. rewrite <- K. lia.
Qed.

Lemma bytes_run : forall cap r0 x, good r0 -> tell r0 = 0 -> 2 <= cap -> forall k, k < length src ->
  exists a log, acc_run (traced i) (with_capacity cap (r0, [])) (repeat (ARead [x]) k) = Ret (logged a log, byte_outs (firstn k src)) /\
    rep a k /\ length (abuf a) = cap /\ level cap k (count_reads log) (held a).
Proof.
  intros cap r0 x Hg Ht Hc. induction k as [|k IH]; intros Hk.
  - exists (with_capacity cap r0), []. split; [reflexivity|]. split; [apply new_rep; assumption|].
    split; [cbn [with_capacity abuf]; apply repeat_length|]. left. repeat split.
  - destruct (IH ltac:(lia)) as [a [log [E [H [L Lv]]]]].
    destruct (byte_step a k x log H ltac:(lia)) as [a' [c [E1 [Cc [H' [L' Hh]]]]]].
    exists a', (log ++ c). rewrite repeat_snoc, firstn_snoc by lia. unfold byte_outs. rewrite map_app.
    split; [apply (run_snoc _ _ _ _ _ _ _ _ _ E E1)|]. replace (S k) with (k + 1) at 1 by lia. split; [exact H'|].
    split; [congruence|]. destruct (counts_app log c) as [-> _]. rewrite Cc, Hh, L.
    apply level_step; assumption.
Qed.

Lemma level_ceil : forall cap k n h, 2 <= cap -> level cap k n h -> n = over k (cap - 1).
Proof.
  intros cap k n h Hc [[-> [-> _]]|[Hn [_ [H1 H2]]]]; unfold over; replace (cap - 1 - 1) with (cap - 2) by lia.
  - rewrite Nat.div_small by lia. reflexivity.
  - destruct n as [|n]; [lia|]. replace (S n - 1) with n in H2 by lia.
    apply (Nat.div_unique _ _ (S n) (k - n * (cap - 1) - 1)); nia.
Qed.

Lemma bytes_count : forall cap r0 x k, good r0 -> tell r0 = 0 -> 2 <= cap -> k < length src ->
  exists a log, acc_run (traced i) (with_capacity cap (r0, [])) (repeat (ARead [x]) k) = Ret (logged a log, byte_outs (firstn k src)) /\
    count_reads log = over k (cap - 1).
Proof.
  intros cap r0 x k Hg Ht Hc Hk. destruct (bytes_run cap r0 x Hg Ht Hc k Hk) as [a [log [E [_ [_ Lv]]]]].
  exists a, log. split; [exact E|]. eapply level_ceil; eassumption.
Qed.

Lemma bytes_whole : forall cap r0 x, good r0 -> tell r0 = 0 -> 2 <= cap -> src <> [] ->
  exists a log, acc_run (traced i) (with_capacity cap (r0, [])) (repeat (ARead [x]) (length src)) = Ret (logged a log, byte_outs src) /\
    count_reads log = over (length src - 1) (cap - 1) + 1.
Proof.
  intros cap r0 x Hg Ht Hc Hne. destruct (length src) as [|k] eqn:El.
  - destruct src; [contradiction|discriminate].
  - destruct (bytes_run cap r0 x Hg Ht Hc k ltac:(lia)) as [a [log [E [H [L Lv]]]]].
    destruct (byte_step a k x log H ltac:(lia)) as [a' [c [E1 [Cc [H' [L' Hh]]]]]].
    exists a', (log ++ c). rewrite repeat_snoc. split.
    + replace (byte_outs src) with (byte_outs (firstn k src) ++ [ORead [nth k src 0%N] (Okay 1)]).
      * apply (run_snoc _ _ _ _ _ _ _ _ _ E E1).
      * rewrite <- (firstn_all src) at 3. rewrite El, firstn_snoc by lia. unfold byte_outs. rewrite map_app. reflexivity.
    + destruct (counts_app log c) as [-> _]. replace (S k - 1) with k by lia. rewrite <- (level_ceil _ _ _ _ Hc Lv). f_equal.
      rewrite Cc, L. unfold costs.
      assert (Hl : held a <= 1) by (destruct Lv as [[_ [_ ->]]|[_ [-> [Hk _]]]]; lia).
      destruct (Nat.leb_spec 2 (held a)); [lia|]. destruct (Nat.eqb_spec cap 0); [lia|].
      destruct (Nat.leb_spec cap (held a)); [lia|reflexivity].
Qed.

Lemma bytes_unbuffered : forall cap r0 x k, good r0 -> tell r0 = 0 -> cap <= 1 -> k <= length src ->
  exists a log, acc_run (traced i) (with_capacity cap (r0, [])) (repeat (ARead [x]) k) = Ret (logged a log, byte_outs (firstn k src)) /\
    count_reads log = k.
Proof.
  intros cap r0 x k Hg Ht Hc Hk.
  cut (exists a log, acc_run (traced i) (with_capacity cap (r0, [])) (repeat (ARead [x]) k) = Ret (logged a log, byte_outs (firstn k src)) /\
    rep a k /\ length (abuf a) = cap /\ held a = 0 /\ count_reads log = k).
  { intros [a [log [E [_ [_ [_ C]]]]]]. exists a, log. split; assumption. }
  induction k as [|k IH].
  - exists (with_capacity cap r0), []. split; [reflexivity|]. split; [apply new_rep; assumption|].
    split; [cbn [with_capacity abuf]; apply repeat_length|]. split; reflexivity.
  - destruct (IH ltac:(lia)) as [a [log [E [H [L [Hz C]]]]]].
    destruct (byte_step a k x log H ltac:(lia)) as [a' [c [E1 [Cc [H' [L' Hh]]]]]].
    exists a', (log ++ c). rewrite repeat_snoc, firstn_snoc by lia. unfold byte_outs. rewrite map_app.
    split; [apply (run_snoc _ _ _ _ _ _ _ _ _ E E1)|]. replace (S k) with (k + 1) at 1 by lia. split; [exact H'|].
    split; [congruence|]. destruct (counts_app log c) as [-> _]. rewrite Cc, Hh, L, Hz, C. unfold costs.
    cbn [Nat.leb]. destruct (Nat.eqb_spec cap 0); [lia|]. destruct (Nat.leb_spec cap 0); lia.
Qed.

End Bytes.

Lemma plain_cursor : forall src,
  source_ok cursor_io src (fun c => cur_src c = src /\ cur_script c = []) cur_pos /\
  fills cursor_io src (fun c => cur_src c = src /\ cur_script c = []) cur_pos.
Proof.
  intros src. pose proof (cursor_ok src) as [Hr Hs]. split; [split|].
  - intros r dst r' dst' res [G1 G2] E. destruct (Hr _ _ _ _ _ G1 E) as [G' Rd]. split; [split; [exact G'|]|exact Rd].
    unfold cursor_io, io_read, cursor_read in E. rewrite G2 in E. injection E as <- _ _. reflexivity.
  - intros r s r' res [G1 G2] E. destruct (Hs _ _ _ _ G1 E) as [G' Rd]. split; [split; [exact G'|]|exact Rd].
    unfold cursor_io, io_seek, cursor_seek in E. rewrite G2 in E. destruct (_ <? 0)%Z; injection E as <- _; [exact G2|reflexivity].
  - intros [s p sc] dst r' dst' res [Hs' Hn] H. cbn in Hs', Hn. subst s sc. cbn in H. injection H as _ _ <-.
    rewrite skipn_length. reflexivity.
Qed.
