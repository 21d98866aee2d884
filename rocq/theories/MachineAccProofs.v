(** [AccReader] for any width of [usize]. *)
From Coq Require Import List Arith NArith ZArith Bool Lia.
From Coq Require Import ZifyBool ZifyNat ZifyN.
From Verif Require Import Base AccModel AccSpec AccProofs AccProofs2 AccExamples WordBitProofs WordAccModel WordSpec WordAccProofs MachineModel MachineAccModel MachineAccSpec.
Import ListNotations.
Local Open Scope N_scope.

Section Machine.
Variable m : machine.
Hypothesis Hbits : 1 <= bits m.

Lemma modulus_room : modulus m = 2 * room m.
Proof. unfold modulus, room. rewrite <- N.pow_succ_r'. f_equal. lia. Qed.
Lemma room_pos : 0 < room m.
Proof. unfold room. apply N.neq_0_lt_0, N.pow_nonzero. discriminate. Qed.
Lemma modulus_nz : modulus m <> 0.
Proof. rewrite modulus_room. pose proof room_pos. lia. Qed.

Lemma ranged_ok n : n < modulus m -> ranged m n = Ret n.
Proof. intros H. unfold ranged. destruct (N.ltb_spec n (modulus m)); [reflexivity|lia]. Qed.
Lemma madd_ok a b : a + b < modulus m -> madd m a b = Ret (a + b).
Proof. apply ranged_ok. Qed.
Lemma msub_csub a b : (b <= a)%nat -> msub m (N.of_nat a) (N.of_nat b) = Ret (N.of_nat (a - b)).
Proof. intros H. unfold msub. destruct (N.leb_spec (N.of_nat b) (N.of_nat a)); [|lia]. f_equal. lia. Qed.
Lemma mcast_ok n : n < modulus m -> mcast m n = n.
Proof. intros H. apply N.mod_small. exact H. Qed.

(** [x] if the position is in range or need not be *)
Definition guard {R A : Type} (a : acc R) (x : A) : outcome A :=
  if checked m && (modulus m <=? N.of_nat (aindex a)) then Panic else Ret x.
Definition in_range {R : Type} (a : acc R) : Prop := checked m = true -> N.of_nat (aindex a) < modulus m.

Lemma guard_in {R A : Type} (a : acc R) (x : A) : in_range a -> guard a x = Ret x.
Proof.
  intros H. unfold guard. destruct (checked m) eqn:E; [|reflexivity]. specialize (H E).
  destruct (N.leb_spec (modulus m) (N.of_nat (aindex a))); [lia|reflexivity].
Qed.

Lemma madd_index {R : Type} (a : acc R) n : in_range a ->
  madd m (N.of_nat (aindex a) mod modulus m) (N.of_nat n) =
  (if checked m && (modulus m <=? N.of_nat (aindex a + n)) then Panic else Ret (N.of_nat (aindex a + n) mod modulus m)).
Proof.
  intros H. pose proof modulus_nz as Hz. unfold madd, ranged.
  assert (E : (N.of_nat (aindex a) mod modulus m + N.of_nat n) mod modulus m = N.of_nat (aindex a + n) mod modulus m).
  { rewrite N.add_mod_idemp_l by exact Hz. f_equal. lia. }
  destruct (checked m) eqn:C.
  - cbn [andb]. specialize (H C). rewrite (N.mod_small (N.of_nat (aindex a))) by exact H.
    replace (N.of_nat (aindex a) + N.of_nat n) with (N.of_nat (aindex a + n)) by lia.
    destruct (N.leb_spec (modulus m) (N.of_nat (aindex a + n))) as [B|B]; destruct (N.ltb_spec (N.of_nat (aindex a + n)) (modulus m)); try lia; [reflexivity|].
    rewrite N.mod_small by exact B. reflexivity.
  - cbn [andb]. rewrite <- E. destruct (N.ltb_spec (N.of_nat (aindex a) mod modulus m + N.of_nat n) (modulus m)) as [B|B]; [|reflexivity].
    rewrite (N.mod_small (N.of_nat (aindex a) mod modulus m + N.of_nat n)) by exact B. reflexivity.
Qed.

Notation seen := (seen_on m).
Ltac fields := cbn [seen_on wa_end wa_pos wa_buf wa_inner wa_index].

Lemma reset_seen {R : Type} (a : acc R) : (apos a <= aend a)%nat -> m_reset m (seen a) = omap seen (reset_buffer_position a).
Proof.
  intros H. unfold m_reset, reset_buffer_position. fields. rewrite msub_csub, csub_ok by exact H. cbn [omap obind]. rewrite wslice_slice.
  destruct (N.ltb_spec 0 (N.of_nat (aend a - apos a))); destruct (Nat.ltb_spec 0 (aend a - apos a)); try lia.
  - destruct (slice (abuf a) (apos a) (aend a)) as [w| |]; cbn [omap obind]; [|reflexivity..]. rewrite Nat2N.id. reflexivity.
  - reflexivity.
Qed.

Lemma consume_seen {R : Type} (a : acc R) n : N.of_nat (apos a) + N.of_nat n < modulus m -> in_range a ->
  m_consume m (seen a) (N.of_nat n) = guard (consume a n) (seen (consume a n)).
Proof.
  intros H1 H2. unfold m_consume, consume, guard, seen_on. cbn [wa_end wa_pos wa_buf wa_inner wa_index inner abuf apos aend aindex].
  fold (modulus m). rewrite madd_ok by exact H1. cbn [obind]. rewrite madd_index by exact H2.
  destruct (checked m && (modulus m <=? N.of_nat (aindex a + n))); [reflexivity|]. cbn [obind]. do 2 f_equal. lia.
Qed.

Lemma grow_seen {R : Type} (a : acc R) n : N.of_nat (length (abuf a)) + N.of_nat n < room m ->
  m_grow m (seen a) (N.of_nat n) = Ret (seen (grow a n)).
Proof.
  intros H. pose proof modulus_room. unfold m_grow, m_resize, grow, blen. fields.
  rewrite madd_ok by lia. cbn [obind]. unfold seen_on. cbn [inner abuf apos aend aindex].
  destruct (N.leb_spec (N.of_nat (length (abuf a)) + N.of_nat n) (N.of_nat (length (abuf a)))) as [B|B].
  - assert (n = 0)%nat by lia. subst n. cbn [obind repeat]. rewrite app_nil_r, N.add_0_r, Nat2N.id, firstn_all. reflexivity.
  - destruct (N.ltb_spec (N.of_nat (length (abuf a)) + N.of_nat n) (room m)); [|lia]. cbn [obind].
    replace (N.to_nat (N.of_nat (length (abuf a)) + N.of_nat n - N.of_nat (length (abuf a)))) with n by lia. reflexivity.
Qed.

Section Acc.
Context {R : Type}.
Variable i : io R.
Variable src : list N.
Variable good : R -> Prop.
Variable tell : R -> nat.
Hypothesis Hsrc : source_ok i src good tell.
Notation rep := (rep src good tell).
Definition roomy (a : acc R) : Prop := N.of_nat (length (abuf a)) < room m.

Lemma fill_seen a p : rep a p -> roomy a -> m_fill_buf m i (seen a) = omap (fun x => (seen (fst x), snd x)) (fill_buf i a).
Proof.
  intros H F. unfold m_fill_buf, fill_buf. fields. unfold blen.
  replace (N.of_nat (apos a) =? 0) with (apos a =? 0)%nat by lia.
  replace (N.of_nat (aend a) =? N.of_nat (length (abuf a))) with (aend a =? length (abuf a))%nat by lia.
  destruct (negb (apos a =? 0)%nat || negb (aend a =? length (abuf a))%nat).
  - change (mk_wacc (inner a) (abuf a) (N.of_nat (apos a)) (N.of_nat (aend a)) (N.of_nat (aindex a) mod 2 ^ bits m)) with (seen a).
    rewrite reset_seen by apply H. destruct (reset_rep src good tell a p H) as [a1 [E1 [H1 [P1 [N1 [L1 _]]]]]]. rewrite E1. cbn [omap obind].
    change (wa_buf (seen a1)) with (abuf a1). change (wa_inner (seen a1)) with (inner a1).
    change (wa_end (seen a1)) with (N.of_nat (aend a1)). change (wa_pos (seen a1)) with (N.of_nat (apos a1)). rewrite wslice_slice.
    rewrite slice_ok by (try apply H1; lia). cbn [obind].
    set (tail := firstn (length (abuf a1) - aend a1) (skipn (aend a1) (abuf a1))).
    assert (Lt : length tail = (length (abuf a1) - aend a1)%nat) by (unfold tail; rewrite firstn_length, skipn_length; lia).
    destruct (io_read i (inner a1) tail) as [[r' tail'] res] eqn:Er.
    destruct (so_read _ _ _ _ Hsrc _ _ _ _ _ (rp_good _ _ _ _ _ H1) Er) as [_ [_ Hres]]. rewrite Nat2N.id.
    pose proof (rp_end _ _ _ _ _ H1) as He. pose proof modulus_room. unfold roomy in F.
    destruct res as [k|e]; [|reflexivity]. destruct Hres as [Hk _].
    rewrite madd_ok by lia. cbn [obind wa_buf wa_end wa_pos abuf aend apos].
    rewrite <- Nat2N.inj_add, wslice_slice.
    destruct (slice (with_tail (abuf a1) (aend a1) tail') (apos a1) (aend a1 + k)) as [d| |]; reflexivity.
  - rewrite wslice_slice. destruct (slice (abuf a) (apos a) (aend a)); reflexivity.
Qed.

Lemma read_seen a p dst : rep a p -> roomy a -> in_range a -> N.of_nat (length dst) < room m ->
  m_read m i (seen a) dst = (let! (a', d, res) := read i a dst in guard a' (seen a', d, res)).
Proof.
  intros H F Hx Hd. pose proof (rp_pos _ _ _ _ _ H) as H1. pose proof (rp_end _ _ _ _ _ H) as H2.
  pose proof modulus_room as W. pose proof room_pos. unfold roomy in F.
  unfold m_read, read. fields. rewrite msub_csub, csub_ok by lia. cbn [obind]. unfold blen.
  replace (N.of_nat (length dst) <? N.of_nat (aend a - apos a)) with (length dst <? aend a - apos a)%nat by lia.
  replace (N.of_nat (length (abuf a)) <? N.of_nat (length dst)) with (length (abuf a) <? length dst)%nat by lia.
  change (mk_wacc (inner a) (abuf a) (N.of_nat (apos a)) (N.of_nat (aend a)) (N.of_nat (aindex a) mod 2 ^ bits m)) with (seen a).
  destruct (Nat.ltb_spec (length dst) (aend a - apos a)) as [Hlt|Hge].
  - rewrite madd_ok by lia. cbn [obind]. rewrite <- Nat2N.inj_add, wslice_slice, slice_ok by lia. cbn [obind].
    set (s := firstn _ (skipn (apos a) (abuf a))). destruct (slice_read s dst) as [dst' n] eqn:Es.
    apply slice_read_spec in Es. destruct Es as [Hn _].
    rewrite consume_seen by (try exact Hx; lia). cbn [obind]. unfold guard. destruct (checked m && _); reflexivity.
  - destruct (Nat.ltb_spec (length (abuf a)) (length dst)) as [Hbig|Hsm].
    + rewrite wslice_slice, slice_ok by lia. cbn [obind]. set (rem := (aend a - apos a)%nat) in *.
      set (s := firstn rem (skipn (apos a) (abuf a))).
      assert (Ls : length s = rem) by (unfold s; rewrite firstn_length, skipn_length; lia).
      destruct (slice_read s dst) as [dst1 n] eqn:Es. apply slice_read_spec in Es. destruct Es as [Hn [Hl _]].
      rewrite Ls, Nat.min_r in Hn by lia. subst n. rewrite wslice_slice, slice_ok by lia. cbn [obind].
      set (tail := firstn (length dst1 - rem) (skipn rem dst1)).
      assert (Lt : length tail = (length dst - rem)%nat) by (unfold tail; rewrite firstn_length, skipn_length; lia).
      destruct (io_read i (inner a) tail) as [[r' tail'] res] eqn:Er.
      destruct (so_read _ _ _ _ Hsrc _ _ _ _ _ (rp_good _ _ _ _ _ H) Er) as [Hg [_ Hres]]. rewrite Nat2N.id.
      set (b := mk_acc r' (abuf a) (apos a) (aend a) (aindex a)).
      change (mk_wacc r' (abuf a) (N.of_nat (apos a)) (N.of_nat (aend a)) (N.of_nat (aindex a) mod 2 ^ bits m)) with (seen b).
      destruct res as [k|e].
      * destruct Hres as [Hk _]. rewrite madd_ok by lia. cbn [obind]. rewrite <- Nat2N.inj_add.
        rewrite (consume_seen b) by (try exact Hx; unfold b; cbn [apos]; lia).
        unfold guard at 1. destruct (checked m && (modulus m <=? N.of_nat (aindex (consume b (k + rem))))) eqn:C.
        -- cbn [obind]. unfold reset_buffer_position, consume, b. cbn [inner apos aend abuf aindex].
           rewrite csub_ok by lia. cbn [obind]. replace (Nat.min (apos a + (k + rem)) (aend a)) with (aend a) by lia.
           rewrite Nat.sub_diag. cbn [obind Nat.ltb Nat.leb]. unfold guard. cbn [aindex]. cbn [consume b aindex] in C. rewrite C. reflexivity.
        -- cbn [obind]. rewrite reset_seen by (unfold consume, b; cbn [apos aend]; lia).
           unfold reset_buffer_position, consume, b. cbn [inner apos aend abuf aindex].
           rewrite csub_ok by lia. cbn [obind]. replace (Nat.min (apos a + (k + rem)) (aend a)) with (aend a) by lia.
           rewrite Nat.sub_diag. cbn [obind omap Nat.ltb Nat.leb]. unfold guard. cbn [aindex]. cbn [consume b aindex] in C. rewrite C, Nat2N.id. reflexivity.
      * cbn [obind]. rewrite guard_in by exact Hx. reflexivity.
    + rewrite (fill_seen a p H F). destruct (fill_rep i src good tell Hsrc a p H) as [a1 [res [E1 [H1' [L1 Hres]]]]].
      destruct (fill_start i src good tell Hsrc a a1 p res H E1) as [_ Ex]. rewrite E1. cbn [obind omap fst snd].
      assert (Hx1 : in_range a1) by (unfold in_range; rewrite Ex; exact Hx).
      destruct res as [d|e].
      * destruct Hres as [Hdt [Hb _]]. rewrite (data_rep src good tell a1 p H1') in Hdt. injection Hdt as <-.
        destruct (slice_read (firstn (buffered a1) (skipn p src)) dst) as [dst' n] eqn:Es. apply slice_read_spec in Es.
        rewrite (data_length src good tell a1 p H1') in Es. destruct Es as [Hn _]. unfold buffered in Hn.
        pose proof (rp_end _ _ _ _ _ H1'). pose proof (rp_pos _ _ _ _ _ H1').
        rewrite consume_seen by (try exact Hx1; lia). cbn [obind]. unfold guard. destruct (checked m && _); reflexivity.
      * cbn [obind]. rewrite guard_in by exact Hx1. reflexivity.
Qed.

(** ** Reading on *)

Lemma step_seen a p op : rep a p -> in_range a -> no_seek op -> call_within m op ->
  match op with AConsume n => exists d, data a = Ret d /\ (n <= length d)%nat | _ => True end ->
  N.of_nat (length (abuf a)) + match op with AGrow n => N.of_nat n | _ => 0 end < room m ->
  m_acc_step m i (seen a) op = (let! (a', o) := acc_step i a op in guard a' (seen a', o)).
Proof.
  intros H Hx Hs Hc Hl Hb. pose proof modulus_room as W. pose proof room_pos. pose proof (rp_pos _ _ _ _ _ H). pose proof (rp_end _ _ _ _ _ H).
  assert (F : roomy a) by (unfold roomy; lia).
  destruct op as [dst| |n|n| | | |s]; cbn [m_acc_step acc_step]; try contradiction.
  - rewrite (read_seen a p dst H F Hx Hc). destruct (read i a dst) as [[[a' d] res]| |]; cbn [obind]; [|reflexivity..].
    unfold guard. destruct (checked m && _); reflexivity.
  - rewrite (fill_seen a p H F). destruct (fill_buf i a) as [[a' res]| |] eqn:E; cbn [omap obind fst snd]; [|reflexivity..].
    destruct (fill_start i src good tell Hsrc a a' p res H E) as [_ Ex]. rewrite guard_in by (unfold in_range; rewrite Ex; exact Hx). reflexivity.
  - destruct Hl as [d [Hd Hn]]. rewrite (data_rep src good tell a p H) in Hd. injection Hd as <-.
    rewrite (data_length src good tell a p H) in Hn. unfold buffered in Hn.
    rewrite consume_seen by (try exact Hx; lia). cbn [obind]. unfold guard. destruct (checked m && _); reflexivity.
  - rewrite grow_seen by exact Hb. cbn [obind]. rewrite guard_in by exact Hx. reflexivity.
  - rewrite reset_seen by lia. destruct (reset_rep src good tell a p H) as [a1 [E1 [Hr1 _]]]. rewrite E1. cbn [omap obind].
    rewrite guard_in; [reflexivity|]. unfold in_range. rewrite (rp_index _ _ _ _ _ Hr1), <- (rp_index _ _ _ _ _ H). exact Hx.
  - unfold m_data, data. fields. rewrite wslice_slice. destruct (slice (abuf a) (apos a) (aend a)); cbn [obind]; [|reflexivity..].
    rewrite guard_in by exact Hx. reflexivity.
  - unfold m_capacity, capacity. fields. rewrite msub_csub, csub_ok by lia. cbn [obind]. rewrite Nat2N.id, guard_in by exact Hx. reflexivity.
Qed.

Lemma call_advances op : no_seek op -> forall p o p', call_spec src p op o p' -> (p <= p')%nat.
Proof.
  intros Hs p o p' H. destruct op as [dst| |n|n| | | |s]; try contradiction; destruct o as [d [k|e]|[d|e]| |d|n'|[q|e]]; cbn in H; try contradiction; try lia; destruct H as [_ H]; lia.
Qed.

Lemma run_advances ops : Forall no_seek ops -> forall p outs p', history_spec src p ops outs p' -> (p <= p')%nat.
Proof.
  induction 1 as [|op ops Hs _ IH]; intros p outs p' H; destruct outs as [|o outs]; cbn [history_spec] in H; try contradiction; [lia|].
  destruct H as [p1 [H1 H2]]. pose proof (call_advances op Hs _ _ _ H1). pose proof (IH _ _ _ H2). lia.
Qed.

Lemma run_seen ops : forall a p, rep a p -> in_range a -> Forall no_seek ops -> Forall (call_within m) ops -> acc_legal i a ops ->
  N.of_nat (length (abuf a)) + N.of_nat (grown ops) < room m ->
  m_acc_run m i (seen a) ops = (let! (a', outs) := acc_run i a ops in guard a' (seen a', outs)).
Proof.
  induction ops as [|op ops IH]; intros a p H Hx Hs Hc Hl Hb; cbn [m_acc_run acc_run].
  - cbn [obind]. rewrite guard_in by exact Hx. reflexivity.
  - cbn [acc_legal] in Hl. destruct Hl as [Hop Hnext]. inversion Hc as [|op' ops' Hc1 Hc2 Eo]; subst. inversion Hs as [|op' ops' Hs1 Hs2 Eo]; subst.
    assert (G : (grown (op :: ops) = match op with AGrow n => n | _ => 0 end + grown ops)%nat) by (destruct op; reflexivity).
    rewrite (step_seen a p op H Hx Hs1 Hc1); [|destruct op; exact Hop || exact I|rewrite G in Hb; destruct op; lia].
    destruct (step_rep i src good tell Hsrc a p op H Hop) as [a1 [o [p1 [E1 [H1 C1]]]]]. rewrite E1. cbn [obind].
    destruct (run_rep i src good tell Hsrc ops a1 p1 H1 (Hnext _ _ E1)) as [a2 [outs [p2 [E2 [H2 C2]]]]].
    unfold guard at 1. destruct (checked m && (modulus m <=? N.of_nat (aindex a1))) eqn:C.
    + cbn [obind]. rewrite E2. cbn [obind]. unfold guard. pose proof (run_advances ops Hs2 _ _ _ C2).
      rewrite (rp_index _ _ _ _ _ H2). rewrite (rp_index _ _ _ _ _ H1) in C. apply andb_true_iff in C. destruct C as [-> C].
      destruct (N.leb_spec (modulus m) (N.of_nat p2)); [reflexivity|lia].
    + cbn [obind]. rewrite (IH a1 p1 H1); [|intros Hk; rewrite Hk in C; cbn [andb] in C; lia|exact Hs2|exact Hc2|exact (Hnext _ _ E1)|].
      * rewrite E2. cbn [obind]. unfold guard. destruct (checked m && (modulus m <=? N.of_nat (aindex a2))); reflexivity.
      * rewrite (step_length i src good tell Hsrc a p op a1 o H ltac:(destruct op; exact I || contradiction) E1). lia.
Qed.

(** ** Sources below half the address space *)

Hypothesis Hseek : reports_within m i.
Hypothesis Hlen : N.of_nat (length src) < room m.
Hypothesis Hmax : bits m <= 64.

Record within (a : acc R) : Prop := {
  wi_index : N.of_nat (aindex a) < modulus m;
  wi_pos : (aindex a <= length src)%nat \/ apos a = 0%nat;
  wi_room : N.of_nat (length (abuf a)) < room m
}.

Lemma seen_within a : within a -> seen a = word_acc a.
Proof. intros F. unfold seen_on, word_acc. fold (modulus m). rewrite N.mod_small by apply F. reflexivity. Qed.

Lemma fill_within a a' p res : rep a p -> within a -> fill_buf i a = Ret (a', res) -> within a'.
Proof.
  intros H F E. destruct (fill_start i src good tell Hsrc a a' p res H E) as [Hp Hi].
  destruct (fill_rep i src good tell Hsrc a p H) as [a2 [res2 [E2 [H2 [L2 _]]]]]. rewrite E in E2. injection E2 as <- <-.
  constructor; [rewrite Hi; apply F|right; exact Hp|rewrite L2; apply F].
Qed.

Lemma consume_within a p n : rep a p -> within a -> (n <= aend a - apos a)%nat -> within (consume a n).
Proof.
  intros H F Hn. pose proof (rp_pos _ _ _ _ _ H). pose proof (rp_end _ _ _ _ _ H). pose proof (rp_avail _ _ _ _ _ H).
  pose proof (rp_index _ _ _ _ _ H). pose proof (wi_index _ F). pose proof (wi_room _ F) as Hr. pose proof (wi_pos _ F).
  pose proof modulus_room. constructor; cbn [consume aindex apos abuf aend]; [lia|lia|apply F].
Qed.

Lemma read_within a p dst a' dst' res : rep a p -> within a -> read i a dst = Ret (a', dst', res) -> within a'.
Proof.
  intros H F. pose proof (rp_pos _ _ _ _ _ H) as H1. pose proof (rp_end _ _ _ _ _ H) as H2. pose proof (rp_avail _ _ _ _ _ H) as H3.
  pose proof (wi_room _ F) as Hr. pose proof modulus_room as W.
  unfold read. rewrite csub_ok by lia. cbn [obind].
  destruct (Nat.ltb_spec (length dst) (aend a - apos a)) as [Hlt|Hge].
  - rewrite slice_ok by lia. cbn [obind]. set (s := firstn _ (skipn (apos a) (abuf a))).
    destruct (slice_read s dst) as [dst1 n] eqn:Es. apply slice_read_spec in Es. destruct Es as [Hn _].
    intros E. injection E as <- _ _. apply (consume_within a p n H F). lia.
  - destruct (Nat.ltb_spec (length (abuf a)) (length dst)) as [Hbig|Hsm].
    + rewrite slice_ok by lia. cbn [obind]. set (rem := (aend a - apos a)%nat) in *.
      set (s := firstn rem (skipn (apos a) (abuf a))).
      assert (Ls : length s = rem) by (unfold s; rewrite firstn_length, skipn_length; lia).
      destruct (slice_read s dst) as [dst1 n] eqn:Es. apply slice_read_spec in Es. destruct Es as [Hn [Hl _]].
      rewrite Ls, Nat.min_r in Hn by lia. subst n. rewrite slice_ok by lia. cbn [obind].
      set (tail := firstn (length dst1 - rem) (skipn rem dst1)).
      destruct (io_read i (inner a) tail) as [[r' tail'] rs] eqn:Er.
      destruct (so_read _ _ _ _ Hsrc _ _ _ _ _ (rp_good _ _ _ _ _ H) Er) as [Hg [_ Hres]].
      pose proof (rp_tell _ _ _ _ _ H) as Ht. fold rem in Ht. pose proof (rp_index _ _ _ _ _ H) as Hi.
      pose proof (wi_index _ F) as Hx. pose proof (wi_pos _ F) as Hp.
      destruct rs as [k|e].
      * destruct Hres as [Hk [Hks _]]. unfold reset_buffer_position, consume. cbn [inner apos aend abuf aindex].
        replace (Nat.min (apos a + (k + rem)) (aend a)) with (aend a) by lia.
        rewrite csub_ok, Nat.sub_diag by lia. cbn [obind Nat.ltb Nat.leb].
        intros E. injection E as <- _ _. constructor; cbn [aindex apos abuf]; [lia|right; reflexivity|apply F].
      * intros E. injection E as <- _ _. constructor; cbn [aindex apos abuf]; apply F.
    + destruct (fill_rep i src good tell Hsrc a p H) as [a1 [rs [E1 [H1' [L1 Hres]]]]].
      pose proof (fill_within a a1 p rs H F E1) as F1. rewrite E1. cbn [obind].
      destruct rs as [d|e].
      * destruct Hres as [Hdt [Hb _]]. rewrite (data_rep src good tell a1 p H1') in Hdt. injection Hdt as <-.
        destruct (slice_read (firstn (buffered a1) (skipn p src)) dst) as [d1 n] eqn:Es. apply slice_read_spec in Es.
        rewrite (data_length src good tell a1 p H1') in Es. destruct Es as [Hn _]. unfold buffered in Hn.
        intros E. injection E as <- _ _. apply (consume_within a1 p n H1' F1). lia.
      * intros E. injection E as <- _ _. exact F1.
Qed.

Lemma seek_inner_within a p s : rep a p -> within a ->
  m_seek_inner m i (seen a) s = omap (fun x => (seen (fst x), snd x)) (seek_inner i a s) /\
  forall a' res, seek_inner i a s = Ret (a', res) -> within a'.
Proof.
  intros H F. unfold m_seek_inner, seek_inner. fields.
  destruct (io_seek i (inner a) s) as [r' res] eqn:Es.
  destruct (so_seek _ _ _ _ Hsrc _ _ _ _ (rp_good _ _ _ _ _ H) Es) as [Hg Hs].
  destruct res as [sz|e].
  - destruct Hs as [Hsz Ht]. pose proof (Hseek _ _ _ _ Es) as Hq.
    assert (H0 : rep (mk_acc r' (abuf a) 0 0 sz) sz).
    { constructor; cbn [inner apos aend abuf aindex]; try lia; try assumption; try reflexivity. }
    assert (F0 : within (mk_acc r' (abuf a) 0 0 sz)).
    { constructor; cbn [apos abuf aindex]; [exact Hq|right; reflexivity|apply F]. }
    change (mk_wacc r' (abuf a) 0 0 (mcast m (N.of_nat sz))) with (seen (mk_acc r' (abuf a) 0 0 sz)).
    rewrite (fill_seen _ _ H0 (wi_room _ F0)). destruct (fill_rep i src good tell Hsrc _ _ H0) as [a1 [fr [Ef _]]].
    pose proof (fill_within _ _ _ _ H0 F0 Ef) as F1. rewrite Ef. cbn [omap obind fst snd].
    destruct fr as [d|e]; (split; [reflexivity|]; intros a' rs E; injection E as <- _; exact F1).
  - split; [reflexivity|]. intros a' rs E. injection E as <- _. constructor; cbn [apos abuf aindex]; apply F.
Qed.

Lemma seek_within a p s : rep a p -> within a -> call_within m (ASeek s) -> forward s ->
  m_seek m i (seen a) s = omap (fun x => (seen (fst x), snd x)) (seek i a s) /\
  forall a' res, seek i a s = Ret (a', res) -> within a'.
Proof.
  intros H F Hc Hf. pose proof (rp_pos _ _ _ _ _ H) as H1. pose proof (rp_end _ _ _ _ _ H) as H2. pose proof (rp_avail _ _ _ _ _ H) as H3.
  pose proof (rp_index _ _ _ _ _ H) as Hi. pose proof (wi_room _ F) as Hr. pose proof (wi_index _ F) as Hx. pose proof (wi_pos _ F) as Hp.
  pose proof modulus_room as W. pose proof room_pos as Hrp. pose proof (seen_within a F) as Es.
  destruct s as [mv|d|d]; unfold m_seek, seek; cbn [call_within] in Hc.
  - rewrite csub_ok by lia. cbn [obind]. fold (modulus m) in Hc. rewrite (mcast_ok (N.of_nat mv)) by exact Hc.
    rewrite Es. cbn [word_acc wa_end wa_pos wa_buf wa_inner wa_index].
    change (mk_wacc (inner a) (abuf a) (N.of_nat (apos a)) (N.of_nat (aend a)) (N.of_nat (aindex a))) with (word_acc a). rewrite <- Es.
    replace (N.of_nat (aindex a) <=? N.of_nat mv) with (aindex a <=? mv)%nat by lia.
    destruct (Nat.leb_spec (aindex a) mv) as [E1|E1]; cbn [andb].
    + rewrite madd_ok.
      2:{ destruct Hp as [Hp|Hp]; [lia|]. rewrite Hp in *. destruct (Nat.eq_dec (aend a) 0); lia. }
      cbn [obind]. rewrite <- Nat2N.inj_add, msub_csub by lia. cbn [obind].
      replace (N.of_nat mv <? N.of_nat (aindex a + aend a - apos a)) with (mv <? aindex a + aend a - apos a)%nat by lia.
      destruct (Nat.ltb_spec mv (aindex a + aend a - apos a)) as [E2|E2].
      * rewrite msub_csub by lia. cbn [obind]. rewrite madd_ok by lia. cbn [obind omap fst snd].
        split; [unfold seen_on; cbn [inner abuf apos aend aindex]; fold (modulus m); rewrite N.mod_small by exact Hc; rewrite <- Nat2N.inj_add, Nat2N.id; reflexivity|].
        intros a' rs E. injection E as <- _. constructor; cbn [apos abuf aindex]; [exact Hc|lia|apply F].
      * apply (seek_inner_within a p (Start mv) H F).
    + cbn [obind]. apply (seek_inner_within a p (Start mv) H F).
  - apply (seek_inner_within a p (End d) H F).
  - cbn [forward] in Hf. destruct Hc as [Hc1 Hc2].
    assert (Hdm : Z.to_N d < modulus m).
    { unfold modulus. apply N2Z.inj_lt. rewrite N2Z.inj_pow. rewrite Z2N.id by lia. exact Hc1. }
    rewrite (mcast_ok (Z.to_N d)) by exact Hdm.
    rewrite Es. cbn [word_acc wa_end wa_pos wa_buf wa_inner wa_index]. rewrite msub_csub, csub_ok by lia. cbn [obind].
    change (mk_wacc (inner a) (abuf a) (N.of_nat (apos a)) (N.of_nat (aend a)) (N.of_nat (aindex a))) with (word_acc a). rewrite <- Es.
    destruct (Z.leb_spec 0 d) as [Hd|Hd]; [|lia].
    replace (Z.to_N d <=? N.of_nat (aend a - apos a)) with (Z.to_nat d <=? aend a - apos a)%nat by lia.
    destruct (Nat.leb_spec (Z.to_nat d) (aend a - apos a)) as [Hin|Hout].
    + assert (E : Z.to_N d = N.of_nat (Z.to_nat d)) by lia. rewrite E.
      pose proof (consume_within a p (Z.to_nat d) H F Hin) as Fc. pose proof (wi_index _ Fc) as B. cbn [consume aindex] in B.
      rewrite !madd_ok by lia. cbn [obind omap fst snd aindex]. split.
      * rewrite <- !Nat2N.inj_add, Nat2N.id. unfold seen_on. cbn [inner abuf apos aend aindex]. fold (modulus m). rewrite N.mod_small by exact B. reflexivity.
      * intros a' rs E'. injection E' as <- _. unfold consume in Fc.
        replace (Nat.min (apos a + Z.to_nat d) (aend a)) with (apos a + Z.to_nat d)%nat in Fc by lia. exact Fc.
    + assert (Hr63 : room m <= 2 ^ 63). { unfold room. apply N.pow_le_mono_r; [discriminate|]. lia. }
      assert (E : as_i64 (N.of_nat (aend a - apos a)) = Z.of_nat (aend a - apos a)).
      { unfold as_i64, as_signed. change (2 ^ (64 - 1)) with (2 ^ 63).
        destruct (N.ltb_spec (N.of_nat (aend a - apos a)) (2 ^ 63)); lia. }
      rewrite E. unfold misub.
      destruct (Z.leb_spec (- 2 ^ 63) (d - Z.of_nat (aend a - apos a))); [|lia].
      destruct (Z.ltb_spec (d - Z.of_nat (aend a - apos a)) (2 ^ 63)); [|lia]. cbn [andb obind].
      apply (seek_inner_within a p (Current _) H F).
Qed.

Lemma step_within a p op : rep a p -> within a -> call_within m op ->
  match op with AConsume n => exists d, data a = Ret d /\ (n <= length d)%nat | ASeek s => forward s | _ => True end ->
  N.of_nat (length (abuf a)) + match op with AGrow n => N.of_nat n | _ => 0 end < room m ->
  m_acc_step m i (seen a) op = omap (fun x => (seen (fst x), snd x)) (acc_step i a op) /\
  forall a' o, acc_step i a op = Ret (a', o) -> within a'.
Proof.
  intros H F Hc Hl Hb.
  assert (W : forall a' o, acc_step i a op = Ret (a', o) -> within a').
  { intros a' o E. destruct op as [dst| |n|n| | | |s]; cbn [acc_step] in E.
    - destruct (read i a dst) as [[[a1 d1] rs]| |] eqn:Er; try discriminate E. injection E as <- _. exact (read_within _ _ _ _ _ _ H F Er).
    - destruct (fill_buf i a) as [[a1 rs]| |] eqn:Er; try discriminate E. injection E as <- _. exact (fill_within _ _ _ _ H F Er).
    - injection E as <- _. destruct Hl as [d [Hd Hn]]. rewrite (data_rep src good tell a p H) in Hd. injection Hd as <-.
      rewrite (data_length src good tell a p H) in Hn. exact (consume_within a p n H F Hn).
    - injection E as <- _. constructor; cbn [grow aindex apos abuf]; [apply F|apply F|]. rewrite app_length, repeat_length. lia.
    - destruct (reset_rep src good tell a p H) as [a1 [E1 [H1 [P1 [_ [L1 _]]]]]]. rewrite E1 in E. cbn [obind] in E. injection E as <- _.
      constructor; [rewrite (rp_index _ _ _ _ _ H1), <- (rp_index _ _ _ _ _ H); apply F|right; exact P1|rewrite L1; apply F].
    - destruct (data a); try discriminate E. injection E as <- _. exact F.
    - destruct (capacity a); try discriminate E. injection E as <- _. exact F.
    - destruct (seek i a s) as [[a1 rs]| |] eqn:Er; try discriminate E. injection E as <- _. exact (proj2 (seek_within a p s H F Hc Hl) _ _ Er). }
  split; [|exact W].
  assert (D : no_seek op \/ exists s, op = ASeek s) by (destruct op; [left; exact I..|right; eexists; reflexivity]).
  destruct D as [D|[s ->]].
  - rewrite (step_seen a p op H (fun _ => wi_index _ F) D Hc); [|destruct op; exact Hl || exact I|exact Hb].
    destruct (acc_step i a op) as [[a' o]| |] eqn:E; cbn [obind omap fst snd]; [|reflexivity..].
    apply guard_in. intros _. exact (wi_index _ (W _ _ eq_refl)).
  - cbn [m_acc_step acc_step]. destruct (seek_within a p s H F Hc Hl) as [E _]. rewrite E.
    destruct (seek i a s) as [[a' rs]| |]; reflexivity.
Qed.

Lemma run_within ops : forall a p, rep a p -> within a -> acc_legal i a ops -> Forall (call_within m) ops ->
  N.of_nat (length (abuf a)) + N.of_nat (grown ops) < room m ->
  m_acc_run m i (seen a) ops = (let! (a', outs) := acc_run i a ops in Ret (word_acc a', outs)).
Proof.
  induction ops as [|op ops IH]; intros a p H F Hl Hc Hb; cbn [m_acc_run acc_run].
  - rewrite (seen_within a F). reflexivity.
  - cbn [acc_legal] in Hl. destruct Hl as [Hop Hnext]. inversion Hc as [|op' ops' Hc1 Hc2 Eo]; subst.
    assert (G : (grown (op :: ops) = match op with AGrow n => n | _ => 0 end + grown ops)%nat) by (destruct op; reflexivity).
    destruct (step_within a p op H F Hc1 Hop) as [Es Hf]; [rewrite G in Hb; destruct op; lia|].
    destruct (step_rep i src good tell Hsrc a p op H Hop) as [a1 [o [p1 [E1 [H1 _]]]]].
    rewrite Es, E1. cbn [omap obind fst snd].
    rewrite (IH a1 p1 H1 (Hf _ _ E1) (Hnext _ _ E1) Hc2).
    + destruct (acc_run i a1 ops) as [[a2 os]| |]; reflexivity.
    + rewrite (step_length i src good tell Hsrc a p op a1 o H ltac:(destruct op; exact Hop || exact I) E1). lia.
Qed.

End Acc.

Lemma start_seen {R : Type} cap (r : R) : w_with_capacity (N.of_nat cap) r = seen (with_capacity cap r).
Proof.
  unfold w_with_capacity, with_capacity, seen_on. cbn [inner abuf apos aend aindex]. rewrite Nat2N.id. fold (modulus m).
  rewrite N.mod_small; [reflexivity|]. pose proof modulus_nz. lia.
Qed.

Lemma acc_within (R : Type) (i : io R) (src : list N) good tell r cap ops : bits m <= 64 ->
  source_ok i src good tell -> good r -> tell r = 0%nat -> reports_within m i ->
  acc_legal i (with_capacity cap r) ops -> Forall (call_within m) ops ->
  N.of_nat (length src) < 2 ^ (bits m - 1) -> N.of_nat cap + N.of_nat (grown ops) < 2 ^ (bits m - 1) ->
  m_acc_run m i (w_with_capacity (N.of_nat cap) r) ops =
  (let! (a, outs) := acc_run i (with_capacity cap r) ops in Ret (word_acc a, outs)).
Proof.
  intros Hm Hs Hg Ht Hu Hl Hc Hq Hb. rewrite start_seen. fold (room m) in *. pose proof modulus_room. pose proof room_pos.
  apply (run_within i src good tell Hs Hu Hq Hm ops (with_capacity cap r) 0%nat).
  - apply new_rep; assumption.
  - constructor; cbn [with_capacity aindex apos abuf]; [lia|right; reflexivity|rewrite repeat_length; lia].
  - exact Hl.
  - exact Hc.
  - cbn [with_capacity abuf]. rewrite repeat_length. exact Hb.
Qed.

Lemma acc_reading (R : Type) (i : io R) (src : list N) good tell r cap ops :
  source_ok i src good tell -> good r -> tell r = 0%nat -> Forall no_seek ops ->
  acc_legal i (with_capacity cap r) ops -> Forall (call_within m) ops -> N.of_nat cap + N.of_nat (grown ops) < 2 ^ (bits m - 1) ->
  m_acc_run m i (w_with_capacity (N.of_nat cap) r) ops =
  (let! (a, outs) := acc_run i (with_capacity cap r) ops in
   if checked m && (2 ^ bits m <=? N.of_nat (aindex a)) then Panic else Ret (seen_on m a, outs)).
Proof.
  intros Hs Hg Ht Hns Hl Hc Hb. rewrite start_seen. fold (room m) in *. pose proof modulus_nz.
  rewrite (run_seen i src good tell Hs ops (with_capacity cap r) 0%nat); try assumption; [reflexivity|..].
  - apply new_rep; assumption.
  - intros _. cbn [with_capacity aindex]. lia.
  - cbn [with_capacity abuf]. rewrite repeat_length. exact Hb.
Qed.
End Machine.
