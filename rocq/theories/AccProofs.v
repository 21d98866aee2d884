(** AccReader keeps a window on the source. *)
From Coq Require Import List Arith NArith ZArith Bool Lia.
From Coq Require Import ZifyBool ZifyNat ZifyN.
From Verif Require Import Base AccModel AccSpec.
Import ListNotations.
Local Open Scope nat_scope.

(** ** Lists *)

Lemma firstn_firstn_le : forall (A : Type) (l : list A) a b, a <= b -> firstn a (firstn b l) = firstn a l.
Proof. intros. rewrite firstn_firstn. f_equal. lia. Qed.

Lemma skipn_skipn_plus : forall (A : Type) (l : list A) a b, skipn a (skipn b l) = skipn (b + a) l.
Proof.
  intros A l a b. revert l. induction b as [|b IH]; intros l; [reflexivity|].
  destruct l as [|x l]; [rewrite !skipn_nil; reflexivity|]. apply IH.
Qed.

Lemma firstn_plus : forall (A : Type) (l : list A) a b, firstn (a + b) l = firstn a l ++ firstn b (skipn a l).
Proof.
  intros A l a b. revert l. induction a as [|a IH]; intros l; [reflexivity|].
  destruct l as [|x l]; [cbn; rewrite firstn_nil; reflexivity|]. cbn [Nat.add firstn skipn app]. rewrite IH. reflexivity.
Qed.

Lemma firstn_app_le : forall (A : Type) (a b : list A) n, n <= length a -> firstn n (a ++ b) = firstn n a.
Proof. intros. rewrite firstn_app. replace (n - length a) with 0 by lia. rewrite firstn_O, app_nil_r. reflexivity. Qed.

Lemma firstn_app_exact : forall (A : Type) (a b : list A) n, n = length a -> firstn n (a ++ b) = a.
Proof. intros A a b n ->. rewrite firstn_app_le by lia. apply firstn_all. Qed.

Lemma skipn_app_exact : forall (A : Type) (a b : list A) n, n = length a -> skipn n (a ++ b) = b.
Proof. intros A a b n ->. rewrite skipn_app, skipn_all, Nat.sub_diag. reflexivity. Qed.

Lemma slice_ok : forall (A : Type) (l : list A) a b, a <= b -> b <= length l -> slice l a b = Ret (firstn (b - a) (skipn a l)).
Proof.
  intros A l a b H1 H2. unfold slice. destruct (Nat.leb_spec a b); [|lia]. destruct (Nat.leb_spec b (length l)); [|lia].
  reflexivity.
Qed.

Lemma csub_ok : forall a b, b <= a -> csub a b = Ret (a - b).
Proof. intros a b H. unfold csub. destruct (Nat.leb_spec b a); [reflexivity|lia]. Qed.

Lemma slice_read_spec : forall s dst dst' n, slice_read s dst = (dst', n) ->
  n = Nat.min (length dst) (length s) /\ length dst' = length dst /\ firstn n dst' = firstn n s /\
  skipn n dst' = skipn n dst.
Proof.
  intros s dst dst' n H. unfold slice_read in H. apply pair_equal_spec in H. destruct H as [<- <-].
  set (m := Nat.min (length dst) (length s)).
  assert (L : length (firstn m s) = m) by (rewrite firstn_length; lia).
  split; [reflexivity|]. split; [rewrite app_length, L, skipn_length; lia|]. split.
  - rewrite firstn_app_exact by (symmetry; exact L). reflexivity.
  - rewrite skipn_app_exact by (symmetry; exact L). reflexivity.
Qed.

Section Rep.
Context {R : Type}.
Variable i : io R.
Variable src : list N.
Variable good : R -> Prop.
Variable tell : R -> nat.
Hypothesis Hsrc : source_ok i src good tell.

Record rep (a : acc R) (p : nat) : Prop := {
  rp_good : good (inner a);
  rp_pos : apos a <= aend a;
  rp_end : aend a <= length (abuf a);
  rp_index : aindex a = p;
  rp_avail : aend a - apos a <= length src - p;
  rp_win : firstn (aend a - apos a) (skipn (apos a) (abuf a)) = firstn (aend a - apos a) (skipn p src);
  rp_tell : tell (inner a) = p + (aend a - apos a)
}.

(** Number of buffered bytes. *)
Definition buffered (a : acc R) : nat := aend a - apos a.

Lemma new_rep : forall cap r, good r -> tell r = 0 -> rep (with_capacity cap r) 0.
Proof.
  intros cap r Hg Ht. constructor; cbn [with_capacity inner apos aend abuf aindex]; try lia; try assumption; try reflexivity.
Qed.

Lemma data_rep : forall a p, rep a p -> data a = Ret (firstn (buffered a) (skipn p src)).
Proof.
  intros a p H. unfold data. rewrite slice_ok by apply H. rewrite (rp_win _ _ H). reflexivity.
Qed.

Lemma data_length : forall a p, rep a p -> length (firstn (buffered a) (skipn p src)) = buffered a.
Proof.
  intros a p H. rewrite firstn_length, skipn_length. pose proof (rp_avail _ _ H). unfold buffered. lia.
Qed.

Lemma reset_rep : forall a p, rep a p -> exists a', reset_buffer_position a = Ret a' /\ rep a' p /\
  apos a' = 0 /\ aend a' = buffered a /\ length (abuf a') = length (abuf a) /\ inner a' = inner a /\
  buffered a' = buffered a.
Proof.
  intros a p H. pose proof (rp_pos _ _ H) as H1. pose proof (rp_end _ _ H) as H2. pose proof (rp_avail _ _ H) as H3.
  unfold reset_buffer_position. rewrite csub_ok by lia. cbn [obind].
  set (rem := aend a - apos a) in *.
  destruct (Nat.ltb_spec 0 rem) as [Hr|Hr].
  - rewrite slice_ok by lia. cbn [obind]. fold rem. eexists. split; [reflexivity|].
    assert (Lw : length (firstn rem (skipn (apos a) (abuf a))) = rem) by (rewrite firstn_length, skipn_length; lia).
    split; [|cbn; unfold buffered; cbn; split; [reflexivity|]; split; [reflexivity|];
             split; [rewrite app_length, Lw, skipn_length; lia|split; [reflexivity|lia]]].
    constructor; cbn [inner apos aend abuf aindex]; try apply H; try lia.
    + rewrite app_length, Lw. lia.
    + rewrite Nat.sub_0_r. cbn [skipn]. rewrite firstn_app_exact by (symmetry; exact Lw). apply (rp_win _ _ H).
    + rewrite (rp_tell _ _ H). fold rem. lia.
  - cbn [obind]. eexists. split; [reflexivity|].
    split; [|cbn; unfold buffered; cbn; repeat split; lia].
    constructor; cbn [inner apos aend abuf aindex]; try apply H; try lia.
    + replace (rem - 0) with 0 by lia. reflexivity.
    + rewrite (rp_tell _ _ H). fold rem. lia.
Qed.

Lemma grow_rep : forall a p n, rep a p -> rep (grow a n) p.
Proof.
  intros a p n H. pose proof (rp_pos _ _ H). pose proof (rp_end _ _ H). constructor; cbn [grow inner apos aend abuf aindex]; try apply H.
  - rewrite app_length. lia.
  - rewrite skipn_app. rewrite firstn_app_le; [apply (rp_win _ _ H)|]. rewrite skipn_length. lia.
Qed.

Lemma consume_rep : forall a p n, rep a p -> n <= buffered a -> rep (consume a n) (p + n) /\ buffered (consume a n) = buffered a - n.
Proof.
  intros a p n H Hn. pose proof (rp_pos _ _ H) as H1. pose proof (rp_end _ _ H). pose proof (rp_avail _ _ H). unfold buffered in Hn.
  assert (E : Nat.min (apos a + n) (aend a) = apos a + n) by lia.
  split; [|unfold buffered, consume; cbn; lia].
  constructor; cbn [consume inner apos aend abuf aindex]; rewrite ?E; try apply H; try lia.
  - pose proof (rp_index _ _ H). lia.
  - assert (W := rp_win _ _ H). apply (f_equal (skipn n)) in W.
    rewrite !skipn_firstn_comm, !skipn_skipn_plus in W.
    replace (aend a - (apos a + n)) with (aend a - apos a - n) by lia. exact W.
  - rewrite (rp_tell _ _ H). lia.
Qed.

(** [fill_buf] keeps the position and what is buffered, and reads on unless the
    window fills the whole buffer. *)
Lemma fill_rep : forall a p, rep a p -> exists a' res, fill_buf i a = Ret (a', res) /\ rep a' p /\
  length (abuf a') = length (abuf a) /\
  match res with
  | Okay d => data a' = Ret d /\ buffered a <= buffered a' /\
      (buffered a' = buffered a -> buffered a = length (abuf a) \/ length src <= p + buffered a)
  | Error _ => buffered a' = buffered a
  end.
Proof.
  intros a p H. unfold fill_buf.
  destruct (negb (apos a =? 0) || negb (aend a =? length (abuf a))) eqn:Ec.
  - destruct (reset_rep a p H) as [a1 [E1 [H1 [P1 [N1 [L1 [I1 B1]]]]]]]. rewrite E1. cbn [obind].
    rewrite slice_ok by (try apply H1; lia). cbn [obind].
    set (tail := firstn (length (abuf a1) - aend a1) (skipn (aend a1) (abuf a1))).
    assert (Lt : length tail = length (abuf a1) - aend a1) by (unfold tail; rewrite firstn_length, skipn_length; lia).
    destruct (io_read i (inner a1) tail) as [[r' tail'] res] eqn:Er.
    destruct (so_read _ _ _ _ Hsrc _ _ _ _ _ (rp_good _ _ H1) Er) as [Hg [Hl Hres]].
    pose proof (rp_end _ _ H1) as He. pose proof (rp_win _ _ H1) as Hw. pose proof (rp_tell _ _ H1) as Ht.
    pose proof (rp_avail _ _ H1) as Hav. rewrite P1 in Hw, Ht, Hav. rewrite Nat.sub_0_r in Hw, Ht, Hav. cbn [skipn] in Hw.
    assert (Lf : length (firstn (aend a1) (abuf a1)) = aend a1) by (rewrite firstn_length; lia).
    destruct res as [k|e].
    + destruct Hres as [Hk [Hks [Hd [Hz Htl]]]].
      assert (Lb : length (with_tail (abuf a1) (aend a1) tail') = length (abuf a1)).
      { unfold with_tail. rewrite app_length, Lf, Hl, Lt. lia. }
      assert (W : firstn (aend a1 + k) (with_tail (abuf a1) (aend a1) tail') = firstn (aend a1 + k) (skipn p src)).
      { rewrite !firstn_plus. unfold with_tail. rewrite firstn_app_exact by (symmetry; exact Lf).
        rewrite skipn_app_exact by (symmetry; exact Lf). rewrite Hd, Hw, skipn_skipn_plus, Ht. reflexivity. }
      cbn [abuf aend apos]. rewrite P1.
      rewrite slice_ok by (rewrite ?Lb; lia). cbn [obind]. eexists _, _. split; [reflexivity|].
      split.
      * constructor; cbn [inner apos aend abuf aindex]; rewrite ?Nat.sub_0_r; cbn [skipn].
        -- exact Hg.
        -- lia.
        -- rewrite Lb. lia.
        -- apply H1.
        -- rewrite Ht in Hks. lia.
        -- exact W.
        -- lia.
      * cbn [abuf]. rewrite Lb, L1. split; [reflexivity|]. split.
        -- unfold data. cbn [abuf apos aend]. rewrite slice_ok by (rewrite ?Lb; lia). reflexivity.
        -- unfold buffered at 2 3. cbn [apos aend]. rewrite Nat.sub_0_r, N1. split; [lia|].
           intros Hsame. assert (k = 0) by lia. destruct (Hz H0) as [H'|H']; [left; lia|right; lia].
    + eexists _, _. split; [reflexivity|]. cbn [abuf].
      assert (Lb : length (with_tail (abuf a1) (aend a1) tail') = length (abuf a1)).
      { unfold with_tail. rewrite app_length, Lf, Hl, Lt. lia. }
      split; [|split; [rewrite Lb, L1; reflexivity|unfold buffered in *; cbn [apos aend]; exact B1]].
      constructor; cbn [inner apos aend abuf aindex]; rewrite ?P1, ?Nat.sub_0_r; cbn [skipn]; try apply H1; try lia.
      * exact Hg.
      * unfold with_tail. rewrite firstn_app_exact by (symmetry; exact Lf). exact Hw.
  - apply orb_false_elim in Ec. destruct Ec as [E1 E2]. apply negb_false_iff in E1, E2.
    apply Nat.eqb_eq in E1, E2. rewrite slice_ok by apply H. cbn [obind].
    eexists _, _. split; [reflexivity|]. split; [exact H|]. split; [reflexivity|].
    split; [unfold data; rewrite slice_ok by apply H; reflexivity|]. split; [lia|].
    intros _. left. unfold buffered. lia.
Qed.

Lemma read_rep : forall a p dst, rep a p -> exists a' dst' res p', read i a dst = Ret (a', dst', res) /\ rep a' p' /\
  reads src p dst dst' res p' /\ length (abuf a') = length (abuf a).
Proof.
  intros a p dst H. pose proof (rp_pos _ _ H) as H1. pose proof (rp_end _ _ H) as H2. pose proof (rp_avail _ _ H) as H3.
  unfold read. rewrite csub_ok by lia. cbn [obind].
  destruct (Nat.ltb_spec (length dst) (aend a - apos a)) as [Hlt|Hge].
  - rewrite slice_ok by lia. cbn [obind]. replace (apos a + length dst - apos a) with (length dst) by lia.
    set (s := firstn (length dst) (skipn (apos a) (abuf a))).
    assert (Ls : length s = length dst) by (unfold s; rewrite firstn_length, skipn_length; lia).
    destruct (slice_read s dst) as [dst' n] eqn:Es. apply slice_read_spec in Es. destruct Es as [Hn [Hl [Hf _]]].
    rewrite Ls, Nat.min_id in Hn. subst n.
    destruct (consume_rep a p (length dst) H) as [H' _]; [unfold buffered; lia|].
    exists (consume a (length dst)), dst', (Okay (length dst)), (p + length dst).
    split; [reflexivity|]. split; [exact H'|]. split; [|reflexivity].
    split; [exact Hl|]. split; [lia|]. split; [lia|]. split; [|split; [lia|reflexivity]].
    rewrite Hf. unfold s. rewrite firstn_firstn_le by lia.
    pose proof (rp_win _ _ H) as W. apply (f_equal (firstn (length dst))) in W.
    rewrite !firstn_firstn_le in W by lia. exact W.
  - destruct (Nat.ltb_spec (length (abuf a)) (length dst)) as [Hbig|Hsm].
    + rewrite slice_ok by lia. cbn [obind]. set (rem := aend a - apos a) in *.
      set (s := firstn rem (skipn (apos a) (abuf a))).
      assert (Ls : length s = rem) by (unfold s; rewrite firstn_length, skipn_length; lia).
      destruct (slice_read s dst) as [dst1 n] eqn:Es. apply slice_read_spec in Es. destruct Es as [Hn [Hl [Hf Hk]]].
      rewrite Ls, Nat.min_r in Hn by lia. subst n.
      rewrite slice_ok by lia. cbn [obind].
      set (tail := firstn (length dst1 - rem) (skipn rem dst1)).
      assert (Lt : length tail = length dst - rem) by (unfold tail; rewrite firstn_length, skipn_length; lia).
      destruct (io_read i (inner a) tail) as [[r' tail'] res] eqn:Er.
      destruct (so_read _ _ _ _ Hsrc _ _ _ _ _ (rp_good _ _ H) Er) as [Hg [Hlt Hres]].
      pose proof (rp_tell _ _ H) as Ht. fold rem in Ht.
      assert (Lf : length (firstn rem dst1) = rem) by (rewrite firstn_length; lia).
      assert (Ld : length (with_tail dst1 rem tail') = length dst) by (unfold with_tail; rewrite app_length, Lf; lia).
      destruct res as [k|e].
      * destruct Hres as [Hkn [Hks [Hd [Hz Htl]]]].
        unfold reset_buffer_position, consume. cbn [inner apos aend abuf aindex].
        replace (Nat.min (apos a + (k + rem)) (aend a)) with (aend a) by lia.
        rewrite csub_ok, Nat.sub_diag by lia. cbn [obind Nat.ltb Nat.leb].
        eexists _, _, _, _. split; [reflexivity|]. cbn [abuf].
        split; [|split; [|reflexivity]].
        -- constructor; cbn [inner apos aend abuf aindex].
           ++ exact Hg.
           ++ lia.
           ++ lia.
           ++ rewrite (rp_index _ _ H). reflexivity.
           ++ lia.
           ++ reflexivity.
           ++ lia.
        -- split; [exact Ld|]. split; [lia|]. split; [lia|]. split; [|split; [lia|lia]].
           replace (k + rem) with (rem + k) by lia. rewrite !firstn_plus. unfold with_tail.
           rewrite firstn_app_exact by (symmetry; exact Lf). rewrite skipn_app_exact by (symmetry; exact Lf).
           rewrite Hd, Ht, skipn_skipn_plus. f_equal. rewrite Hf. unfold s. rewrite firstn_firstn_le by lia.
           apply (rp_win _ _ H).
      * eexists _, _, _, p. split; [reflexivity|]. cbn [abuf]. split; [|split; [split; [exact Ld|reflexivity]|reflexivity]].
        constructor; cbn [inner apos aend abuf aindex]; try apply H; try assumption. fold rem. lia.
    + destruct (fill_rep a p H) as [a1 [res [E1 [H1' [L1 Hres]]]]]. rewrite E1. cbn [obind].
      destruct res as [d|e].
      * destruct Hres as [Hd [Hb Hsame]]. rewrite (data_rep a1 p H1') in Hd. injection Hd as <-.
        destruct (slice_read (firstn (buffered a1) (skipn p src)) dst) as [dst' n] eqn:Es. apply slice_read_spec in Es.
        rewrite (data_length a1 p H1') in Es. destruct Es as [Hn [Hl [Hf _]]].
        destruct (consume_rep a1 p n H1' ltac:(lia)) as [H' _].
        eexists _, _, _, _. split; [reflexivity|]. split; [exact H'|]. split; [|exact L1].
        pose proof (rp_avail _ _ H1'). pose proof (rp_tell _ _ H1'). unfold buffered in *.
        split; [exact Hl|]. split; [lia|]. split; [lia|]. split; [rewrite Hf; apply firstn_firstn_le; lia|].
        split; [|reflexivity]. lia.
      * eexists _, _, _, p. split; [reflexivity|]. split; [exact H1'|]. split; [split; reflexivity|exact L1].
Qed.

Lemma seek_inner_rep : forall a p s q, rep a p -> target (length src) (tell (inner a)) s = q ->
  exists a' res, seek_inner i a s = Ret (a', res) /\ length (abuf a') = length (abuf a) /\
  match res with
  | Okay n => Z.of_nat n = q /\ rep a' n
  | Error _ => (rep a' p /\ buffered a' = buffered a) \/ exists n, Z.of_nat n = q /\ rep a' n
  end.
Proof.
  intros a p s q H Hq. unfold seek_inner. destruct (io_seek i (inner a) s) as [r' res] eqn:Es.
  destruct (so_seek _ _ _ _ Hsrc _ _ _ _ (rp_good _ _ H) Es) as [Hg Hs].
  destruct res as [sz|e].
  - destruct Hs as [Hsz Ht]. rewrite Hq in Hsz.
    assert (H0 : rep (mk_acc r' (abuf a) 0 0 sz) sz).
    { constructor; cbn [inner apos aend abuf aindex]; try lia; try assumption; try reflexivity. }
    destruct (fill_rep _ _ H0) as [a1 [fr [Ef [H1 [L1 _]]]]]. rewrite Ef. cbn [obind]. cbn [abuf] in L1.
    destruct fr as [d|e].
    + exists a1, (Okay sz). split; [reflexivity|]. split; [exact L1|]. split; assumption.
    + exists a1, (Error e). split; [reflexivity|]. split; [exact L1|]. right. exists sz. split; assumption.
  - exists (mk_acc r' (abuf a) (apos a) (aend a) (aindex a)), (Error e). split; [reflexivity|]. split; [reflexivity|].
    left. split; [|reflexivity]. constructor; cbn [inner apos aend abuf aindex]; try apply H; try assumption.
    cbn [seeks] in Hs. rewrite Hs. apply H.
Qed.

Lemma seek_rep : forall a p s, rep a p -> forward s ->
  exists a' res, seek i a s = Ret (a', res) /\ length (abuf a') = length (abuf a) /\
  match res with
  | Okay n => Z.of_nat n = target (length src) p s /\ rep a' n
  | Error _ => (rep a' p /\ buffered a' = buffered a) \/ exists n, Z.of_nat n = target (length src) p s /\ rep a' n
  end.
Proof.
  intros a p s H Hf. pose proof (rp_pos _ _ H) as H1. pose proof (rp_end _ _ H) as H2. pose proof (rp_avail _ _ H) as H3.
  pose proof (rp_index _ _ H) as Hi. unfold seek. destruct s as [mv|d|d].
  - rewrite csub_ok by lia. cbn [obind]. destruct ((aindex a <=? mv) && (mv <? aindex a + aend a - apos a)) eqn:E.
    + apply andb_prop in E. destruct E as [E1 E2]. apply Nat.leb_le in E1. apply Nat.ltb_lt in E2.
      exists (mk_acc (inner a) (abuf a) (apos a + (mv - aindex a)) (aend a) mv), (Okay mv).
      split; [reflexivity|]. split; [reflexivity|]. split; [reflexivity|].
      destruct (consume_rep a p (mv - aindex a) H) as [H' _]; [unfold buffered; lia|].
      unfold consume in H'. replace (Nat.min (apos a + (mv - aindex a)) (aend a)) with (apos a + (mv - aindex a)) in H' by lia.
      replace (aindex a + (mv - aindex a)) with mv in H' by lia. replace (p + (mv - aindex a)) with mv in H' by lia. exact H'.
    + apply (seek_inner_rep a p (Start mv)); [exact H|reflexivity].
  - apply (seek_inner_rep a p (End d)); [exact H|reflexivity].
  - rewrite csub_ok by lia. cbn [obind]. cbn [forward] in Hf. destruct (Z.leb_spec 0 d); [|lia].
    destruct (Nat.leb_spec (Z.to_nat d) (aend a - apos a)) as [Hin|Hout].
    + cbn [aindex]. exists (mk_acc (inner a) (abuf a) (apos a + Z.to_nat d) (aend a) (aindex a + Z.to_nat d)), (Okay (aindex a + Z.to_nat d)).
      split; [reflexivity|]. split; [reflexivity|]. split; [cbn [target]; lia|].
      destruct (consume_rep a p (Z.to_nat d) H) as [H' _]; [unfold buffered; lia|].
      unfold consume in H'. replace (Nat.min (apos a + Z.to_nat d) (aend a)) with (apos a + Z.to_nat d) in H' by lia.
      rewrite Hi in *. exact H'.
    + apply (seek_inner_rep a p _ (target (length src) p (Current d))); [exact H|]. cbn [target]. rewrite (rp_tell _ _ H). lia.
Qed.

(** ** Histories *)

Lemma step_rep : forall a p op, rep a p ->
  match op with
  | AConsume n => exists d, data a = Ret d /\ n <= length d
  | ASeek s => forward s
  | _ => True
  end ->
  exists a' o p', acc_step i a op = Ret (a', o) /\ rep a' p' /\ call_spec src p op o p'.
Proof.
  intros a p op H Hl. destruct op as [dst|  |n|n| | | |s]; cbn [acc_step].
  - destruct (read_rep a p dst H) as [a' [dst' [res [p' [E [H' [Hr _]]]]]]]. rewrite E. cbn [obind].
    exists a', (ORead dst' res), p'. split; [reflexivity|]. split; assumption.
  - destruct (fill_rep a p H) as [a' [res [E [H' [_ Hres]]]]]. rewrite E. cbn [obind].
    exists a', (OFill res), p. split; [reflexivity|]. split; [exact H'|]. destruct res as [d|e]; [|reflexivity].
    destruct Hres as [Hd _]. rewrite (data_rep a' p H') in Hd. injection Hd as <-. cbn [call_spec].
    rewrite (data_length a' p H'). split; reflexivity.
  - destruct Hl as [d [Hd Hn]]. rewrite (data_rep a p H) in Hd. injection Hd as <-. rewrite (data_length a p H) in Hn.
    exists (consume a n), OUnit, (p + n). split; [reflexivity|]. split; [apply consume_rep; assumption|reflexivity].
  - exists (grow a n), OUnit, p. split; [reflexivity|]. split; [apply grow_rep; assumption|reflexivity].
  - destruct (reset_rep a p H) as [a' [E [H' _]]]. rewrite E. cbn [obind].
    exists a', OUnit, p. split; [reflexivity|]. split; [exact H'|reflexivity].
  - rewrite (data_rep a p H). cbn [obind]. eexists a, _, p. split; [reflexivity|]. split; [exact H|].
    cbn [call_spec]. rewrite (data_length a p H). split; reflexivity.
  - unfold capacity. rewrite csub_ok by apply H. cbn [obind]. eexists a, _, p. split; [reflexivity|]. split; [exact H|].
    cbn [call_spec]. split; [apply H|reflexivity].
  - destruct (seek_rep a p s H Hl) as [a' [res [E [_ Hres]]]]. rewrite E. cbn [obind].
    destruct res as [q|e].
    + exists a', (OSeek (Okay q)), q. split; [reflexivity|]. destruct Hres as [Hq Hr]. split; [exact Hr|]. split; [exact Hq|reflexivity].
    + destruct Hres as [[Hr _]|[n [Hn Hr]]].
      * exists a', (OSeek (Error e)), p. split; [reflexivity|]. split; [exact Hr|]. left. reflexivity.
      * exists a', (OSeek (Error e)), n. split; [reflexivity|]. split; [exact Hr|]. right. exact Hn.
Qed.

Lemma run_rep : forall ops a p, rep a p -> acc_legal i a ops ->
  exists a' outs p', acc_run i a ops = Ret (a', outs) /\ rep a' p' /\ history_spec src p ops outs p'.
Proof.
  induction ops as [|op ops IH]; intros a p H Hl; cbn [acc_run].
  - exists a, [], p. split; [reflexivity|]. split; [exact H|reflexivity].
  - cbn [acc_legal] in Hl. destruct Hl as [Hop Hnext].
    destruct (step_rep a p op H Hop) as [a1 [o [p1 [E1 [H1 C1]]]]]. rewrite E1. cbn [obind].
    destruct (IH a1 p1 H1 (Hnext a1 o E1)) as [a2 [outs [p2 [E2 [H2 C2]]]]]. rewrite E2. cbn [obind].
    exists a2, (o :: outs), p2. split; [reflexivity|]. split; [exact H2|]. exists p1. split; assumption.
Qed.

(** ** [read_exact] *)

Lemma read_exact_rep : never_fails i src good tell -> forall fuel n a p, rep a p -> n <= fuel ->
  exists a' p', read_exact i fuel a n =
    Ret (a', Some (if n <=? length src - p then Okay (firstn n (skipn p src)) else Error UnexpectedEof)) /\ rep a' p' /\
    p' = (if n <=? length src - p then p + n else Nat.max p (length src)).
Proof.
  intros Hnf. induction fuel as [|fuel IH]; intros n a p H Hn.
  - assert (n = 0) by lia. subst n. cbn [read_exact Nat.leb]. exists a, p. split; [reflexivity|]. split; [exact H|lia].
  - destruct n as [|n]; [cbn [read_exact Nat.leb]; exists a, p; split; [reflexivity|]; split; [exact H|lia]|].
    cbn [read_exact]. destruct (read_rep a p (repeat 0%N (S n)) H) as [a1 [dst [res [p1 [E1 [H1 [[Hl Hr] _]]]]]]].
    assert (Hok : exists k, res = Okay k).
    { clear IH Hr Hl. unfold read in E1. rewrite csub_ok in E1 by apply H. cbn [obind] in E1.
      destruct (length (repeat 0%N (S n)) <? aend a - apos a).
      - destruct (slice (abuf a) (apos a) (apos a + length (repeat 0%N (S n)))) as [s| |]; try discriminate E1. cbn [obind] in E1.
        destruct (slice_read s (repeat 0%N (S n))) as [d' k]. injection E1 as _ _ <-. eauto.
      - destruct (length (abuf a) <? length (repeat 0%N (S n))).
        + destruct (slice (abuf a) (apos a) (aend a)) as [s| |]; try discriminate E1. cbn [obind] in E1.
          destruct (slice_read s (repeat 0%N (S n))) as [d' k].
          destruct (slice d' (aend a - apos a) (length d')) as [t| |]; try discriminate E1. cbn [obind] in E1.
          destruct (io_read i (inner a) t) as [[r' t'] res'] eqn:Er.
          destruct (proj1 Hnf _ _ _ _ _ (rp_good _ _ H) Er) as [k' ->].
          destruct (reset_buffer_position _) as [a2| |]; try discriminate E1. cbn [obind] in E1. injection E1 as _ _ <-. eauto.
        + unfold fill_buf in E1.
          destruct (negb (apos a =? 0) || negb (aend a =? length (abuf a))).
          * destruct (reset_rep a p H) as [a3 [E3 [H3 _]]]. rewrite E3 in E1. cbn [obind] in E1.
            destruct (slice (abuf a3) (aend a3) (length (abuf a3))) as [t| |]; try discriminate E1. cbn [obind] in E1.
            destruct (io_read i (inner a3) t) as [[r' t'] res'] eqn:Er.
            destruct (proj1 Hnf _ _ _ _ _ (rp_good _ _ H3) Er) as [k' ->]. cbn [abuf apos aend] in E1.
            destruct (slice _ _ _) as [d| |]; try discriminate E1. cbn [obind] in E1.
            destruct (slice_read d (repeat 0%N (S n))) as [d' k]. injection E1 as _ _ <-. eauto.
          * destruct (slice _ _ _) as [d| |]; try discriminate E1. cbn [obind] in E1.
            destruct (slice_read d (repeat 0%N (S n))) as [d' k]. injection E1 as _ _ <-. eauto. }
    rewrite E1. cbn [obind]. destruct Hok as [k ->]. destruct Hr as [Hk [Hks [Hd [Hz ->]]]]. rewrite repeat_length in Hk, Hz.
    destruct k as [|k].
    + destruct (Hz eq_refl) as [Hz'|Hz']; [discriminate|].
      destruct (Nat.leb_spec (S n) (length src - p)); [lia|].
      exists a1, p. split; [reflexivity|]. split; [rewrite Nat.add_0_r in H1; exact H1|lia].
    + rewrite (proj2 (Nat.leb_le (S k) (S n)) Hk). destruct (IH (S n - S k) a1 (p + S k) H1 ltac:(lia)) as [a2 [p2 [E2 [H2 Hp2]]]]. rewrite E2. cbn [obind].
      revert Hp2. destruct (Nat.leb_spec (S n) (length src - p)); destruct (Nat.leb_spec (S n - S k) (length src - (p + S k))); try lia; intros Hp2.
      * exists a2, p2. split; [|split; [exact H2|lia]].
        replace (firstn (S n) (skipn p src)) with (firstn (S k) (skipn p src) ++ firstn (S n - S k) (skipn (S k) (skipn p src)))
          by (rewrite <- firstn_plus; f_equal; lia).
        rewrite Hd, skipn_skipn_plus. reflexivity.
      * exists a2, p2. split; [reflexivity|]. split; [exact H2|lia].
Qed.

End Rep.
