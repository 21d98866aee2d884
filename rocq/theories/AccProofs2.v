(** The AccReader properties. *)
From Coq Require Import List Arith NArith ZArith Bool Lia.
From Coq Require Import ZifyBool ZifyNat ZifyN.
From Verif Require Import Base AccModel AccSpec AccProofs.
Import ListNotations.
Local Open Scope nat_scope.

Section Histories.
Context {R : Type}.
Variable i : io R.
Variable src : list N.
Variable good : R -> Prop.
Variable tell : R -> nat.
Hypothesis Hsrc : source_ok i src good tell.

Notation rep := (rep src good tell).

Lemma acc_history : forall cap r0 ops, good r0 -> tell r0 = 0 -> acc_legal i (with_capacity cap r0) ops ->
  exists a outs p, acc_run i (with_capacity cap r0) ops = Ret (a, outs) /\ history_spec src 0 ops outs p.
Proof.
  intros cap r0 ops Hg Ht Hl.
  destruct (run_rep i src good tell Hsrc ops _ 0 (new_rep src good tell cap r0 Hg Ht) Hl) as [a [outs [p [E [_ C]]]]].
  exists a, outs, p. split; assumption.
Qed.

(** The state after a history. *)
Lemma reached : forall cap r0 ops a outs, good r0 -> tell r0 = 0 -> acc_legal i (with_capacity cap r0) ops ->
  acc_run i (with_capacity cap r0) ops = Ret (a, outs) ->
  exists p, rep a p /\ history_spec src 0 ops outs p.
Proof.
  intros cap r0 ops a outs Hg Ht Hl E.
  destruct (run_rep i src good tell Hsrc ops _ 0 (new_rep src good tell cap r0 Hg Ht) Hl) as [a' [outs' [p [E' [H C]]]]].
  rewrite E in E'. injection E' as <- <-. exists p. split; assumption.
Qed.

Lemma fill_never_fails : never_fails i src good tell -> forall a p, rep a p ->
  exists a' d, fill_buf i a = Ret (a', Okay d) /\ rep a' p.
Proof.
  intros Hnf a p H. destruct (fill_rep i src good tell Hsrc a p H) as [a' [res [E [H' [_ Hres]]]]].
  destruct res as [d|e]; [exists a', d; split; assumption|]. exfalso.
  unfold fill_buf in E. destruct (negb (apos a =? 0) || negb (aend a =? length (abuf a))).
  - destruct (reset_rep src good tell a p H) as [a1 [E1 [H1 _]]]. rewrite E1 in E. cbn [obind] in E.
    destruct (slice (abuf a1) (aend a1) (length (abuf a1))) as [t| |]; try discriminate E. cbn [obind] in E.
    destruct (io_read i (inner a1) t) as [[r' t'] res'] eqn:Er.
    destruct (proj1 Hnf _ _ _ _ _ (rp_good _ _ _ _ _ H1) Er) as [k ->]. cbn [abuf apos aend] in E.
    destruct (slice _ _ _) as [d| |]; discriminate E.
  - destruct (slice _ _ _) as [d| |]; discriminate E.
Qed.

Lemma seek_never_fails : never_fails i src good tell -> forall a p s q, rep a p -> forward s ->
  Z.of_nat q = target (length src) p s -> exists a', seek i a s = Ret (a', Okay q) /\ rep a' q.
Proof.
  intros Hnf a p s q H Hf Hq. destruct (seek_rep i src good tell Hsrc a p s H Hf) as [a' [res [E [_ Hres]]]].
  destruct res as [n|e].
  - destruct Hres as [Hn Hr]. assert (n = q) by lia. subst n. exists a'. split; assumption.
  - exfalso.
    assert (G : forall s', target (length src) (tell (inner a)) s' = Z.of_nat q -> seek_inner i a s' <> Ret (a', Error e)).
    { intros s' Hs' E'. unfold seek_inner in E'. destruct (io_seek i (inner a) s') as [r' res] eqn:Es.
      destruct (proj2 Hnf _ _ _ _ (rp_good _ _ _ _ _ H) Es ltac:(rewrite Hs'; lia)) as [n ->].
      destruct (so_seek _ _ _ _ Hsrc _ _ _ _ (rp_good _ _ _ _ _ H) Es) as [Hg [Hn Ht]].
      assert (Hr0 : rep (mk_acc r' (abuf a) 0 0 n) n).
      { constructor; cbn [inner apos aend abuf aindex]; try lia; try assumption; try reflexivity. }
      destruct (fill_never_fails Hnf _ _ Hr0) as [a1 [d [Ef _]]]. rewrite Ef in E'. discriminate E'. }
    pose proof (rp_pos _ _ _ _ _ H). pose proof (rp_tell _ _ _ _ _ H) as Ht.
    unfold seek in E. destruct s as [mv|d|d].
    + rewrite csub_ok in E by lia. cbn [obind] in E. destruct ((aindex a <=? mv) && (mv <? aindex a + aend a - apos a)); [discriminate|].
      apply (G (Start mv)); [symmetry; exact Hq|exact E].
    + apply (G (End d)); [symmetry; exact Hq|exact E].
    + rewrite csub_ok in E by lia. cbn [obind] in E. cbn [forward] in Hf. destruct (Z.leb_spec 0 d); [|lia].
      destruct (Z.to_nat d <=? aend a - apos a); [discriminate|].
      apply (G (Current (d - Z.of_nat (aend a - apos a)))); [cbn [target] in *; lia|exact E].
Qed.

Notation observed := (delivers i src).

Lemma rep_observed : never_fails i src good tell -> forall a p, rep a p -> observed a p.
Proof.
  intros Hnf a p H n. destruct (read_exact_rep i src good tell Hsrc Hnf n n a p H (le_n n)) as [a' [p' [E _]]].
  exists a'. exact E.
Qed.

Lemma seek_lands : forall cap r0 ops a outs, good r0 -> tell r0 = 0 -> never_fails i src good tell ->
  acc_legal i (with_capacity cap r0) ops -> acc_run i (with_capacity cap r0) ops = Ret (a, outs) ->
  exists p, history_spec src 0 ops outs p /\
    forall s q, forward s -> Z.of_nat q = target (length src) p s ->
      exists a', seek i a s = Ret (a', Okay q) /\ observed a' q.
Proof.
  intros cap r0 ops a outs Hg Ht Hnf Hl E. destruct (reached cap r0 ops a outs Hg Ht Hl E) as [p [H C]].
  exists p. split; [exact C|]. intros s q Hf Hq. destruct (seek_never_fails Hnf a p s q H Hf Hq) as [a' [Es H']].
  exists a'. split; [exact Es|]. apply rep_observed; assumption.
Qed.

Lemma position_reported : forall cap r0 ops a outs, good r0 -> tell r0 = 0 ->
  acc_legal i (with_capacity cap r0) ops -> acc_run i (with_capacity cap r0) ops = Ret (a, outs) ->
  exists p, history_spec src 0 ops outs p /\ seek i a (Current 0) = Ret (a, Okay p) /\
    (never_fails i src good tell -> observed a p).
Proof.
  intros cap r0 ops a outs Hg Ht Hl E. destruct (reached cap r0 ops a outs Hg Ht Hl E) as [p [H C]].
  exists p. split; [exact C|]. split; [|intros Hnf; apply rep_observed; assumption].
  cbn [seek]. rewrite csub_ok by apply H. cbn [obind Z.leb Z.compare Z.to_nat Nat.leb].
  pose proof (rp_index _ _ _ _ _ H) as Hi. destruct a as [r b x y z]. cbn [inner abuf apos aend aindex] in *.
  rewrite !Nat.add_0_r, Hi. reflexivity.
Qed.

(** What a backward relative seek really does. *)
Lemma backward_seek : forall cap r0 ops a outs d, good r0 -> tell r0 = 0 -> never_fails i src good tell ->
  acc_legal i (with_capacity cap r0) ops -> acc_run i (with_capacity cap r0) ops = Ret (a, outs) -> (d < 0)%Z ->
  exists p c, history_spec src 0 ops outs p /\ capacity a = Ret c /\
    forall q, Z.of_nat q = (Z.of_nat p + Z.of_nat c + d)%Z -> exists a', seek i a (Current d) = Ret (a', Okay q) /\ observed a' q.
Proof.
  intros cap r0 ops a outs d Hg Ht Hnf Hl E Hd. destruct (reached cap r0 ops a outs Hg Ht Hl E) as [p [H C]].
  exists p, (buffered a). split; [exact C|]. split; [unfold capacity; rewrite csub_ok by apply H; reflexivity|].
  intros q Hq. cbn [seek]. rewrite csub_ok by apply H. cbn [obind]. destruct (Z.leb_spec 0 d) as [Hneg|_]; [lia|].
  pose proof (rp_tell _ _ _ _ _ H) as Htl.
  unfold seek_inner. destruct (io_seek i (inner a) (Current d)) as [r' res] eqn:Es.
  assert (T : target (length src) (tell (inner a)) (Current d) = Z.of_nat q).
  { cbn [target]. unfold buffered in Hq. lia. }
  destruct (proj2 Hnf _ _ _ _ (rp_good _ _ _ _ _ H) Es ltac:(rewrite T; lia)) as [n ->].
  destruct (so_seek _ _ _ _ Hsrc _ _ _ _ (rp_good _ _ _ _ _ H) Es) as [Hgr [Hn Htr]].
  assert (n = q) as -> by lia.
  assert (Hr0 : rep (mk_acc r' (abuf a) 0 0 q) q).
  { constructor; cbn [inner apos aend abuf aindex]; try lia; try assumption; try reflexivity. }
  destruct (fill_never_fails Hnf _ _ Hr0) as [a1 [dd [Ef H1]]]. exists a1. split; [|apply rep_observed; assumption].
  cbn [obind]. rewrite Ef. reflexivity.
Qed.

Lemma backward_seek_unbuffered : forall cap r0 ops a outs d, good r0 -> tell r0 = 0 -> never_fails i src good tell ->
  acc_legal i (with_capacity cap r0) ops -> acc_run i (with_capacity cap r0) ops = Ret (a, outs) -> (d < 0)%Z ->
  capacity a = Ret 0 ->
  exists p, history_spec src 0 ops outs p /\
    forall q, Z.of_nat q = (Z.of_nat p + d)%Z -> exists a', seek i a (Current d) = Ret (a', Okay q) /\ observed a' q.
Proof.
  intros cap r0 ops a outs d Hg Ht Hnf Hl E Hd Hc.
  destruct (backward_seek cap r0 ops a outs d Hg Ht Hnf Hl E Hd) as [p [c [C [Hc' G]]]].
  rewrite Hc in Hc'. injection Hc' as <-. exists p. split; [exact C|]. intros q Hq. apply G. lia.
Qed.

Lemma grow_reset_transparent : forall cap r0 ops a outs, good r0 -> tell r0 = 0 ->
  acc_legal i (with_capacity cap r0) ops -> acc_run i (with_capacity cap r0) ops = Ret (a, outs) ->
  exists p d, history_spec src 0 ops outs p /\ data a = Ret d /\ seek i a (Current 0) = Ret (a, Okay p) /\
    (forall n, data (grow a n) = Ret d /\ seek i (grow a n) (Current 0) = Ret (grow a n, Okay p) /\
       (0 < n -> forall a' d', fill_buf i (grow a n) = Ret (a', Okay d') ->
          exists more, d' = d ++ more /\ (p + length d < length src -> more <> []))) /\
    (exists a', reset_buffer_position a = Ret a' /\ data a' = Ret d /\ seek i a' (Current 0) = Ret (a', Okay p)).
Proof.
  intros cap r0 ops a outs Hg Ht Hl E. destruct (reached cap r0 ops a outs Hg Ht Hl E) as [p [H C]].
  assert (Cur : forall b, rep b p -> seek i b (Current 0) = Ret (b, Okay p)).
  { intros b Hb. cbn [seek]. rewrite csub_ok by apply Hb. cbn [obind Z.leb Z.compare Z.to_nat Nat.leb].
    pose proof (rp_index _ _ _ _ _ Hb) as Hi. destruct b as [r b x y z]. cbn [inner abuf apos aend aindex] in *.
    rewrite !Nat.add_0_r, Hi. reflexivity. }
  exists p, (firstn (buffered a) (skipn p src)). split; [exact C|]. split; [apply data_rep with (good := good) (tell := tell); exact H|].
  split; [apply Cur; exact H|]. split.
  - intros n. pose proof (grow_rep src good tell a p n H) as Hgr.
    split; [apply (data_rep src good tell (grow a n) p Hgr)|]. split; [apply Cur; exact Hgr|].
    intros Hn a' d' Ef. destruct (fill_rep i src good tell Hsrc _ p Hgr) as [a2 [res [Ef' [H2 [L2 Hres]]]]].
    rewrite Ef in Ef'. injection Ef' as <- <-. destruct Hres as [Hd [Hle Hsame]].
    rewrite (data_rep src good tell a' p H2) in Hd. injection Hd as <-.
    change (buffered (grow a n)) with (buffered a) in *.
    exists (firstn (buffered a' - buffered a) (skipn (buffered a) (skipn p src))). split.
    + rewrite <- firstn_plus. f_equal. lia.
    + intros Hlt Hnil. rewrite (data_length src good tell a p H) in Hlt.
      apply (f_equal (@length N)) in Hnil. rewrite firstn_length, !skipn_length in Hnil. cbn [length] in Hnil.
      pose proof (rp_avail _ _ _ _ _ H2). change (aend a' - apos a') with (buffered a') in *.
      pose proof (rp_end _ _ _ _ _ H). pose proof (rp_pos _ _ _ _ _ H).
      assert (Hb : buffered a' = buffered a) by lia.
      destruct (Hsame Hb) as [Hfull|Hend]; [|lia].
      cbn [grow abuf] in Hfull. rewrite app_length, repeat_length in Hfull. unfold buffered in Hfull. lia.
  - destruct (reset_rep src good tell a p H) as [a' [Er [H' [_ [_ [_ [_ Hb]]]]]]]. exists a'. split; [exact Er|].
    split; [|apply Cur; exact H']. rewrite <- Hb. apply (data_rep src good tell a' p H').
Qed.

Lemma read_exact_whole : forall cap r0 ops a outs n, good r0 -> tell r0 = 0 -> never_fails i src good tell ->
  acc_legal i (with_capacity cap r0) ops -> acc_run i (with_capacity cap r0) ops = Ret (a, outs) ->
  exists p, history_spec src 0 ops outs p /\
    (n <= length src - p -> exists a', read_exact i n a n = Ret (a', Some (Okay (firstn n (skipn p src)))) /\
       seek i a' (Current 0) = Ret (a', Okay (p + n))) /\
    (length src - p < n -> exists a', read_exact i n a n = Ret (a', Some (Error UnexpectedEof))).
Proof.
  intros cap r0 ops a outs n Hg Ht Hnf Hl E. destruct (reached cap r0 ops a outs Hg Ht Hl E) as [p [H C]].
  exists p. split; [exact C|].
  destruct (read_exact_rep i src good tell Hsrc Hnf n n a p H (le_n n)) as [a' [p' [Er [H' Hp]]]].
  destruct (Nat.leb_spec n (length src - p)) as [Hle|Hgt].
  - split; [|lia]. intros _. exists a'. split; [exact Er|]. subst p'.
    cbn [seek]. rewrite csub_ok by apply H'. cbn [obind Z.leb Z.compare Z.to_nat Nat.leb].
    pose proof (rp_index _ _ _ _ _ H') as Hi. destruct a' as [r b x y z]. cbn [inner abuf apos aend aindex] in *.
    rewrite !Nat.add_0_r, Hi. reflexivity.
  - split; [lia|]. intros _. exists a'. exact Er.
Qed.

(** ** Bounds *)

Lemma step_size : forall a p op a' o, rep a p ->
  match op with AConsume n => exists d, data a = Ret d /\ n <= length d | ASeek s => forward s | _ => True end ->
  acc_step i a op = Ret (a', o) -> length (abuf a') = length (abuf a) + grown [op].
Proof.
  intros a p op a' o H Hl E. destruct op as [dst|  |n|n| | | |s]; cbn [acc_step grown] in *; rewrite ?Nat.add_0_r.
  - destruct (read_rep i src good tell Hsrc a p dst H) as [a1 [dst' [res [p' [E1 [_ [_ L]]]]]]]. rewrite E1 in E.
    cbn [obind] in E. injection E as <- _. exact L.
  - destruct (fill_rep i src good tell Hsrc a p H) as [a1 [res [E1 [_ [L _]]]]]. rewrite E1 in E.
    cbn [obind] in E. injection E as <- _. exact L.
  - injection E as <- _. reflexivity.
  - injection E as <- _. cbn [grow abuf]. rewrite app_length, repeat_length. reflexivity.
  - destruct (reset_rep src good tell a p H) as [a1 [E1 [_ [_ [_ [L _]]]]]]. rewrite E1 in E.
    cbn [obind] in E. injection E as <- _. exact L.
  - destruct (data a); try discriminate E. injection E as <- _. reflexivity.
  - destruct (capacity a); try discriminate E. injection E as <- _. reflexivity.
  - destruct (seek_rep i src good tell Hsrc a p s H Hl) as [a1 [res [E1 [L _]]]]. rewrite E1 in E.
    cbn [obind] in E. injection E as <- _. exact L.
Qed.

Lemma run_size : forall ops a p a' outs, rep a p -> acc_legal i a ops -> acc_run i a ops = Ret (a', outs) ->
  length (abuf a') = length (abuf a) + grown ops.
Proof.
  induction ops as [|op ops IH]; intros a p a' outs H Hl E; cbn [acc_run] in E.
  - injection E as <- _. cbn [grown]. lia.
  - cbn [acc_legal] in Hl. destruct Hl as [Hop Hnext].
    destruct (step_rep i src good tell Hsrc a p op H Hop) as [a1 [o [p1 [E1 [H1 _]]]]].
    pose proof (step_size a p op a1 o H Hop E1) as S1. rewrite E1 in E. cbn [obind] in E.
    destruct (acc_run i a1 ops) as [[a2 os]| |] eqn:E2; try discriminate E. cbn [obind] in E. injection E as <- _.
    rewrite (IH a1 p1 a2 os H1 (Hnext a1 o E1) E2), S1.
    destruct op; cbn [grown]; lia.
Qed.

Lemma window_bounds : forall cap r0 ops, good r0 -> tell r0 = 0 -> acc_legal i (with_capacity cap r0) ops ->
  exists a outs, acc_run i (with_capacity cap r0) ops = Ret (a, outs) /\
    apos a <= aend a <= length (abuf a) /\ length (abuf a) = cap + grown ops.
Proof.
  intros cap r0 ops Hg Ht Hl. pose proof (new_rep src good tell cap r0 Hg Ht) as H0.
  destruct (run_rep i src good tell Hsrc ops _ 0 H0 Hl) as [a [outs [p [E [H C]]]]].
  exists a, outs. split; [exact E|]. split; [split; apply H|].
  rewrite (run_size ops _ 0 a outs H0 Hl E). cbn [with_capacity abuf]. rewrite repeat_length. reflexivity.
Qed.

(** ** Failures *)

Lemma seek_error : forall a s a' e, seek i a s = Ret (a', Error e) -> exists s', seek_inner i a s' = Ret (a', Error e).
Proof.
  intros a s a' e E. unfold seek in E. destruct s as [n|d|d].
  - destruct (csub _ _) as [x| |]; try discriminate E. cbn [obind] in E.
    destruct ((aindex a <=? n) && (n <? x)); [discriminate E|]. eauto.
  - eauto.
  - destruct (csub _ _) as [x| |]; try discriminate E. cbn [obind] in E.
    destruct (0 <=? d)%Z; [|eauto]. destruct (Z.to_nat d <=? x); [discriminate E|]. eauto.
Qed.

Lemma failure_safe : forall cap r0 ops a outs, good r0 -> tell r0 = 0 ->
  acc_legal i (with_capacity cap r0) ops -> acc_run i (with_capacity cap r0) ops = Ret (a, outs) ->
  exists p d, history_spec src 0 ops outs p /\ data a = Ret d /\
    (forall a' e, fill_buf i a = Ret (a', Error e) \/
                  (exists dst dst', read i a dst = Ret (a', dst', Error e)) \/
                  (exists s, seek i a s = Ret (a', Error e) /\ forall s', exists r' e', io_seek i (inner a) s' = (r', Error e')) ->
       data a' = Ret d /\ seek i a' (Current 0) = Ret (a', Okay p) /\
       (forall ops2, acc_legal i a' ops2 ->
          exists a2 outs2 p2, acc_run i a' ops2 = Ret (a2, outs2) /\ history_spec src p ops2 outs2 p2)).
Proof.
  intros cap r0 ops a outs Hg Ht Hl E. destruct (reached cap r0 ops a outs Hg Ht Hl E) as [p [H C]].
  exists p, (firstn (buffered a) (skipn p src)). split; [exact C|]. split; [apply (data_rep src good tell a p H)|].
  intros a' e Hcase.
  assert (G : rep a' p /\ buffered a' = buffered a).
  { destruct Hcase as [Ef|[[dst [dst' Er]]|[s [Es Hall]]]].
    - destruct (fill_rep i src good tell Hsrc a p H) as [a1 [res [E1 [H1 [_ Hres]]]]]. rewrite Ef in E1. injection E1 as <- <-.
      split; assumption.
    - destruct (read_rep i src good tell Hsrc a p dst H) as [a1 [dst1 [res [p1 [E1 [H1 [[_ Hr] _]]]]]]].
      rewrite Er in E1. injection E1 as <- <- <-. subst p1. split; [exact H1|].
      pose proof (rp_tell _ _ _ _ _ H) as T0. 
      unfold read in Er. rewrite csub_ok in Er by apply H. cbn [obind] in Er.
      destruct (length dst <? aend a - apos a).
      + destruct (slice (abuf a) (apos a) (apos a + length dst)) as [w| |]; discriminate Er.
      + destruct (length (abuf a) <? length dst).
        * destruct (slice (abuf a) (apos a) (aend a)) as [w| |]; try discriminate Er. cbn [obind] in Er.
          destruct (slice_read w dst) as [d1 k]. destruct (slice d1 _ _) as [t| |]; try discriminate Er. cbn [obind] in Er.
          destruct (io_read i (inner a) t) as [[r' t'] [k'|e']].
          -- destruct (reset_buffer_position _); discriminate Er.
          -- injection Er as <- _ _. reflexivity.
        * destruct (fill_rep i src good tell Hsrc a p H) as [a1 [res [E1 [_ [_ Hres]]]]]. rewrite E1 in Er. cbn [obind] in Er.
          destruct res as [d|e']; [destruct (slice_read d dst); discriminate Er|].
          injection Er as <- _ _. exact Hres.
    - destruct (seek_error a s a' e Es) as [s' Es']. destruct (Hall s') as [r' [e' Ei]].
      unfold seek_inner in Es'. rewrite Ei in Es'. injection Es' as <- _.
      destruct (so_seek _ _ _ _ Hsrc _ _ _ _ (rp_good _ _ _ _ _ H) Ei) as [Hgr Hs]. cbn [seeks] in Hs.
      split; [|reflexivity]. constructor; cbn [inner apos aend abuf aindex]; try apply H; try assumption.
      rewrite Hs. apply H. }
  destruct G as [H' Hb]. split; [rewrite <- Hb; apply (data_rep src good tell a' p H')|]. split.
  - cbn [seek]. rewrite csub_ok by apply H'. cbn [obind Z.leb Z.compare Z.to_nat Nat.leb].
    pose proof (rp_index _ _ _ _ _ H') as Hi. destruct a' as [r b x y z]. cbn [inner abuf apos aend aindex] in *.
    rewrite !Nat.add_0_r, Hi. reflexivity.
  - intros ops2 Hl2. destruct (run_rep i src good tell Hsrc ops2 a' p H' Hl2) as [a2 [o2 [p2 [E2 [_ C2]]]]].
    exists a2, o2, p2. split; assumption.
Qed.

End Histories.

(** ** Cursors are sources *)

Lemma cursor_ok : forall src, source_ok cursor_io src (fun c => cur_src c = src) cur_pos.
Proof.
  intros src. constructor.
  - intros c dst c' dst' res Hg E. unfold cursor_io in E. cbn [io_read] in E. unfold cursor_read in E.
    set (avail := skipn (cur_pos c) (cur_src c)) in *.
    assert (La : length avail = length src - cur_pos c) by (unfold avail; rewrite skipn_length, Hg; reflexivity).
    assert (G : forall k rest, k <= Nat.min (length dst) (length avail) ->
      (k = 0 -> length dst = 0 \/ length src <= cur_pos c) ->
      (mk_cursor (cur_src c) (cur_pos c + k) rest, firstn k avail ++ skipn k dst, Okay k) = (c', dst', res) ->
      cur_src c' = src /\ reads src (cur_pos c) dst dst' res (cur_pos c')).
    { intros k rest Hk Hz E'. apply pair_equal_spec in E'. destruct E' as [E' <-]. apply pair_equal_spec in E'. destruct E' as [<- <-].
      split; [exact Hg|]. assert (Lf : length (firstn k avail) = k) by (rewrite firstn_length; lia).
      split; [rewrite app_length, Lf, skipn_length; lia|]. split; [lia|]. split; [lia|].
      split; [rewrite firstn_app_exact by (symmetry; exact Lf); unfold avail; rewrite Hg; reflexivity|]. split; [exact Hz|reflexivity]. }
    destruct (cur_script c) as [|[limit|e] rest].
    + apply (G _ _ (le_n _)) in E; [exact E|]. lia.
    + apply (G (Nat.min (Nat.min (length dst) (length avail)) (Nat.max 1 limit)) rest); [lia|lia|exact E].
    + injection E as <- <- <-. split; [exact Hg|]. split; reflexivity.
  - intros c s c' res Hg E. unfold cursor_io in E. cbn [io_seek] in E. unfold cursor_seek in E. rewrite Hg in E.
    set (t := target (length src) (cur_pos c) s) in *.
    assert (G : forall script, (if (t <? 0)%Z then (c, Error (OtherError 22)) else (mk_cursor src (Z.to_nat t) script, Okay (Z.to_nat t))) = (c', res) ->
      cur_src c' = src /\ seeks src (cur_pos c) s res (cur_pos c')).
    { intros script E'. destruct (Z.ltb_spec t 0).
      - injection E' as <- <-. split; [exact Hg|reflexivity].
      - injection E' as <- <-. split; [reflexivity|]. cbn [seeks cur_pos]. split; [fold t; lia|reflexivity]. }
    destruct (cur_script c) as [|[limit|e] rest].
    + apply (G _ E).
    + apply (G _ E).
    + injection E as <- <-. split; [reflexivity|]. reflexivity.
Qed.

Definition no_fail (x : choice) : bool := match x with Deliver _ => true | Fail _ => false end.

Lemma cursor_good : forall src, source_ok cursor_io src (fun c => cur_src c = src /\ forallb no_fail (cur_script c) = true) cur_pos /\
  never_fails cursor_io src (fun c => cur_src c = src /\ forallb no_fail (cur_script c) = true) cur_pos.
Proof.
  intros src.
  assert (K : forall c dst c' dst' res, forallb no_fail (cur_script c) = true -> cursor_read c dst = (c', dst', res) ->
     forallb no_fail (cur_script c') = true /\ exists k, res = Okay k).
  { intros c dst c' dst' res Hs E. unfold cursor_read in E. destruct (cur_script c) as [|[limit|e] rest].
    - injection E as <- _ <-. split; [reflexivity|eauto].
    - injection E as <- _ <-. split; [exact Hs|eauto].
    - discriminate Hs. }
  assert (L : forall c s c' res, cur_src c = src -> forallb no_fail (cur_script c) = true -> cursor_seek c s = (c', res) ->
     forallb no_fail (cur_script c') = true /\ ((0 <= target (length src) (cur_pos c) s)%Z -> exists k, res = Okay k)).
  { intros c s c' res Hg Hs E. unfold cursor_seek in E. rewrite Hg in E.
    destruct (cur_script c) as [|[limit|e] rest] eqn:Ec; try discriminate Hs;
      (destruct (Z.ltb_spec (target (length src) (cur_pos c) s) 0);
       [injection E as <- <-; split; [rewrite Ec; exact Hs|lia]|injection E as <- <-; split; [exact Hs|eauto]]). }
  split; [constructor|split].
  - intros r dst r' dst' res [Hg Hs] E. destruct (so_read _ _ _ _ (cursor_ok src) r dst r' dst' res Hg E) as [H1 H2].
    destruct (K _ _ _ _ _ Hs E). split; [split; assumption|exact H2].
  - intros r s r' res [Hg Hs] E. destruct (so_seek _ _ _ _ (cursor_ok src) r s r' res Hg E) as [H1 H2].
    destruct (L _ _ _ _ Hg Hs E). split; [split; assumption|exact H2].
  - intros r dst r' dst' res [Hg Hs] E. destruct (K _ _ _ _ _ Hs E) as [_ H]. exact H.
  - intros r s r' res [Hg Hs] E. destruct (L _ _ _ _ Hg Hs E) as [_ H]. exact H.
Qed.

Fixpoint acc_legalb {R : Type} (i : io R) (a : acc R) (ops : list acc_op) : bool :=
  match ops with
  | [] => true
  | op :: ops' =>
      match op with
      | AConsume n => match data a with Ret d => n <=? length d | _ => false end
      | ASeek (Current d) => (0 <=? d)%Z
      | _ => true
      end &&
      match acc_step i a op with Ret (a', _) => acc_legalb i a' ops' | _ => true end
  end.
Lemma acc_legalb_sound : forall (R : Type) (i : io R) ops a, acc_legalb i a ops = true -> acc_legal i a ops.
Proof.
  intros R i. induction ops as [|op ops IH]; intros a H; cbn [acc_legal acc_legalb] in *; [exact I|].
  apply andb_prop in H. destruct H as [H1 H2]. split.
  - destruct op as [dst|  |n|n| | | |s]; try exact I.
    + destruct (data a) as [d| |]; try discriminate H1. exists d. split; [reflexivity|]. apply Nat.leb_le. exact H1.
    + destruct s as [n|d|d]; cbn [forward]; try exact I. apply Z.leb_le. exact H1.
  - intros a' o E. rewrite E in H2. apply IH. exact H2.
Qed.
