(** The buffer while demuxing from a source that fills what it is given. *)
From Coq Require Import List Arith NArith ZArith Bool Lia.
From Coq Require Import ZifyBool ZifyNat ZifyN.
From Verif Require Import Base AccModel AccSpec AccProofs AccProofs2 FormatModel DemuxModel DemuxSpec DemuxProofs BufSizeSpec CallsSpec CallsProofs CallsProofs2
  DemuxCallsSpec DemuxCallsProofs.
Import ListNotations.
Local Open Scope nat_scope.

Section Growth.
Context {P D R : Type}.
Variable i : io R.
Variable src : list N.
Variable good : R -> Prop.
Variable tell : R -> nat.
Hypothesis Hsrc : source_ok i src good tell.
Hypothesis Hfills : fills i src good tell.
Notation rep := (rep src good tell).
Notation bio := (acc_buffered i).

Section Bound.
Variable ps : parser P D.
Hypothesis Hw : within ps.
Variable m cap : nat.
Hypothesis Hm : requests_at_most ps m.
Notation dm := (parser_demuxer ps bio).
Notation ctx := (dctx P D (acc R)).

Definition within_square (l t : nat) : Prop := l * l + m * cap <= m * l + cap * cap + 2 * m * t.
Definition size_ok (a : acc R) (p : nat) : Prop :=
  rep a p /\ p <= length src /\
  (within_square (length (abuf a)) (p + held a) \/
   (p + held a = length src /\ exists l0, length (abuf a) <= l0 + m /\ within_square l0 (length src))).

Lemma square_step : forall l t n t', n <= m -> within_square l t -> t + l <= t' -> within_square (l + n) t'.
Proof.
  unfold within_square. intros l t n t' Hn H Ht.
  assert (H1 : n * n <= m * n) by (apply Nat.mul_le_mono_r; exact Hn).
  assert (H2 : l * n <= m * l) by (rewrite (Nat.mul_comm l n); apply Nat.mul_le_mono_r; exact Hn).
  assert (H3 : m * (t + l) <= m * t') by (apply Nat.mul_le_mono_l; exact Ht).
  replace ((l + n) * (l + n)) with (l * l + 2 * (l * n) + n * n) by ring.
  rewrite !Nat.mul_add_distr_l in *. lia.
Qed.

Lemma round_size : forall (c : ctx) x p, size_ok (c_reader c) p -> round dm bio c = Ret x ->
  (forall c' r, x = inl (c', r) -> not_eof r) -> exists p', size_ok (c_reader (left_by x)) p'.
Proof.
  intros c x p [Hr [Hpl Hk]] E Hne. pose proof (rep_proper src good tell _ _ Hr) as Hp.
  destruct (round_shape i ps Hw c x 0 [] Hp E) as [u [calls [_ [_ [_ Hsh]]]]].
  pose proof (rp_avail _ _ _ _ _ Hr) as Hav. fold (held (c_reader c)) in Hav.
  destruct Hsh as [[-> [k [Hkl Ha]]]|[-> [k [Hkl [n [a3 [res [Hask [Hn [Ef [Ha Hx]]]]]]]]]]].
  - exists (p + k). rewrite Ha.
    destruct (consume_rep src good tell (c_reader c) p k Hr Hkl) as [Hr2 Hb]. change buffered with (@held R) in Hb.
    split; [exact Hr2|]. split; [lia|]. change (abuf (consume (c_reader c) k)) with (abuf (c_reader c)).
    replace (p + k + held (consume (c_reader c) k)) with (p + held (c_reader c)) by lia. exact Hk.
  - exists (p + k). rewrite Ha.
    destruct (consume_rep src good tell (c_reader c) p k Hr Hkl) as [Hr2 Hb]. change buffered with (@held R) in Hb.
    pose proof (grow_rep src good tell _ _ n Hr2) as Hr3.
    destruct (fill_fills i src good tell Hfills _ _ _ _ Hr3 Ef) as [[dd ->] Hh].
    destruct (fill_rep i src good tell Hsrc _ _ Hr3) as [a4 [res4 [E4 [Hr4 [L4 _]]]]]. rewrite Ef in E4. injection E4 as <- <-.
    assert (Lg : length (abuf (grow (consume (c_reader c) k) n)) = length (abuf (c_reader c)) + n).
    { cbn [grow abuf consume]. rewrite app_length, repeat_length. reflexivity. }
    rewrite Lg in *. assert (Hnm : n <= m) by (destruct Hask as [d0 [dat0 [d1 Hask]]]; exact (Hm _ _ _ _ Hask)).
    split; [exact Hr4|]. split; [lia|].
    destruct (Nat.eq_dec (p + held (c_reader c)) (length src)) as [He|He].
    + exfalso. destruct x as [[c1 r1]|c1].
      * apply (Hne c1 r1 eq_refl). apply (Hx dd eq_refl).
      * destruct Hx as [d0 [_ [_ [Hlt|Hnp]]]]; [lia|]. apply Hnp. apply (rep_proper src good tell _ _ Hr4).
    + destruct Hk as [Hk|[Hk _]]; [|contradiction]. rewrite L4.
      destruct (Nat.le_gt_cases (length (abuf (c_reader c)) + n) (length src - (p + k))) as [Hl|Hl].
      * left. rewrite Hh, Nat.min_l by exact Hl. apply (square_step _ (p + held (c_reader c))); [exact Hnm|exact Hk|]. lia.
      * right. rewrite Hh, Nat.min_r by lia. split; [lia|]. exists (length (abuf (c_reader c))). split; [lia|].
        unfold within_square in *. assert (m * (p + held (c_reader c)) <= m * length src) by (apply Nat.mul_le_mono_l; lia). lia.
Qed.

Lemma event_size : forall n (c c' : ctx) r p, size_ok (c_reader c) p -> read_event dm bio n c = Ret (c', Some r) -> not_eof r ->
  exists p', size_ok (c_reader c') p'.
Proof.
  induction n as [|n IH]; intros c c' r p Hl H Hne; [discriminate H|].
  rewrite read_event_round in H. destruct (round dm bio c) as [x| |] eqn:Ex; cbn [obind] in H; try discriminate.
  assert (Hx : forall c1 r1, x = inl (c1, r1) -> not_eof r1).
  { intros c1 r1 ->. injection H as <- <-. exact Hne. }
  destruct (round_size c x p Hl Ex Hx) as [p' Hl']. destruct x as [[c1 r1]|c1]; cbn [left_by] in *.
  - injection H as <- <-. exists p'. exact Hl'.
  - apply (IH c1 c' r p' Hl' H Hne).
Qed.

Lemma events_size : forall n calls (c c' : ctx) rs p, size_ok (c_reader c) p -> read_events dm bio n calls c = Ret (c', Some rs) ->
  Forall not_eof rs -> exists p', size_ok (c_reader c') p'.
Proof.
  intros n calls. induction calls as [|q IH]; intros c c' rs p Hl H Hne; cbn [read_events] in *.
  - injection H as <- <-. exists p. exact Hl.
  - destruct (read_event dm bio n c) as [[c1 [ev|]]| |] eqn:E; cbn [obind] in H; try discriminate.
    destruct (read_events dm bio n q c1) as [[c2 [evs|]]| |] eqn:E2; cbn [obind] in H; try discriminate.
    injection H as <- <-. apply Forall_inv in Hne as Hne1. apply Forall_inv_tail in Hne.
    destruct (event_size n c c1 ev p Hl E Hne1) as [p1 Hl1]. apply (IH c1 c2 evs p1 Hl1 E2 Hne).
Qed.

Lemma size_bound : forall r0 d n calls (c' : ctx) rs, good r0 -> tell r0 = 0 ->
  read_events dm bio n calls (context_new d (with_capacity cap r0)) = Ret (c', Some rs) -> Forall not_eof rs ->
  exists l, length (abuf (c_reader c')) <= l + m /\ l * l + m * cap <= m * l + cap * cap + 2 * m * length src.
Proof.
  intros r0 d n calls c' rs Hg Ht H Hne.
  destruct (events_size n calls (context_new d (with_capacity cap r0)) c' rs 0) as [p [Hr [Hp Hk]]]; [|exact H|exact Hne|].
  - split; [apply new_rep; assumption|]. split; [lia|]. left. unfold within_square. cbn [context_new c_reader with_capacity abuf].
    rewrite repeat_length. lia.
  - pose proof (rp_avail _ _ _ _ _ Hr) as Hav. fold (held (c_reader c')) in Hav. destruct Hk as [Hk|[_ [l0 [Hl Hk]]]].
    + exists (length (abuf (c_reader c'))). split; [lia|]. unfold within_square in Hk.
      assert (m * (p + held (c_reader c')) <= m * length src) by (apply Nat.mul_le_mono_l; lia). lia.
    + exists l0. split; [exact Hl|exact Hk].
Qed.
End Bound.
End Growth.

(** ** Packets of one size *)
Section Blocks.
Context {R : Type}.
Variable i : io R.
Variable src : list N.
Variable good : R -> Prop.
Variable tell : R -> nat.
Hypothesis Hsrc : source_ok i src good tell.
Hypothesis Hfills : fills i src good tell.
Variable m : nat.
Hypothesis Hm : 0 < m.
Notation rep := (rep src good tell).
Notation bio := (acc_buffered i).
Notation dm := (parser_demuxer (block_parser m) bio).
Notation info := (mk_info None None (@nil (stream unit))).
Notation at_reader := (fun a : acc R => mk_dctx tt a info).
Definition packets (rs : list (result (event unit) error)) : Prop := Forall (fun r => exists p, r = Okay (NewPacket p)) rs.

Lemma block_take : forall n a p, rep a p -> m <= held a ->
  exists pk, read_event dm bio (S n) (at_reader a) = Ret (at_reader (consume a m), Some (Okay (NewPacket pk))).
Proof.
  intros n a p Hr Hh. pose proof (rep_proper src good tell a p Hr) as Hp. destruct (data_proper a Hp) as [dat [Hd Hl]].
  cbn [read_event]. unfold read_event_internal.
  cbn [c_demuxer c_reader c_info parser_demuxer dm_event acc_buffered b_data b_seek b_fill b_grow block_parser ps_event].
  rewrite Hd. cbn [obind]. destruct (Nat.ltb_spec (length dat) m); [lia|]. cbn [obind].
  rewrite seek_in by assumption. cbn [obind]. unfold block_packet, default_time. cbn [p_t t_timebase g_streams find].
  eexists. reflexivity.
Qed.

Lemma block_fill : forall n a p, rep a p -> held a = 0 -> length (abuf a) + m <= length src - p ->
  exists a3, read_event dm bio (S (S n)) (at_reader a) = read_event dm bio (S n) (at_reader a3) /\ rep a3 p /\
    length (abuf a3) = length (abuf a) + m /\ held a3 = length (abuf a) + m.
Proof.
  intros n a p Hr Hh Hl. pose proof (rep_proper src good tell a p Hr) as Hp. destruct (data_proper a Hp) as [dat [Hd Hld]].
  pose proof (grow_rep src good tell _ _ m Hr) as Hr3.
  destruct (fill_rep i src good tell Hsrc _ _ Hr3) as [a4 [res4 [E4 [Hr4 [L4 Hx]]]]].
  destruct (fill_fills i src good tell Hfills _ _ _ _ Hr3 E4) as [[dd ->] Hh4].
  assert (Lg : length (abuf (grow a m)) = length (abuf a) + m) by (cbn [grow abuf]; rewrite app_length, repeat_length; reflexivity).
  rewrite Lg in *. rewrite Nat.min_l in Hh4 by exact Hl.
  exists a4. split; [|auto]. rewrite read_event_round. unfold round, read_event_internal.
  cbn [c_demuxer c_reader c_info parser_demuxer dm_event acc_buffered b_data b_seek b_fill b_grow block_parser ps_event].
  rewrite Hd. cbn [obind]. destruct (Nat.ltb_spec (length dat) m); [|lia]. cbn [obind c_reader c_demuxer c_info]. rewrite Hd. cbn [obind].
  destruct (Nat.leb_spec m (length dat)); [lia|]. rewrite E4. cbn [obind].
  destruct (data_proper a4 (rep_proper src good tell a4 p Hr4)) as [d4 [Hd4 Hl4]]. rewrite Hd4. cbn [obind].
  destruct (Nat.leb_spec (length d4) (length dat)); [lia|]. reflexivity.
Qed.

Lemma events_app : forall n k l (c c1 c2 : dctx unit unit (acc R)) rs1 rs2,
  read_events dm bio n k c = Ret (c1, Some rs1) -> read_events dm bio n l c1 = Ret (c2, Some rs2) ->
  read_events dm bio n (k + l) c = Ret (c2, Some (rs1 ++ rs2)).
Proof.
  intros n k. induction k as [|k IH]; intros l c c1 c2 rs1 rs2 H1 H2; cbn [read_events Nat.add] in *.
  - injection H1 as <- <-. exact H2.
  - destruct (read_event dm bio n c) as [[c3 [ev|]]| |]; cbn [obind] in *; try discriminate.
    destruct (read_events dm bio n k c3) as [[c4 [evs|]]| |] eqn:E; cbn [obind] in *; try discriminate.
    injection H1 as <- <-. rewrite (IH l c3 c4 c2 evs rs2 E H2). reflexivity.
Qed.

Lemma block_drain : forall k n a p, rep a p -> held a = k * m ->
  exists a' rs, read_events dm bio (S n) k (at_reader a) = Ret (at_reader a', Some rs) /\ packets rs /\ length rs = k /\
    rep a' (p + k * m) /\ held a' = 0 /\ length (abuf a') = length (abuf a).
Proof.
  induction k as [|k IH]; intros n a p Hr Hh.
  - exists a, []. rewrite Nat.mul_0_l, Nat.add_0_r. split; [reflexivity|]. split; [constructor|]. split; [reflexivity|]. split; [exact Hr|]. split; [lia|reflexivity].
  - cbn [Nat.mul] in Hh. destruct (block_take n a p Hr ltac:(lia)) as [pk E].
    destruct (consume_rep src good tell a p m Hr) as [Hr2 Hb]; [change (m <= held a); lia|]. change buffered with (@held R) in Hb.
    destruct (IH n (consume a m) (p + m) Hr2 ltac:(lia)) as [a' [rs [E2 [Hpk [Hlen [Hr3 [Hh3 Hl3]]]]]]].
    exists a', (Okay (NewPacket pk) :: rs). cbn [read_events]. rewrite E. cbn [obind]. rewrite E2. cbn [obind].
    split; [reflexivity|]. split; [constructor; [exists pk; reflexivity|exact Hpk]|]. split; [cbn [length]; lia|].
    split; [|split; assumption]. replace (p + S k * m) with (p + m + k * m) by lia. exact Hr3.
Qed.

Lemma block_stage : forall n a p q, rep a p -> held a = 0 -> length (abuf a) = q * m -> (q + 1) * m <= length src - p ->
  exists a' rs, read_events dm bio (S (S n)) (q + 1) (at_reader a) = Ret (at_reader a', Some rs) /\ packets rs /\ length rs = q + 1 /\
    rep a' (p + (q + 1) * m) /\ held a' = 0 /\ length (abuf a') = (q + 1) * m.
Proof.
  intros n a p q Hr Hh Hl Hs. destruct (block_fill n a p Hr Hh) as [a3 [E [Hr3 [L3 H3]]]]; [lia|].
  assert (H3' : held a3 = (q + 1) * m) by lia.
  destruct (block_drain (q + 1) (S n) a3 p Hr3 H3') as [a' [rs [E2 [Hpk [Hlen [Hr4 [Hh4 Hl4]]]]]]].
  exists a', rs. split; [|split; [exact Hpk|]; split; [exact Hlen|]; split; [exact Hr4|]; split; [exact Hh4|lia]].
  replace (q + 1) with (S q) in * by lia. cbn [read_events] in *. rewrite E.
  destruct (block_take n a3 p Hr3 ltac:(lia)) as [pk E3]. rewrite E3.
  destruct (block_take (S n) a3 p Hr3 ltac:(lia)) as [pk' E3']. rewrite E3' in E2.
  assert (Some (Okay (NewPacket pk)) = Some (Okay (@NewPacket unit pk') : result (event unit) error)) as ->; [|exact E2].
  pose proof (read_event_mono dm bio (S n) (S (S n)) _ _ _ E3 ltac:(lia)) as E4. rewrite E4 in E3'. injection E3' as <-. reflexivity.
Qed.

Fixpoint refills (q j : nat) : nat := match j with O => 0 | S j' => refills q j' + (q + S j') end.

Lemma block_run : forall q j r0, good r0 -> tell r0 = 0 -> refills q j * m <= length src ->
  exists a rs, read_events dm bio 2 (refills q j) (context_new tt (with_capacity (q * m) r0)) = Ret (at_reader a, Some rs) /\
    packets rs /\ length rs = refills q j /\ rep a (refills q j * m) /\ held a = 0 /\ length (abuf a) = (q + j) * m.
Proof.
  intros q j r0 Hg Ht. induction j as [|j IH]; intros Hs; cbn [refills] in *.
  - exists (with_capacity (q * m) r0), []. cbn [read_events]. split; [reflexivity|]. split; [constructor|]. split; [reflexivity|].
    split; [apply new_rep; assumption|]. split; [reflexivity|]. cbn [with_capacity abuf]. rewrite repeat_length. lia.
  - destruct IH as [a [rs [E [Hpk [Hlen [Hr [Hh Hl]]]]]]]; [lia|].
    destruct (block_stage 0 a _ (q + j) Hr Hh Hl) as [a' [rs' [E' [Hpk' [Hlen' [Hr' [Hh' Hl']]]]]]]; [lia|].
    exists a', (rs ++ rs'). replace (q + S j) with (q + j + 1) by lia. split; [apply (events_app 2 _ _ _ _ _ _ _ E E')|].
    split; [apply Forall_app; split; assumption|]. split; [rewrite app_length; lia|].
    split; [|split; assumption]. rewrite Nat.mul_add_distr_r. exact Hr'.
Qed.

Lemma refills_twice : forall q j, 2 * refills q j = 2 * j * q + j * (j + 1).
Proof. intros q j. induction j as [|j IH]; cbn [refills]; [reflexivity|]. rewrite Nat.mul_add_distr_l, IH. ring. Qed.
End Blocks.

Lemma block_growth : forall (R : Type) (i : io R) src good tell m q j k r0,
  source_ok i src good tell -> fills i src good tell -> good r0 -> tell r0 = 0 -> 0 < m ->
  2 * k = 2 * j * q + j * (j + 1) -> k * m <= length src ->
  exists c' rs, read_events (parser_demuxer (block_parser m) (acc_buffered i)) (acc_buffered i) 2 k (context_new tt (with_capacity (q * m) r0)) = Ret (c', Some rs) /\
    length rs = k /\ Forall (fun r => exists p, r = Okay (NewPacket p)) rs /\ length (abuf (c_reader c')) = (q + j) * m.
Proof.
  intros R i src good tell m q j k r0 Hs Hf Hg Ht Hm Hk Hl. pose proof (refills_twice q j) as Hr. assert (k = refills q j) as -> by lia.
  destruct (block_run i src good tell Hs Hf m Hm q j r0 Hg Ht Hl) as [a [rs [E [Hp [Hlen [_ [_ Ha]]]]]]].
  exists (mk_dctx tt a (mk_info None None [])), rs. auto.
Qed.

Lemma triangle : forall j, exists k, 2 * k = 2 * j * 1 + j * (j + 1).
Proof. intros j. exists (refills 1 j). apply refills_twice. Qed.

Lemma fast_growth : forall f, exists src m cap calls c' rs,
  0 < m /\ requests_at_most (block_parser m) m /\
  read_events (parser_demuxer (block_parser m) (acc_buffered cursor_io)) (acc_buffered cursor_io) 2 calls
    (context_new tt (with_capacity cap (mk_cursor src 0 []))) = Ret (c', Some rs) /\
  Forall (fun r => exists p, r = Okay (NewPacket p)) rs /\ length rs = calls /\
  f * (cap + m) < length (abuf (c_reader c')).
Proof.
  intros f. destruct (triangle (2 * f)) as [k Hk].
  destruct (plain_cursor (repeat 7%N k)) as [Hs Hf].
  destruct (block_growth cursor cursor_io (repeat 7%N k) _ _ 1 1 (2 * f) k (mk_cursor (repeat 7%N k) 0 []) Hs Hf) as [c' [rs [E [Hl [Hp Ha]]]]];
    [split; reflexivity|reflexivity|lia|exact Hk|rewrite repeat_length; lia|].
  exists (repeat 7%N k), 1, 1, k, c', rs. split; [lia|]. split.
  - intros d dat d' q [E0|[s E0]]; cbn [block_parser ps_event] in E0; destruct (length dat <? 1); try discriminate E0. injection E0 as _ <-. lia.
  - split; [exact E|]. split; [exact Hp|]. split; [exact Hl|]. lia.
Qed.
