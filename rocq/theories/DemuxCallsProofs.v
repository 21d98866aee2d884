(** The calls of its source that demuxing makes. *)
From Coq Require Import List Arith NArith ZArith Bool Lia.
From Coq Require Import ZifyBool ZifyNat ZifyN.
From Verif Require Import Base AccModel AccSpec AccProofs AccProofs2 FormatModel DemuxModel DemuxSpec DemuxProofs DemuxExamples CallsSpec CallsProofs CallsProofs2 DemuxCallsSpec.
Import ListNotations.
Local Open Scope nat_scope.

Section Watch.
Context {P D R : Type}.
Variable i : io R.
Variable ps : parser P D.
Hypothesis Hw : within ps.
Notation bio := (acc_buffered i).
Notation bio' := (acc_buffered (traced i)).
Notation dm := (parser_demuxer ps bio).
Notation dm' := (parser_demuxer (counting ps) bio').
Notation ctx := (dctx P D (acc R)).

Definition watched_round (x : ctx * result (event P) error + ctx) k log :=
  match x with inl (c, r) => inl (watched c k log, r) | inr c => inr (watched c k log) end.
Definition left_by (x : ctx * result (event P) error + ctx) : ctx := match x with inl (c, _) => c | inr c => c end.

Lemma data_logged : forall (a : acc R) log, data (logged a log) = data a.
Proof. reflexivity. Qed.

Lemma data_proper : forall a : acc R, proper a -> exists d, data a = Ret d /\ length d = held a.
Proof.
  intros a [H1 H2]. unfold data. rewrite slice_ok by assumption. eexists. split; [reflexivity|].
  rewrite firstn_length, skipn_length. unfold held. lia.
Qed.

Lemma seek_in : forall (j : io R) (a : acc R) k, proper a -> k <= held a ->
  seek j a (Current (Z.of_nat k)) = Ret (consume a k, Okay (aindex a + k)).
Proof.
  intros j a k [H1 H2] Hk. unfold seek. rewrite csub_ok by assumption. cbn [obind].
  destruct (Z.leb_spec 0 (Z.of_nat k)); [|lia]. rewrite Nat2Z.id. fold (held a).
  destruct (Nat.leb_spec k (held a)); [|lia]. unfold consume. unfold held in *.
  replace (Nat.min (apos a + k) (aend a)) with (apos a + k) by lia. reflexivity.
Qed.

Lemma seek_in' : forall (a : acc R) log k, proper a -> k <= held a ->
  seek (traced i) (logged a log) (Current (Z.of_nat k)) = Ret (logged (consume a k) log, Okay (aindex a + k)).
Proof.
  intros a log k [H1 H2] Hk. unfold seek. cbn [logged apos aend abuf aindex inner]. rewrite csub_ok by assumption. cbn [obind].
  destruct (Z.leb_spec 0 (Z.of_nat k)); [|lia]. rewrite Nat2Z.id. fold (held a).
  destruct (Nat.leb_spec k (held a)); [|lia]. unfold consume, logged. cbn [inner abuf apos aend aindex]. unfold held in *.
  replace (Nat.min (apos a + k) (aend a)) with (apos a + k) by lia. reflexivity.
Qed.

(** What a round leaves: the reader moved on by [k] buffered bytes and, after an unmet request for [n], grown and filled. *)
Definition asked (n : nat) : Prop := exists d dat d',
  ps_event ps d dat = (d', Error (MoreDataNeeded n)) \/ exists s, ps_event ps d dat = (d', Okay (s, MoreData n)).
Definition met (a : acc R) (x : ctx * result (event P) error + ctx) (k : nat) : Prop :=
  k <= held a /\ c_reader (left_by x) = consume a k.
Definition filled (a : acc R) (x : ctx * result (event P) error + ctx) (k : nat) : Prop :=
  k <= held a /\ exists n a3 res, asked n /\ held a - k < n /\ fill_buf i (grow (consume a k) n) = Ret (a3, res) /\ c_reader (left_by x) = a3 /\
    match x with
    | inl (_, r) => forall d, res = Okay d -> r = Okay Eof
    | inr _ => exists d, res = Okay d /\ data a3 <> Panic /\ (held a - k < held a3 \/ ~ proper a3)
    end.

Lemma consume_0 : forall a : acc R, proper a -> consume a 0 = a.
Proof.
  intros [r b p e x] [H1 H2]. unfold consume. cbn [inner abuf apos aend aindex] in *. rewrite !Nat.add_0_r, Nat.min_l by assumption. reflexivity.
Qed.

Lemma consume_held : forall (a : acc R) k, proper a -> k <= held a -> proper (consume a k) /\ held (consume a k) = held a - k.
Proof. intros a k [H1 H2] Hk. unfold proper, held in *. cbn [consume apos aend abuf]. lia. Qed.

Lemma grow_logged : forall (a : acc R) log n, grow (logged a log) n = logged (grow a n) log.
Proof. reflexivity. Qed.

Lemma round_shape : forall (c : ctx) x k log, proper (c_reader c) -> round dm bio c = Ret x ->
  exists u calls, round dm' bio' (watched c k log) = Ret (watched_round x (k + u) (log ++ calls)) /\ count_seeks calls = 0 /\ count_reads calls = u /\
    ((u = 0 /\ exists m, met (c_reader c) x m) \/ (u = 1 /\ exists m, filled (c_reader c) x m)).
Proof.
  intros [d a info] x k log Hp H. cbn [c_reader] in *.
  destruct (data_proper a Hp) as [dat [Hd Hl]].
  unfold round, read_event_internal in *. unfold watched. cbn [c_demuxer c_reader c_info parser_demuxer dm_event acc_buffered b_data b_seek b_fill b_grow] in *.
  rewrite data_logged. rewrite Hd in *. cbn [obind] in *. cbn [counting ps_event fst snd].
  destruct (ps_event ps d dat) as [d' res] eqn:Ep. cbn [obind] in *.
  (* one request: [a2] is the reader after the seek, [n] the bytes asked for *)
  assert (Req : forall m n y, asked n -> m <= held a ->
    (let! dat2 := data (consume a m) in
     if n <=? length dat2 then Ret (inr (mk_dctx d' (consume a m) info))
     else
       let! (r3, fr) := fill_buf i (grow (consume a m) n) in
       match fr with
       | Error e => Ret (inl (mk_dctx d' r3 info, Error (Io e)))
       | Okay _ => let! d3 := data r3 in
           if length d3 <=? length dat2 then Ret (inl (mk_dctx d' r3 info, Okay Eof)) else Ret (inr (mk_dctx d' r3 info))
       end) = Ret y ->
    let u := if length dat - m <? n then 1 else 0 in
    exists calls,
    (let! dat2 := data (logged (consume a m) log) in
     if n <=? length dat2 then Ret (inr (mk_dctx (d', k + u) (logged (consume a m) log) info))
     else
       let! (r3, fr) := fill_buf (traced i) (grow (logged (consume a m) log) n) in
       match fr with
       | Error e => Ret (inl (mk_dctx (d', k + u) r3 info, Error (Io e)))
       | Okay _ => let! d3 := data r3 in
           if length d3 <=? length dat2 then Ret (inl (mk_dctx (d', k + u) r3 info, Okay Eof)) else Ret (inr (mk_dctx (d', k + u) r3 info))
       end) = Ret (watched_round y (k + u) (log ++ calls)) /\ count_seeks calls = 0 /\ count_reads calls = u /\
    ((u = 0 /\ exists m, met a y m) \/ (u = 1 /\ exists m, filled a y m))).
  { intros m n y Hask Hm E u. destruct (consume_held a m Hp Hm) as [Hp2 Hh2].
    destruct (data_proper (consume a m) Hp2) as [dat2 [Hd2 Hl2]]. rewrite data_logged. rewrite Hd2 in *. cbn [obind] in *.
    unfold u. rewrite Hl. rewrite Hl2, Hh2 in *. rewrite grow_logged.
    destruct (Nat.leb_spec n (held a - m)) as [Hn|Hn]; destruct (Nat.ltb_spec (held a - m) n) as [Hn2|Hn2]; try lia.
    - injection E as <-. exists []. rewrite app_nil_r, !Nat.add_0_r. split; [reflexivity|]. split; [reflexivity|]. split; [reflexivity|].
      left. split; [reflexivity|]. exists m. split; [exact Hm|reflexivity].
    - destruct (fill_buf i (grow (consume a m) n)) as [[a3 fr]| |] eqn:Ef; cbn [obind] in E; try discriminate.
      assert (Hpg : proper (grow (consume a m) n)).
      { destruct Hp2. split; cbn [grow apos aend abuf]; [assumption|]. rewrite app_length. lia. }
      destruct (fill_calls i _ log a3 fr Hpg Ef) as [calls [E1 Ho]]. rewrite E1. cbn [obind].
      assert (Hasked : 0 < length (abuf (grow (consume a m) n)) - held (grow (consume a m) n)).
      { unfold held at 1. cbn [grow abuf apos aend]. rewrite app_length, repeat_length. destruct Hp2. unfold held in *. lia. }
      assert (Hc : count_seeks calls = 0 /\ count_reads calls = 1).
      { destruct (length (abuf (grow (consume a m) n)) - held (grow (consume a m) n)) as [|q]; [lia|]. destruct Ho as [rr ->]. split; reflexivity. }
      exists calls. destruct fr as [d3|e].
      + rewrite data_logged. destruct (data a3) as [dd| |] eqn:Ed; cbn [obind] in *; try discriminate.
        destruct (Nat.leb_spec (length dd) (held a - m)) as [Hle|Hgt]; injection E as <-.
        * split; [reflexivity|]. split; [apply Hc|]. split; [apply Hc|]. right. split; [reflexivity|]. exists m. split; [exact Hm|].
          exists n, a3, (Okay d3). split; [exact Hask|]. split; [lia|]. split; [exact Ef|]. split; [reflexivity|]. intros; reflexivity.
        * split; [reflexivity|]. split; [apply Hc|]. split; [apply Hc|]. right. split; [reflexivity|]. exists m. split; [exact Hm|].
          exists n, a3, (Okay d3). split; [exact Hask|]. split; [lia|]. split; [exact Ef|]. split; [reflexivity|]. exists d3. split; [reflexivity|].
          split; [rewrite Ed; discriminate|].
          destruct (le_lt_dec (held a3) (held a - m)) as [Hx|Hx]; [right|left; exact Hx].
          intros Hp3. destruct (data_proper a3 Hp3) as [d4 [E4 L4]]. rewrite Ed in E4. injection E4 as <-. lia.
      + injection E as <-. split; [reflexivity|]. split; [apply Hc|]. split; [apply Hc|]. right. split; [reflexivity|]. exists m. split; [exact Hm|].
        exists n, a3, (Error e). split; [exact Hask|]. split; [lia|]. split; [exact Ef|]. split; [reflexivity|]. discriminate. }
  destruct res as [[s ev]|e].
  - destruct (Hw _ _ _ _ _ Ep) as [m [-> Hm]]. rewrite Hl in Hm. rewrite seek_in in H by assumption. rewrite seek_in' by assumption.
    cbn [obind c_info c_reader c_demuxer] in *.
    assert (Emit : forall r info', x = inl (mk_dctx d' (consume a m) info', r) -> exists calls,
      Ret (inl (mk_dctx (d', k + 0) (logged (consume a m) log) info', r)) = Ret (watched_round x (k + 0) (log ++ calls)) /\
      count_seeks calls = 0 /\ count_reads calls = 0 /\ ((0 = 0 /\ exists m0, met a x m0) \/ (0 = 1 /\ exists m0, filled a x m0))).
    { intros r info' ->. exists []. rewrite app_nil_r. split; [reflexivity|]. split; [reflexivity|]. split; [reflexivity|].
      left. split; [reflexivity|]. exists m. split; [exact Hm|reflexivity]. }
    destruct ev as [pk|st|n| |]; cbn [unmet].
    + exists 0. destruct (t_timebase (p_t pk)).
      * apply Emit. injection H as <-. reflexivity.
      * destruct (find _ (g_streams info)); apply Emit; injection H as <-; reflexivity.
    + exists 0. apply Emit. injection H as <-. reflexivity.
    + rewrite Nat2Z.id. exists (if length dat - m <? n then 1 else 0). apply Req; [exists d, dat, d'; right; eexists; exact Ep|exact Hm|exact H].
    + exists 0. apply Emit. injection H as <-. reflexivity.
    + exists 0. apply Emit. injection H as <-. reflexivity.
  - cbn [obind c_info c_reader c_demuxer] in *. destruct e as [|n|e]; cbn [unmet].
    + injection H as <-. exists 0, []. rewrite app_nil_r. split; [reflexivity|]. split; [reflexivity|]. split; [reflexivity|].
      left. split; [reflexivity|]. exists 0. split; [lia|]. cbn [left_by c_reader]. rewrite consume_0; auto.
    + exists (if length dat <? n then 1 else 0). pose proof (Req 0 n x) as Q. rewrite (consume_0 a Hp), Nat.sub_0_r in Q.
      apply Q; [exists d, dat, d'; left; exact Ep|lia|exact H].
    + injection H as <-. exists 0, []. rewrite app_nil_r. split; [reflexivity|]. split; [reflexivity|]. split; [reflexivity|].
      left. split; [reflexivity|]. exists 0. split; [lia|]. cbn [left_by c_reader]. rewrite consume_0; auto.
Qed.

Hypothesis Hkept : slices_kept i.

Lemma count_app : forall l l', count_reads (l ++ l') = count_reads l + count_reads l' /\ count_seeks (l ++ l') = count_seeks l + count_seeks l'.
Proof. intros l l'. unfold count_reads, count_seeks. rewrite !filter_app, !app_length. split; reflexivity. Qed.

Lemma shape_proper : forall (a : acc R) x, proper a -> ((exists m, met a x m) \/ (exists m, filled a x m)) -> proper (c_reader (left_by x)).
Proof.
  intros a x Hp [[m [Hm ->]]|[m [Hm [n [a3 [res [_ [Hn [Ef [-> _]]]]]]]]]].
  - apply (consume_held a m Hp Hm).
  - apply (fill_keeps i Hkept _ _ _ (step_keeps i Hkept _ (AGrow n) _ _ (proj1 (consume_held a m Hp Hm)) eq_refl) Ef).
Qed.

Lemma event_watched : forall n (c c' : ctx) r k log, proper (c_reader c) -> read_event dm bio n c = Ret (c', r) ->
  exists u calls, read_event dm' bio' n (watched c k log) = Ret (watched c' (k + u) (log ++ calls), r) /\ count_seeks calls = 0 /\ count_reads calls = u /\
    proper (c_reader c').
Proof.
  induction n as [|n IH]; intros c c' r k log Hp H.
  - cbn [read_event] in *. injection H as <- <-. exists 0, []. rewrite app_nil_r, Nat.add_0_r. auto.
  - rewrite read_event_round in H. rewrite read_event_round. destruct (round dm bio c) as [x| |] eqn:Ex; cbn [obind] in H; try discriminate.
    destruct (round_shape c x k log Hp Ex) as [u [calls [E [Hs [Hr Hsh]]]]].
    assert (Hp' : proper (c_reader (left_by x))). { apply (shape_proper (c_reader c)); [exact Hp|]. tauto. }
    rewrite E. cbn [obind]. destruct x as [[c1 r1]|c1]; cbn [watched_round left_by] in *.
    + assert (c' = c1 /\ r = Some r1) as [-> ->] by (split; congruence). exists u, calls. auto.
    + destruct (IH c1 c' r (k + u) (log ++ calls) Hp' H) as [u2 [calls2 [E2 [Hs2 [Hr2 Hp2]]]]].
      exists (u + u2), (calls ++ calls2). rewrite E2, app_assoc, Nat.add_assoc. destruct (count_app calls calls2) as [-> ->].
      repeat split; [lia|lia|apply Hp2|apply Hp2].
Qed.

Lemma events_watched : forall n calls (c c' : ctx) rs k log, proper (c_reader c) -> read_events dm bio n calls c = Ret (c', rs) ->
  exists u made, read_events dm' bio' n calls (watched c k log) = Ret (watched c' (k + u) (log ++ made), rs) /\ count_seeks made = 0 /\ count_reads made = u.
Proof.
  intros n calls. induction calls as [|m IH]; intros c c' rs k log Hp H; cbn [read_events] in *.
  - injection H as <- <-. exists 0, []. rewrite app_nil_r, Nat.add_0_r. auto.
  - destruct (read_event dm bio n c) as [[c1 r]| |] eqn:E; cbn [obind] in H; try discriminate.
    destruct (event_watched n c c1 r k log Hp E) as [u [made [E1 [Hs [Hr Hp1]]]]]. rewrite E1. cbn [obind].
    destruct r as [ev|]; [|injection H as <- <-; exists u, made; auto].
    destruct (read_events dm bio n m c1) as [[c2 rest]| |] eqn:E2; cbn [obind] in H; try discriminate.
    destruct (IH c1 c2 rest (k + u) (log ++ made) Hp1 E2) as [u2 [made2 [E3 [Hs2 Hr2]]]]. rewrite E3. cbn [obind].
    exists (u + u2), (made ++ made2). destruct (count_app made made2) as [-> ->]. rewrite app_assoc, Nat.add_assoc.
    destruct rest as [evs|]; injection H as <- <-; (split; [reflexivity|]); lia.
Qed.
End Watch.

(** ** Sources that fill what they are given *)
Section Filling.
Context {P D R : Type}.
Variable i : io R.
Variable src : list N.
Variable good : R -> Prop.
Variable tell : R -> nat.
Variable ps : parser P D.
Hypothesis Hsrc : source_ok i src good tell.
Hypothesis Hfills : fills i src good tell.
Hypothesis Hw : within ps.
Notation rep := (rep src good tell).
Notation bio := (acc_buffered i).
Notation bio' := (acc_buffered (traced i)).
Notation dm := (parser_demuxer ps bio).
Notation dm' := (parser_demuxer (counting ps) bio').
Notation ctx := (dctx P D (acc R)).
Variable cap : nat.

(** At position [p] after [k] reads: each took more than [cap] bytes, except one that came to the end. *)
Definition level (a : acc R) (p k : nat) : Prop :=
  rep a p /\ p <= length src /\ cap <= length (abuf a) /\
  (k * (cap + 1) <= p + held a \/ (p + held a = length src /\ (k - 1) * (cap + 1) <= length src)).

Lemma round_level : forall (c : ctx) x k log p, level (c_reader c) p k -> round dm bio c = Ret x ->
  (forall c' r, x = inl (c', r) -> not_eof r) ->
  exists u calls p', round dm' bio' (watched c k log) = Ret (watched_round x (k + u) (log ++ calls)) /\ count_reads calls = u /\
    level (c_reader (left_by x)) p' (k + u).
Proof.
  intros c x k log p [Hr [Hpl [Hc Hk]]] E Hne. pose proof (rep_proper src good tell _ _ Hr) as Hp.
  destruct (round_shape i ps Hw c x k log Hp E) as [u [calls [E' [Hs [Hu Hsh]]]]].
  exists u, calls.
  destruct Hsh as [[-> [m [Hm Ha]]]|[-> [m [Hm [n [a3 [res [_ [Hn [Ef [Ha Hx]]]]]]]]]]].
  - exists (p + m). split; [exact E'|]. split; [exact Hu|]. rewrite Ha, Nat.add_0_r.
    destruct (consume_rep src good tell (c_reader c) p m Hr Hm) as [Hr2 Hb]. change buffered with (@held R) in Hb.
    pose proof (rp_avail _ _ _ _ _ Hr) as Hav. fold (held (c_reader c)) in Hav.
    split; [exact Hr2|]. split; [lia|]. split; [exact Hc|]. lia.
  - exists (p + m). split; [exact E'|]. split; [exact Hu|]. rewrite Ha.
    destruct (consume_rep src good tell (c_reader c) p m Hr Hm) as [Hr2 Hb]. change buffered with (@held R) in Hb.
    pose proof (grow_rep src good tell _ _ n Hr2) as Hr3.
    destruct (fill_fills i src good tell Hfills _ _ _ _ Hr3 Ef) as [[dd ->] Hh].
    destruct (fill_rep i src good tell Hsrc _ _ Hr3) as [a4 [res4 [E4 [Hr4 [L4 _]]]]]. rewrite Ef in E4. injection E4 as <- <-.
    assert (Lg : length (abuf (grow (consume (c_reader c) m) n)) = length (abuf (c_reader c)) + n).
    { cbn [grow abuf consume]. rewrite app_length, repeat_length. reflexivity. }
    rewrite Lg in *.
    pose proof (rp_avail _ _ _ _ _ Hr) as Hav. fold (held (c_reader c)) in Hav.
    split; [exact Hr4|]. split; [lia|]. split; [lia|].
    pose proof (rp_avail _ _ _ _ _ Hr2) as Hav2. fold (held (consume (c_reader c) m)) in Hav2.
    destruct (Nat.eq_dec (p + held (c_reader c)) (length src)) as [He|He].
    + exfalso. destruct x as [[c1 r1]|c1].
      * apply (Hne c1 r1 eq_refl). apply (Hx dd eq_refl).
      * destruct Hx as [d0 [_ [_ [Hlt|Hnp]]]]; [lia|]. apply Hnp. apply (rep_proper src good tell _ _ Hr4).
    + destruct Hk as [Hk|[Hk _]]; [|contradiction].
      destruct (Nat.le_gt_cases (length (abuf (c_reader c)) + n) (length src - (p + m))) as [Hl|Hl].
      * left. rewrite Hh, Nat.min_l by exact Hl. rewrite Nat.mul_add_distr_r. lia.
      * right. rewrite Hh, Nat.min_r by lia. replace (k + 1 - 1) with k by lia. lia.
Qed.

Lemma event_level : forall n (c c' : ctx) r k log p, level (c_reader c) p k -> read_event dm bio n c = Ret (c', Some r) -> not_eof r ->
  exists u calls p', read_event dm' bio' n (watched c k log) = Ret (watched c' (k + u) (log ++ calls), Some r) /\ count_reads calls = u /\
    level (c_reader c') p' (k + u).
Proof.
  induction n as [|n IH]; intros c c' r k log p Hl H Hne; [discriminate H|].
  rewrite read_event_round in H. rewrite read_event_round. destruct (round dm bio c) as [x| |] eqn:Ex; cbn [obind] in H; try discriminate.
  assert (Hx : forall c1 r1, x = inl (c1, r1) -> not_eof r1).
  { intros c1 r1 ->. injection H as <- <-. exact Hne. }
  destruct (round_level c x k log p Hl Ex Hx) as [u [calls [p' [E [Hu Hl']]]]]. rewrite E. cbn [obind].
  destruct x as [[c1 r1]|c1]; cbn [watched_round left_by] in *.
  - injection H as <- <-. exists u, calls, p'. auto.
  - destruct (IH c1 c' r (k + u) (log ++ calls) p' Hl' H Hne) as [u2 [calls2 [p2 [E2 [Hu2 Hl2]]]]].
    exists (u + u2), (calls ++ calls2), p2. rewrite app_assoc, Nat.add_assoc. destruct (count_app calls calls2) as [-> _].
    split; [exact E2|]. split; [lia|exact Hl2].
Qed.

Lemma events_level : forall n calls (c c' : ctx) rs k log p, level (c_reader c) p k -> read_events dm bio n calls c = Ret (c', Some rs) ->
  Forall not_eof rs ->
  exists u made p', read_events dm' bio' n calls (watched c k log) = Ret (watched c' (k + u) (log ++ made), Some rs) /\ count_reads made = u /\
    level (c_reader c') p' (k + u).
Proof.
  intros n calls. induction calls as [|m IH]; intros c c' rs k log p Hl H Hne; cbn [read_events] in *.
  - injection H as <- <-. exists 0, [], p. rewrite app_nil_r, Nat.add_0_r. auto.
  - destruct (read_event dm bio n c) as [[c1 [ev|]]| |] eqn:E; cbn [obind] in H; try discriminate.
    destruct (read_events dm bio n m c1) as [[c2 [evs|]]| |] eqn:E2; cbn [obind] in H; try discriminate.
    injection H as <- <-. apply Forall_inv in Hne as Hne1. apply Forall_inv_tail in Hne.
    destruct (event_level n c c1 ev k log p Hl E Hne1) as [u [made [p1 [E1 [Hu Hl1]]]]]. rewrite E1. cbn [obind].
    destruct (IH c1 c2 evs (k + u) (log ++ made) p1 Hl1 E2 Hne) as [u2 [made2 [p2 [E3 [Hu2 Hl2]]]]]. rewrite E3. cbn [obind].
    exists (u + u2), (made ++ made2), p2. destruct (count_app made made2) as [-> _]. rewrite app_assoc, Nat.add_assoc.
    split; [reflexivity|]. split; [lia|exact Hl2].
Qed.
End Filling.

Lemma whole_calls : forall (P D R : Type) (i : io R) src good tell (ps : parser P D) cap r0 d n calls c' rs,
  source_ok i src good tell -> fills i src good tell -> within ps -> good r0 -> tell r0 = 0 ->
  read_events (parser_demuxer ps (acc_buffered i)) (acc_buffered i) n calls (context_new d (with_capacity cap r0)) = Ret (c', Some rs) ->
  Forall not_eof rs ->
  exists k log, read_events (parser_demuxer (counting ps) (acc_buffered (traced i))) (acc_buffered (traced i)) n calls
      (context_new (d, 0) (with_capacity cap (r0, []))) = Ret (watched c' k log, Some rs) /\
    count_reads log <= length src / (cap + 1) + 1.
Proof.
  intros P D R i src good tell ps cap r0 d n calls c' rs Hs Hf Hw Hg Ht H Hne.
  destruct (events_level i src good tell ps Hs Hf Hw cap n calls (context_new d (with_capacity cap r0)) c' rs 0 [] 0) as [u [made [p [E [Hu [Hr [Hp [_ Hk]]]]]]]].
  - split; [apply new_rep; assumption|]. split; [lia|]. split; [cbn; rewrite repeat_length; lia|]. lia.
  - exact H.
  - exact Hne.
  - exists u, made. split; [exact E|]. rewrite Hu. rewrite Nat.add_0_l in Hk.
    pose proof (rp_avail _ _ _ _ _ Hr) as Hav. pose proof (rp_tell _ _ _ _ _ Hr). fold (held (c_reader c')) in Hav.
    assert (G : forall q, q * (cap + 1) <= length src -> q <= length src / (cap + 1)).
    { intros q Hq. apply Nat.div_le_lower_bound; lia. }
    destruct Hk as [Hk|[_ Hk]].
    + specialize (G u). lia.
    + specialize (G (u - 1) Hk). lia.
Qed.

Lemma requests_calls : forall (P D R : Type) (i : io R) (ps : parser P D) n calls (c c' : dctx P D (acc R)) rs,
  slices_kept i -> within ps -> apos (c_reader c) <= aend (c_reader c) <= length (abuf (c_reader c)) ->
  read_events (parser_demuxer ps (acc_buffered i)) (acc_buffered i) n calls c = Ret (c', rs) ->
  exists log, read_events (parser_demuxer (counting ps) (acc_buffered (traced i))) (acc_buffered (traced i)) n calls (watched c 0 []) =
      Ret (watched c' (count_reads log) log, rs) /\
    count_seeks log = 0.
Proof.
  intros P D R i ps n calls c c' rs Hk Hw [H1 H2] H.
  destruct (events_watched i ps Hw Hk n calls c c' rs 0 []) as [u [made [E [Hs Hu]]]]; [split; assumption|exact H|].
  exists made. subst u. split; [exact E|exact Hs].
Qed.

Lemma round_asks : forall (P D R : Type) (i : io R) (ps : parser P D) n (c : dctx P D (acc R)) d' dat needed,
  apos (c_reader c) <= aend (c_reader c) <= length (abuf (c_reader c)) -> data (c_reader c) = Ret dat ->
  ps_event ps (c_demuxer c) dat = (d', Error (MoreDataNeeded needed)) -> length dat < needed ->
  forall c' r, read_event (parser_demuxer ps (acc_buffered i)) (acc_buffered i) (S n) c = Ret (c', r) ->
  exists a3 res, fill_buf i (grow (c_reader c) needed) = Ret (a3, res) /\
    forall log, exists rr, fill_buf (traced i) (grow (logged (c_reader c) log) needed) =
      Ret (logged a3 (log ++ [CRead (length (abuf (c_reader c)) + needed - length dat) rr]), res).
Proof.
  intros P D R i ps n c d' dat needed [H1 H2] Hd Ep Hn c' r H. rewrite read_event_round in H.
  unfold round, read_event_internal in H. cbn [parser_demuxer dm_event acc_buffered b_data b_seek b_fill b_grow] in H.
  rewrite Hd in H. cbn [obind] in H. rewrite Ep in H. cbn [obind c_reader] in H. rewrite Hd in H. cbn [obind] in H.
  destruct (Nat.leb_spec needed (length dat)); [lia|].
  destruct (fill_buf i (grow (c_reader c) needed)) as [[a3 res]| |] eqn:Ef; cbn [obind] in H; try discriminate.
  exists a3, res. split; [reflexivity|]. intros log.
  assert (Hpg : proper (grow (c_reader c) needed)).
  { split; cbn [grow apos aend abuf]; [assumption|]. rewrite app_length. lia. }
  destruct (fill_calls i _ log a3 res Hpg Ef) as [calls [E1 Ho]].
  destruct (data_proper (c_reader c)) as [dat' [Hd' Hl']]; [split; assumption|]. rewrite Hd in Hd'. injection Hd' as <-.
  assert (Hx : length (abuf (grow (c_reader c) needed)) - held (grow (c_reader c) needed) = length (abuf (c_reader c)) + needed - length dat).
  { rewrite Hl'. unfold held. cbn [grow abuf apos aend]. rewrite app_length, repeat_length. reflexivity. }
  rewrite Hx in Ho. unfold held in Hl'. destruct (length (abuf (c_reader c)) + needed - length dat) as [|q] eqn:Eq; [lia|].
  destruct Ho as [rr ->]. exists rr. exact E1.
Qed.

Lemma tlv_within : within DemuxExamples.tlv_parser.
Proof.
  intros d dat d' s ev E. cbn [DemuxExamples.tlv_parser ps_event] in E. destruct dat as [|x rest]; [discriminate E|].
  destruct (x =? 255)%N; [injection E as _ <- _; exists 1; split; [reflexivity|cbn; lia]|].
  destruct (x =? 254)%N; [injection E as _ <- _; exists 1; split; [reflexivity|cbn; lia]|].
  destruct (x =? 253)%N; [discriminate E|].
  destruct (x =? 0)%N; [injection E as _ <- _; exists 1; split; [reflexivity|cbn; lia]|].
  destruct (Nat.ltb_spec (length rest) (N.to_nat x)) as [Hl|Hl]; [discriminate E|].
  assert (s = Current (1 + Z.of_N x)) as -> by congruence. exists (S (N.to_nat x)). split; [f_equal; lia|cbn [length]; lia].
Qed.
