(** The size of the buffer of an [AccReader] while demuxing. *)
From Coq Require Import List Arith NArith ZArith Bool Lia.
From Coq Require Import ZifyBool ZifyNat ZifyN.
From Verif Require Import Base AccModel AccSpec AccProofs AccProofs2 FormatModel DemuxModel DemuxSpec DemuxProofs DemuxProofs2 DemuxProofs3 DemuxExamples RetrySpec BufSizeSpec.
Import ListNotations.
Local Open Scope nat_scope.

Section Source.
Context {S : Type}.
Variable i : io S.
Variable src : list N.
Variable good : S -> Prop.
Variable tell : S -> nat.
Hypothesis Hsrc : source_ok i src good tell.
Notation rep := (rep src good tell).
Notation bio := (acc_buffered i).
Context {P D : Type}.
Variable ps : parser P D.
Hypothesis HL : local_seeks ps.
Variable m : nat.
Hypothesis Hm : requests_at_most ps m.
Notation dm := (parser_demuxer ps bio).

Definition buf_len (c : dctx P D (acc S)) : nat := length (abuf (c_reader c)).
Definition seen (c : dctx P D (acc S)) : nat := tell (inner (c_reader c)).
Definition inside (c : dctx P D (acc S)) : Prop := exists p, rep (c_reader c) p /\ p <= length src.

Lemma inside_seen : forall c, inside c -> seen c <= length src.
Proof.
  intros c [p [H Hp]]. unfold seen. rewrite (rp_tell _ _ _ _ _ H). pose proof (rp_avail _ _ _ _ _ H). lia.
Qed.

Lemma within_seek_same : forall a p s dat, rep a p -> data a = Ret dat -> within dat s -> p <= length src ->
  exists a' q, seek i a s = Ret (a', Okay q) /\ rep a' q /\ q <= length src /\ abuf a' = abuf a /\ inner a' = inner a.
Proof.
  intros a p s dat H Hd [k [Hk ->]] Hp. rewrite (data_rep src good tell a p H) in Hd. injection Hd as <-.
  rewrite (data_length src good tell a p H) in Hk.
  destruct (seek_rep i src good tell Hsrc a p (Current k) H ltac:(cbn; lia)) as [a' [res [E [_ Hres]]]].
  pose proof E as E0. cbn [seek] in E0. rewrite csub_ok in E0 by apply H. cbn [obind] in E0. destruct (Z.leb_spec 0 k); [|lia].
  unfold buffered in Hk. destruct (Nat.leb_spec (Z.to_nat k) (aend a - apos a)); [|lia].
  assert (res = Okay (aindex a + Z.to_nat k)) as -> by (cbn [aindex] in E0; congruence).
  assert (a' = mk_acc (inner a) (abuf a) (apos a + Z.to_nat k) (aend a) (aindex a + Z.to_nat k)) as -> by congruence.
  destruct Hres as [_ Hr']. eexists _, _. split; [exact E|]. split; [exact Hr'|].
  pose proof (rp_avail _ _ _ _ _ H). pose proof (rp_index _ _ _ _ _ H). split; [lia|]. split; reflexivity.
Qed.

(** What the data request of a round does. *)
Lemma request_size : forall a p k, rep a p -> exists a' res, fill_buf i (grow a k) = Ret (a', res) /\ rep a' p /\
  length (abuf a') = length (abuf a) + k /\ buffered a <= buffered a' /\
  match res with Okay d => data a' = Ret d /\ length d = buffered a' | Error _ => True end.
Proof.
  intros a p k H. pose proof (grow_rep src good tell a p k H) as Hg.
  destruct (fill_rep i src good tell Hsrc _ p Hg) as [a' [res [E [H' [L Hres]]]]].
  exists a', res. split; [exact E|]. split; [exact H'|]. cbn [grow abuf] in L. rewrite app_length, repeat_length in L.
  split; [exact L|]. change (buffered (grow a k)) with (buffered a) in Hres. destruct res as [d|e].
  - destruct Hres as [Hd [Hle _]]. split; [exact Hle|]. split; [exact Hd|].
    rewrite (data_rep src good tell a' p H') in Hd. injection Hd as <-. apply (data_length src good tell a' p H').
  - split; [lia|exact I].
Qed.

Lemma round_size : forall c, inside c -> exists x, round dm bio c = Ret x /\
  match x with
  | inl (c', _) => inside c' /\ seen c <= seen c' /\ buf_len c' <= buf_len c + m
  | inr c' => inside c' /\ seen c <= seen c' /\ buf_len c' <= buf_len c + m * (seen c' - seen c)
  end.
Proof.
  intros [d a info] [p [Hr Hp]]. cbn [c_reader] in Hr.
  destruct (rep_prefix src good tell a p Hr) as [dat [more [Hdat [_ [Hlen _]]]]].
  assert (Req : forall d' a1 p1 k dat1, rep a1 p1 -> p1 <= length src -> abuf a1 = abuf a -> inner a1 = inner a -> data a1 = Ret dat1 -> k <= m ->
    exists x, (let! d0 := data a1 in
       if k <=? length d0 then Ret (inr (mk_dctx d' a1 info))
       else let! (r3, fr) := fill_buf i (grow a1 k) in
            match fr with
            | Okay _ => let! d3 := data r3 in if length d3 <=? length d0 then Ret (inl (mk_dctx d' r3 info, Okay (@Eof P))) else Ret (inr (mk_dctx d' r3 info))
            | Error e => Ret (inl (mk_dctx d' r3 info, Error (Io e)))
            end) = Ret x /\
     match x with
     | inl (c', _) => inside c' /\ seen (mk_dctx d a info) <= seen c' /\ buf_len c' <= buf_len (mk_dctx d a info) + m
     | inr c' => inside c' /\ seen (mk_dctx d a info) <= seen c' /\ buf_len c' <= buf_len (mk_dctx d a info) + m * (seen c' - seen (mk_dctx d a info))
     end).
  { intros d' a1 p1 k dat1 H1 Hp1 Eb Ei Hd1 Hk. rewrite Hd1. cbn [obind].
    assert (L1 : length dat1 = buffered a1).
    { rewrite (data_rep src good tell a1 p1 H1) in Hd1. injection Hd1 as <-. apply (data_length src good tell a1 p1 H1). }
    unfold seen, buf_len, inside. cbn [c_reader].
    destruct (Nat.leb_spec k (length dat1)) as [Hle|Hgt].
    - eexists. split; [reflexivity|]. cbn [c_reader]. split; [exists p1; split; assumption|]. rewrite Eb, Ei. split; lia.
    - destruct (request_size a1 p1 k H1) as [a3 [fr [Ef [H3 [L3 [B3 Hfr]]]]]]. rewrite Ef. cbn [obind].
      assert (T1 : tell (inner a) = p1 + buffered a1) by (rewrite <- Ei; apply (rp_tell _ _ _ _ _ H1)).
      assert (T3 : tell (inner a3) = p1 + buffered a3) by apply (rp_tell _ _ _ _ _ H3).
      rewrite Eb in L3. destruct fr as [d3|e].
      + destruct Hfr as [Hd3 Hl3]. rewrite Hd3. cbn [obind]. destruct (Nat.leb_spec (length d3) (length dat1)).
        * eexists. split; [reflexivity|]. cbn [c_reader]. split; [exists p1; split; assumption|]. rewrite T1, T3, L3. split; lia.
        * eexists. split; [reflexivity|]. cbn [c_reader]. split; [exists p1; split; assumption|]. rewrite T1, T3, L3. split; [lia|nia].
      + eexists. split; [reflexivity|]. cbn [c_reader]. split; [exists p1; split; assumption|]. rewrite T1, T3, L3. split; lia. }
  unfold round, read_event_internal. cbn [parser_demuxer dm_event acc_buffered b_data b_seek b_fill b_grow c_demuxer c_reader c_info].
  rewrite Hdat. cbn [obind]. destruct (ps_event ps d dat) as [d' res] eqn:Ep. cbn [obind].
  assert (Same : forall d2 info2 a2 p2 r, rep a2 p2 -> p2 <= length src -> abuf a2 = abuf a -> inner a2 = inner a ->
    exists x, Ret (@inl (dctx P D (acc S) * result (event P) error) (dctx P D (acc S)) (mk_dctx d2 a2 info2, r)) = Ret x /\
     match x with
     | inl (c', _) => inside c' /\ seen (mk_dctx d a info) <= seen c' /\ buf_len c' <= buf_len (mk_dctx d a info) + m
     | inr c' => inside c' /\ seen (mk_dctx d a info) <= seen c' /\ buf_len c' <= buf_len (mk_dctx d a info) + m * (seen c' - seen (mk_dctx d a info))
     end).
  { intros d2 info2 a2 p2 r H2 Hp2 Eb Ei. eexists. split; [reflexivity|]. unfold inside, seen, buf_len. cbn [c_reader].
    split; [exists p2; split; assumption|]. rewrite Eb, Ei. split; lia. }
  destruct res as [[s ev]|[|k|io]]; cbn [obind].
  - destruct (within_seek_same a p s dat Hr Hdat (HL _ _ _ _ _ Ep) Hp) as [a' [q [Es [Hr' [Hq [Eb Ei]]]]]]. rewrite Es. cbn [obind].
    destruct ev as [pk|st|k| |].
    + destruct (t_timebase (p_t pk)) as [tb|]; cbn [obind]; [apply (Same _ _ a' q); assumption|].
      rewrite find_first. destruct (first_stream (g_streams info) (p_stream_index pk)); cbn [obind]; apply (Same _ _ a' q); assumption.
    + apply (Same _ _ a' q); assumption.
    + cbn [obind]. destruct (rep_prefix src good tell a' q Hr') as [dat' [_ [Hdat' _]]].
      apply (Req d' a' q k dat'); try assumption. apply (Hm d dat d'). right. exists s. exact Ep.
    + apply (Same _ _ a' q); assumption.
    + apply (Same _ _ a' q); assumption.
  - apply (Same _ _ a p); try assumption; reflexivity.
  - cbn [obind]. apply (Req d' a p k dat); try assumption; try reflexivity. apply (Hm d dat d'). left. exact Ep.
  - apply (Same _ _ a p); try assumption; reflexivity.
Qed.

Lemma event_size : forall n c, inside c -> exists c' o, read_event dm bio n c = Ret (c', o) /\
  inside c' /\ seen c <= seen c' /\ buf_len c' <= buf_len c + m * (seen c' - seen c) + m.
Proof.
  induction n as [|n IH]; intros c H.
  - exists c, None. split; [reflexivity|]. split; [exact H|]. lia.
  - rewrite read_event_round. destruct (round_size c H) as [[[c1 r]|c1] [E H1]]; rewrite E; cbn [obind].
    + exists c1, (Some r). split; [reflexivity|]. destruct H1 as [H1 [H2 H3]]. split; [exact H1|]. split; [exact H2|]. generalize (m * (seen c1 - seen c)). lia.
    + destruct H1 as [H1 [H2 H3]]. destruct (IH c1 H1) as [c' [o [E' [H' [H2' H3']]]]].
      exists c', o. split; [exact E'|]. split; [exact H'|]. split; [lia|].
      assert (m * (seen c' - seen c) = m * (seen c' - seen c1) + m * (seen c1 - seen c)).
      { rewrite <- Nat.mul_add_distr_l. f_equal. lia. }
      lia.
Qed.

Lemma events_size : forall calls n c, inside c -> exists c' o, read_events dm bio n calls c = Ret (c', o) /\
  inside c' /\ seen c <= seen c' /\ buf_len c' <= buf_len c + m * (seen c' - seen c) + m * calls.
Proof.
  induction calls as [|calls IH]; intros n c H; cbn [read_events].
  - exists c, (Some []). split; [reflexivity|]. split; [exact H|]. lia.
  - destruct (event_size n c H) as [c1 [o [E [H1 [H2 H3]]]]]. rewrite E. cbn [obind]. destruct o as [r|].
    + destruct (IH n c1 H1) as [c2 [o2 [E2 [H1' [H2' H3']]]]]. rewrite E2. cbn [obind].
      assert (Hb : buf_len c2 <= buf_len c + m * (seen c2 - seen c) + m * Datatypes.S calls).
      { assert (m * (seen c2 - seen c) = m * (seen c2 - seen c1) + m * (seen c1 - seen c)).
        { rewrite <- Nat.mul_add_distr_l. f_equal. lia. }
        rewrite (Nat.mul_succ_r m calls). lia. }
      destruct o2 as [rs|]; (eexists _, _; split; [reflexivity|]; split; [exact H1'|]; split; [lia|exact Hb]).
    + eexists _, _. split; [reflexivity|]. split; [exact H1|]. split; [exact H2|]. rewrite (Nat.mul_succ_r m calls). lia.
Qed.
End Source.

(** ** A slow source *)

Lemma slow_fill : forall a src p q script, rep src (fun c => cur_src c = src) cur_pos a p -> aend a < length (abuf a) ->
  inner a = mk_cursor src q (Deliver 1 :: script) -> q < length src ->
  exists a' d, fill_buf cursor_io a = Ret (a', Okay d) /\ rep src (fun c => cur_src c = src) cur_pos a' p /\
    length (abuf a') = length (abuf a) /\ inner a' = mk_cursor src (Datatypes.S q) script.
Proof.
  intros a src p q script H Hend Hin Hq.
  destruct (fill_rep cursor_io src _ cur_pos (cursor_ok src) a p H) as [a' [res [E [H' [L _]]]]].
  pose proof E as E0. unfold fill_buf in E0.
  destruct (reset_rep src _ cur_pos a p H) as [a1 [E1 [H1 [P1 [N1 [L1 [I1 B1]]]]]]].
  replace (aend a =? length (abuf a)) with false in E0 by (symmetry; apply Nat.eqb_neq; lia).
  rewrite orb_true_r, E1 in E0. cbn [obind] in E0.
  rewrite slice_ok in E0 by (try apply H1; lia). cbn [obind] in E0. rewrite I1, Hin in E0.
  set (tail := firstn (length (abuf a1) - aend a1) (skipn (aend a1) (abuf a1))) in E0.
  assert (Lt : length tail = length (abuf a1) - aend a1) by (unfold tail; rewrite firstn_length, skipn_length; lia).
  pose proof (rp_pos _ _ _ _ _ H). unfold buffered in N1.
  cbn [cursor_io io_read] in E0. unfold cursor_read in E0. cbn [cur_pos cur_src cur_script] in E0.
  replace (Nat.min (Nat.min (length tail) (length (skipn q src))) (Nat.max 1 1)) with 1 in E0 by (rewrite Lt, skipn_length; lia).
  cbn [abuf apos aend] in E0.
  destruct (slice _ _ _) as [d| |]; try discriminate E0. cbn [obind] in E0.
  exists a', d. assert (a' = mk_acc (mk_cursor src (q + 1) script) (with_tail (abuf a1) (aend a1) (firstn 1 (skipn q src) ++ skipn 1 tail)) (apos a1) (aend a1 + 1) (aindex a1)) as Ha by congruence.
  split; [rewrite E; congruence|]. split; [exact H'|]. split; [exact L|]. rewrite Ha. cbn [inner]. f_equal. lia.
Qed.

Lemma slow_growth : forall src k a len info, rep src (fun c => cur_src c = src) cur_pos a 0 -> length (abuf a) = len ->
  k <= length src -> inner a = mk_cursor src (length src - k) (repeat (Deliver 1) k) ->
  exists a', rep src (fun c => cur_src c = src) cur_pos a' 0 /\ length (abuf a') = len + length src * k /\
    inner a' = mk_cursor src (length src) [] /\
    forall n, read_event (parser_demuxer (block_parser (length src)) (acc_buffered cursor_io)) (acc_buffered cursor_io) (k + n) (mk_dctx tt a info) =
              read_event (parser_demuxer (block_parser (length src)) (acc_buffered cursor_io)) (acc_buffered cursor_io) n (mk_dctx tt a' info).
Proof.
  intros src. induction k as [|k IH]; intros a len info H Hlen Hk Hin.
  - exists a. split; [exact H|]. split; [lia|]. split; [rewrite Hin; f_equal; lia|reflexivity].
  - pose proof (rp_tell _ _ _ _ _ H) as Ht. rewrite Hin in Ht. cbn [cur_pos Nat.add] in Ht. change (aend a - apos a) with (buffered a) in Ht.
    pose proof (grow_rep src _ cur_pos a 0 (length src) H) as Hg. pose proof (rp_end _ _ _ _ _ H) as He.
    destruct (slow_fill (grow a (length src)) src 0 (length src - Datatypes.S k) (repeat (Deliver 1) k) Hg) as [a1 [d1 [E1 [H1 [L1 I1]]]]].
    { cbn [grow abuf aend]. rewrite app_length, repeat_length. lia. }
    { cbn [grow inner]. rewrite Hin. reflexivity. }
    { lia. }
    cbn [grow abuf] in L1. rewrite app_length, repeat_length in L1.
    destruct (IH a1 (len + length src) info H1) as [a' [H' [L' [I' E']]]].
    { lia. } { lia. } { rewrite I1. f_equal. lia. }
    exists a'. split; [exact H'|]. split; [rewrite L'; lia|]. split; [exact I'|].
    intros n. cbn [Nat.add]. rewrite read_event_S. unfold read_event_internal.
    cbn [parser_demuxer dm_event acc_buffered b_data b_seek b_fill b_grow c_demuxer c_reader c_info].
    rewrite (data_rep src _ cur_pos a 0 H). cbn [obind]. cbn [block_parser ps_event].
    rewrite (data_length src _ cur_pos a 0 H). destruct (Nat.ltb_spec (buffered a) (length src)); [|lia].
    cbn [obind]. cbn [c_reader c_demuxer c_info]. rewrite (data_rep src _ cur_pos a 0 H). cbn [obind].
    rewrite (data_length src _ cur_pos a 0 H). destruct (Nat.leb_spec (length src) (buffered a)); [lia|].
    rewrite E1. cbn [obind]. rewrite (data_rep src _ cur_pos a1 0 H1). cbn [obind].
    rewrite (data_length src _ cur_pos a1 0 H1).
    pose proof (rp_tell _ _ _ _ _ H1) as Ht1. rewrite I1 in Ht1. cbn [cur_pos Nat.add] in Ht1. change (aend a1 - apos a1) with (buffered a1) in Ht1.
    destruct (Nat.leb_spec (buffered a1) (buffered a)); [lia|]. rewrite <- E'. reflexivity.
Qed.
