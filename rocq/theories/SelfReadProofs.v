(** Demuxing with demuxers that read by themselves. *)
From Coq Require Import List Arith NArith ZArith Bool Lia.
From Coq Require Import ZifyBool ZifyNat ZifyN.
From Verif Require Import Base AccModel AccSpec AccProofs AccProofs2 FormatModel DemuxModel DemuxSpec DemuxProofs SelfReadSpec.
Import ListNotations.
Local Open Scope nat_scope.

Section Self.
Context {S P D : Type}.
Variable i : io S.
Variable src : list N.
Variable good : S -> Prop.
Variable tell : S -> nat.
Hypothesis Hsrc : source_ok i src good tell.
Hypothesis Hnf : never_fails i src good tell.
Notation rep := (rep src good tell).

Lemma reading_bytes : forall (A : Type) (t : reading A) a p, rep a p ->
  exists a', on_reader i a t = Ret (a', snd (on_bytes src p t)) /\ rep a' (fst (on_bytes src p t)).
Proof.
  intros A. induction t as [x|n next IH|q next IH|next IH]; intros a p H; cbn [on_reader on_bytes].
  - exists a. split; [reflexivity|exact H].
  - destruct (read_exact_rep i src good tell Hsrc Hnf n n a p H (le_n n)) as [a' [p' [E [H' Hp]]]]. rewrite E. cbn [obind].
    destruct (n <=? length src - p); subst p'; apply IH, H'.
  - destruct (seek_never_fails i src good tell Hsrc Hnf a p (Start q) q H I eq_refl) as [a' [E H']]. rewrite E. cbn [obind]. apply IH, H'.
  - destruct (seek_never_fails i src good tell Hsrc Hnf a p (Current 0) p H ltac:(cbn; lia) ltac:(cbn [target]; lia)) as [a' [E H']]. rewrite E. cbn [obind]. apply IH, H'.
Qed.

Lemma landing_ok : forall l a p, rep a p -> exists a', seek i a (landing_seek l) = Ret (a', Okay (land p l)) /\ rep a' (land p l).
Proof.
  intros l a p H. apply (seek_never_fails i src good tell Hsrc Hnf a p); [exact H| |]; destruct l; cbn; lia.
Qed.

Lemma position_rep : forall a p, rep a p -> seek i a (Current 0) = Ret (a, Okay p).
Proof.
  intros a p H. cbn [seek]. rewrite csub_ok by apply H. cbn [obind Z.leb Z.compare Z.to_nat Nat.leb].
  pose proof (rp_index _ _ _ _ _ H) as Hi. destruct a as [r x1 x y z]. cbn [inner abuf apos aend aindex] in *.
  rewrite !Nat.add_0_r, Hi. reflexivity.
Qed.

Variable sr : self_reader P D.
Hypothesis Hask : never_asks sr src.
Notation dm := (self_demuxer sr i).
Notation b := (acc_buffered i).

Lemma self_headers : forall k d a p info, rep a p ->
  exists a', let '(d', p', info', r) := bare_headers sr src d p info in
    read_headers dm b (Datatypes.S k) (mk_dctx d a info) = Ret (mk_dctx d' a' info', Some r) /\ rep a' p'.
Proof.
  intros k d a p info H. cbn [read_headers acc_buffered b_fill c_reader c_demuxer c_info].
  destruct (fill_never_fails i src good tell Hsrc Hnf a p H) as [a1 [dat [E1 H1]]]. rewrite E1. cbn [obind].
  unfold read_headers_internal. cbn [self_demuxer dm_headers c_demuxer c_reader c_info acc_buffered b_seek].
  destruct (reading_bytes _ (sr_headers sr d info) a1 p H1) as [a2 [E2 H2]]. rewrite E2. cbn [obind]. unfold bare_headers.
  pose proof (proj1 Hask d p info) as A. destruct (on_bytes src p (sr_headers sr d info)) as [p2 [[d2 info2] res]]. cbn [fst snd] in *.
  destruct res as [l|e]; cbn [obind].
  - destruct (landing_ok l a2 p2 H2) as [a3 [E3 H3]]. rewrite E3. cbn [obind]. exists a3. split; [reflexivity|exact H3].
  - exists a2. destruct e as [|n|x]; cbn [obind]; [split; [reflexivity|exact H2]|exfalso; exact (A n eq_refl)|split; [reflexivity|exact H2]].
Qed.

Lemma self_event : forall k d a p info, rep a p ->
  exists a', let '(d', p', info', r) := bare_event sr src d p info in
    read_event dm b (Datatypes.S k) (mk_dctx d a info) = Ret (mk_dctx d' a' info', Some r) /\ rep a' p'.
Proof.
  intros k d a p info H. cbn [read_event]. unfold read_event_internal. cbn [self_demuxer dm_event c_demuxer c_reader c_info acc_buffered b_seek].
  destruct (reading_bytes _ (sr_event sr d) a p H) as [a2 [E2 H2]]. rewrite E2. cbn [obind]. unfold bare_event.
  pose proof (proj1 (proj2 Hask) d p) as A1. pose proof (proj2 (proj2 Hask) d p) as A2.
  destruct (on_bytes src p (sr_event sr d)) as [p2 [d2 res]]. cbn [fst snd] in *. destruct res as [[l ev]|e]; cbn [obind].
  - destruct (landing_ok l a2 p2 H2) as [a3 [E3 H3]]. rewrite E3. cbn [obind]. exists a3.
    destruct ev as [pk|st|n| |]; cbn [register stamped obind]; try (split; [reflexivity|exact H3]).
    + destruct (t_timebase (p_t pk)) as [tb|]; [split; [reflexivity|exact H3]|]. rewrite find_first.
      destruct (first_stream (g_streams info) (p_stream_index pk)) as [st|]; (split; [reflexivity|exact H3]).
    + exfalso. exact (A2 l n eq_refl).
  - exists a2. destruct e as [|n|x]; cbn [obind]; [split; [reflexivity|exact H2]|exfalso; exact (A1 n eq_refl)|split; [reflexivity|exact H2]].
Qed.

Lemma self_events : forall k calls d a p info, rep a p ->
  exists a', let '(d', p', info', rs) := bare_events sr src calls d p info in
    read_events dm b (Datatypes.S k) calls (mk_dctx d a info) = Ret (mk_dctx d' a' info', Some rs) /\ rep a' p'.
Proof.
  intros k. induction calls as [|calls IH]; intros d a p info H; cbn [read_events bare_events].
  - exists a. split; [reflexivity|exact H].
  - destruct (self_event k d a p info H) as [a1 E1]. destruct (bare_event sr src d p info) as [[[d1 p1] info1] r]. destruct E1 as [E1 H1].
    rewrite E1. cbn [obind]. destruct (IH d1 a1 p1 info1 H1) as [a2 E2]. destruct (bare_events sr src calls d1 p1 info1) as [[[d2 p2] info2] rs].
    destruct E2 as [E2 H2]. exists a2. rewrite E2. cbn [obind]. split; [reflexivity|exact H2].
Qed.

Lemma self_read : forall cap r0 d calls k, good r0 -> tell r0 = 0 ->
  let '(d1, p1, info1, hr) := bare_headers sr src d 0 (mk_info None None []) in
  let '(d2, p2, info2, rs) := bare_events sr src calls d1 p1 info1 in
  exists a1 a2,
    read_headers dm b (Datatypes.S k) (context_new d (with_capacity cap r0)) = Ret (mk_dctx d1 a1 info1, Some hr) /\
    read_events dm b (Datatypes.S k) calls (mk_dctx d1 a1 info1) = Ret (mk_dctx d2 a2 info2, Some rs) /\
    seek i a2 (Current 0) = Ret (a2, Okay p2).
Proof.
  intros cap r0 d calls k Hg Ht. destruct (self_headers k d (with_capacity cap r0) 0 (mk_info None None []) (new_rep src good tell cap r0 Hg Ht)) as [a1 E1].
  destruct (bare_headers sr src d 0 (mk_info None None [])) as [[[d1 p1] info1] hr]. destruct E1 as [E1 H1].
  destruct (self_events k calls d1 a1 p1 info1 H1) as [a2 E2]. destruct (bare_events sr src calls d1 p1 info1) as [[[d2 p2] info2] rs]. destruct E2 as [E2 H2].
  exists a1, a2. split; [exact E1|]. split; [exact E2|]. exact (position_rep a2 p2 H2).
Qed.
End Self.

Lemma chunk_never_asks : forall src, never_asks chunk_reader src.
Proof.
  intros src. assert (Ev : forall d p, match snd (snd (on_bytes src p (sr_event chunk_reader d))) with
      Okay (_, MoreData _) => False | Error (MoreDataNeeded _) => False | _ => True end).
  { intros d p. cbn [chunk_reader sr_event on_bytes].
    assert (Two : forall d q n, match snd (snd (on_bytes src q (AskWhere (fun p => ReadExact n (fun r' : result (list N) io_error =>
         match r' with
         | Okay l => Finish (d + 1, Okay (Ahead 1, NewPacket (mk_packet l (Some (N.of_nat p)) 0 default_time false false)))
         | Error e => GoTo p (Finish (d, Error (Io e)))
         end))) : nat * (nat * result (landing * event unit) error))) with Okay (_, MoreData _) => False | Error (MoreDataNeeded _) => False | _ => True end).
    { intros d0 q n. cbn [on_bytes]. destruct (n <=? length src - q); exact I. }
    destruct (1 <=? length src - p); [|exact I]. destruct (firstn 1 (skipn p src)) as [|[|x] [|y l]]; try exact I. apply Two. }
  split; [|split].
  - intros d p info n. cbn [chunk_reader sr_headers on_bytes]. destruct (2 <=? length src - p); [|discriminate].
    destruct (firstn 2 (skipn p src)) as [|x [|y [|z l]]]; try discriminate.
    + destruct x as [|x]; try discriminate. repeat (destruct x as [x|x|]; try discriminate).
    + destruct x as [|x]; try discriminate. repeat (destruct x as [x|x|]; try discriminate).
    + destruct x as [|x]; try discriminate. repeat (destruct x as [x|x|]; try discriminate).
  - intros d p n E. specialize (Ev d p). rewrite E in Ev. exact Ev.
  - intros d p l n E. specialize (Ev d p). rewrite E in Ev. exact Ev.
Qed.
