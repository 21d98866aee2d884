(** Probing, and the statements about contexts in terms of fresh readers. *)
From Coq Require Import List Arith NArith ZArith Bool Lia.
From Coq Require Import ZifyBool ZifyNat ZifyN.
From Verif Require Import Base AccModel AccSpec AccProofs AccProofs2 FormatModel DemuxModel DemuxSpec DemuxProofs DemuxProofs2.
Import ListNotations.
Local Open Scope nat_scope.

(** ** Probing *)

Section Probe.
Context {T : Type}.
Variable score : T -> list N -> N.
Variable dat : list N.

Definition pstep := fun '(mx, candidate) desc =>
      let sc := score desc dat in
      if (mx <? sc)%N then (sc, Some desc) else ((mx, candidate) : N * option T).

Definition best (l : list T) (mx : N) (c : option T) : Prop :=
  (forall x, In x l -> (score x dat <= mx)%N) /\
  match c with
  | None => mx = 0%N
  | Some t => exists l1 l2, l = l1 ++ t :: l2 /\ score t dat = mx /\ (0 < mx)%N /\ (forall x, In x l1 -> (score x dat < mx)%N)
  end.

Lemma fold_best : forall l2 l1 mx c, best l1 mx c ->
  let '(mx', c') := fold_left pstep l2 (mx, c) in best (l1 ++ l2) mx' c'.
Proof.
  induction l2 as [|t l2 IH]; intros l1 mx c H.
  - cbn [fold_left]. rewrite app_nil_r. exact H.
  - cbn [fold_left]. replace (l1 ++ t :: l2) with ((l1 ++ [t]) ++ l2) by (rewrite <- app_assoc; reflexivity).
    unfold pstep at 2. destruct H as [Hall Hc]. destruct (N.ltb_spec mx (score t dat)) as [Hlt|Hge].
    + apply IH. split.
      * intros x Hx. apply in_app_or in Hx. destruct Hx as [Hx|[<-|[]]]; [pose proof (Hall x Hx); lia|lia].
      * exists l1, []. split; [reflexivity|]. split; [reflexivity|]. split; [lia|]. intros x Hx. pose proof (Hall x Hx). lia.
    + apply IH. split.
      * intros x Hx. apply in_app_or in Hx. destruct Hx as [Hx|[<-|[]]]; [apply Hall; exact Hx|lia].
      * destruct c as [u|]; [|exact Hc]. destruct Hc as [k1 [k2 [-> [Hs [Hp Hk]]]]]. exists k1, (k2 ++ [t]).
        split; [rewrite <- app_assoc; reflexivity|]. split; [exact Hs|]. split; [exact Hp|exact Hk].
Qed.

Lemma probe_best : forall l, exists mx c, best l mx c /\ probe score l dat = if (50 <? mx)%N then c else None.
Proof.
  intros l. pose proof (fold_best l [] 0%N None) as H. unfold probe. fold pstep.
  change (fun '(mx, candidate) desc => let sc := score desc dat in if (mx <? sc)%N then (sc, Some desc) else (mx, candidate)) with pstep.
  destruct (fold_left pstep l (0%N, None)) as [mx c]. exists mx, c. split; [|reflexivity].
  apply H. split; [intros x []|reflexivity].
Qed.

Lemma probe_some : forall l t, probe score l dat = Some t <->
  exists l1 l2, l = l1 ++ t :: l2 /\ (50 < score t dat)%N /\
    (forall x, In x l1 -> (score x dat < score t dat)%N) /\ (forall x, In x l2 -> (score x dat <= score t dat)%N).
Proof.
  intros l t. destruct (probe_best l) as [mx [c [[Hall Hc] ->]]]. split.
  - intros E. revert E. destruct (N.ltb_spec 50 mx) as [Hlt|]; intros E; [|discriminate E]. subst c.
    destruct Hc as [l1 [l2 [-> [Hs [_ H1]]]]]. exists l1, l2. split; [reflexivity|]. rewrite Hs. split; [exact Hlt|]. split; [exact H1|].
    intros x Hx. apply Hall. apply in_or_app. right. right. exact Hx.
  - intros [l1 [l2 [-> [Ht [H1 H2]]]]]. pose proof (Hall t (in_elt t l1 l2)) as Hm.
    destruct (N.ltb_spec 50 mx) as [_|]; [|lia]. destruct c as [u|]; [|lia].
    destruct Hc as [k1 [k2 [E [Hs [_ Hk]]]]]. f_equal.
    assert (Hu : (score u dat <= score t dat)%N).
    { assert (In u (l1 ++ t :: l2)) as Hin by (rewrite E; apply in_elt).
      apply in_app_or in Hin. destruct Hin as [Hin|[->|Hin]]; [pose proof (H1 u Hin); lia|lia|apply H2; exact Hin]. }
    assert (Hmt : score t dat = mx) by lia.
    (* both [t] and [u] are the first with that score *)
    revert k1 E Hk. clear Hu Hall. induction l1 as [|x l1 IH]; intros k1 E Hk.
    + destruct k1 as [|y k1]; [injection E as -> _; reflexivity|].
      injection E as -> _. pose proof (Hk y (or_introl eq_refl)). lia.
    + destruct k1 as [|y k1].
      * injection E as -> _. pose proof (H1 u (or_introl eq_refl)). lia.
      * injection E as -> E. apply (IH (fun z Hz => H1 z (or_intror Hz)) k1 E (fun z Hz => Hk z (or_intror Hz))).
Qed.

Lemma probe_none : forall l, probe score l dat = None <-> forall x, In x l -> (score x dat <= 50)%N.
Proof.
  intros l. destruct (probe_best l) as [mx [c [[Hall Hc] ->]]]. split.
  - intros E x Hx. pose proof (Hall x Hx). revert E. destruct (N.ltb_spec 50 mx) as [Hlt|]; intros E; [|lia].
    subst c. lia.
  - intros H. destruct (N.ltb_spec 50 mx) as [Hlt|]; [|reflexivity]. destruct c as [t|]; [|reflexivity].
    destruct Hc as [l1 [l2 [-> [Hs _]]]]. pose proof (H t (in_elt t l1 l2)). lia.
Qed.

End Probe.

(** ** Fresh contexts *)

Section Fresh.
Context {S P D : Type}.
Variable i : io S.
Variable src : list N.
Variable good : S -> Prop.
Variable tell : S -> nat.
Hypothesis Hsrc : source_ok i src good tell.

Lemma fresh_at : forall cap r0 (d : D), good r0 -> tell r0 = 0 ->
  at_state src good tell (P := P) (context_new d (with_capacity cap r0)) d 0 (mk_info None None []).
Proof. intros cap r0 d Hg Ht. apply at_intro. apply new_rep; assumption. Qed.

Lemma at_position : forall (c : dctx P D (acc S)) d p info, at_state src good tell c d p info ->
  c_demuxer c = d /\ c_info c = info /\ seek i (c_reader c) (Current 0) = Ret (c_reader c, Okay p).
Proof.
  intros [d0 a info0] d p info [Hd [H Hi]]. cbn [c_demuxer c_reader c_info] in *. split; [exact Hd|]. split; [exact Hi|].
  cbn [seek]. rewrite csub_ok by apply H. cbn [obind Z.leb Z.compare Z.to_nat Nat.leb].
  pose proof (rp_index _ _ _ _ _ H) as Hx. destruct a as [x1 x2 x3 x4 x5]. cbn [inner abuf apos aend aindex] in *.
  rewrite !Nat.add_0_r, Hx. reflexivity.
Qed.

Variable ps : parser P D.
Hypothesis Hnf : never_fails i src good tell.
Notation dm := (parser_demuxer ps (acc_buffered i)).
Notation bio := (acc_buffered i).
Notation empty := (mk_info (P := P) None None []).

Lemma fresh_events_sound : incremental ps -> forall cap r0 d calls n c' rs, good r0 -> tell r0 = 0 ->
  read_events dm bio n calls (context_new d (with_capacity cap r0)) = Ret (c', Some rs) ->
  exists m d' p' info', all_events ps src m calls d 0 empty = Some (d', p', info', rs) /\
    c_demuxer c' = d' /\ c_info c' = info' /\ seek i (c_reader c') (Current 0) = Ret (c_reader c', Okay p').
Proof.
  intros Hinc cap r0 d calls n c' rs Hg Ht E.
  destruct (events_sound i src good tell Hsrc ps Hnf Hinc calls n _ d 0 empty c' rs (fresh_at cap r0 d Hg Ht) E) as [m [d' [p' [info' [E1 H]]]]].
  exists m, d', p', info'. split; [exact E1|]. apply at_position. exact H.
Qed.

Lemma fresh_events_complete : incremental ps -> forall cap r0 d calls m d' p' info' rs, good r0 -> tell r0 = 0 ->
  all_events ps src m calls d 0 empty = Some (d', p', info', rs) ->
  exists n c', read_events dm bio n calls (context_new d (with_capacity cap r0)) = Ret (c', Some rs) /\
    c_demuxer c' = d' /\ c_info c' = info' /\ seek i (c_reader c') (Current 0) = Ret (c_reader c', Okay p').
Proof.
  intros Hinc cap r0 d calls m d' p' info' rs Hg Ht E.
  destruct (events_complete i src good tell Hsrc ps Hnf Hinc calls m _ d 0 empty d' p' info' rs (fresh_at cap r0 d Hg Ht) E) as [n [c' [E1 H]]].
  exists n, c'. split; [exact E1|]. apply at_position. exact H.
Qed.

Lemma fresh_events_total : incremental ps -> skips_forward ps -> forall cap r0 d calls, good r0 -> tell r0 = 0 ->
  exists n c' rs, read_events dm bio n calls (context_new d (with_capacity cap r0)) = Ret (c', Some rs) /\ length rs = calls.
Proof.
  intros Hinc Hf cap r0 d calls Hg Ht.
  assert (G : forall calls (c : dctx P D (acc S)) d p info, at_state src good tell c d p info ->
    exists n c' rs, read_events dm bio n calls c = Ret (c', Some rs) /\ length rs = calls).
  { clear calls. induction calls as [|calls IH]; intros c dd p info H.
    - exists 0, c, []. split; reflexivity.
    - destruct (next_event_total src ps Hf dd p info) as [m [[[[d' p'] info'] r] E]].
      destruct (event_complete i src good tell Hsrc ps Hnf Hinc m c dd p info d' p' info' r H E) as [n1 [c1 [E1 H1]]].
      destruct (IH c1 d' p' info' H1) as [n2 [c2 [rs [E2 L]]]]. exists (n1 + n2), c2, (r :: rs). split; [|cbn [length]; lia].
      cbn [read_events]. rewrite (read_event_mono dm bio n1 (n1 + n2) c c1 r E1) by lia. cbn [obind].
      rewrite (read_events_mono dm bio calls n2 (n1 + n2) c1 c2 rs E2) by lia. reflexivity. }
  apply (G calls _ d 0 empty). apply fresh_at; assumption.
Qed.

Lemma fresh_headers_hang : incremental_headers ps -> forall cap r0 d k, good r0 -> tell r0 = 0 ->
  ps_headers ps d src empty = (d, empty, Error (MoreDataNeeded k)) ->
  forall n, exists c', read_headers dm bio n (context_new d (with_capacity cap r0)) = Ret (c', None).
Proof.
  intros Hinc cap r0 d k Hg Ht E. apply (headers_hang i src good tell Hsrc ps Hnf Hinc _ d 0 empty k); [apply fresh_at; assumption|exact E].
Qed.

Lemma fresh_headers_complete : incremental_headers ps -> forall cap r0 d d' info' res, good r0 -> tell r0 = 0 ->
  ps_headers ps d src empty = (d', info', res) -> (forall n, res <> Error (MoreDataNeeded n)) ->
  exists n c', c_demuxer c' = d' /\ c_info c' = info' /\
  match res with
  | Okay s => read_headers dm bio n (context_new d (with_capacity cap r0)) = Ret (c', Some (Okay tt)) /\
      seek i (c_reader c') (Current 0) = Ret (c_reader c', Okay (Z.to_nat (target (length src) 0 s)))
  | Error e => read_headers dm bio n (context_new d (with_capacity cap r0)) = Ret (c', Some (Error e))
  end.
Proof.
  intros Hinc cap r0 d d' info' res Hg Ht E Hf.
  destruct (headers_complete i src good tell Hsrc ps Hnf Hinc _ d 0 empty d' info' res (fresh_at cap r0 d Hg Ht) E Hf) as [n [c' H]].
  exists n, c'. destruct res as [s|e]; destruct H as [E1 H]; destruct (at_position _ _ _ _ H) as [H1 [H2 H3]].
  - split; [exact H1|]. split; [exact H2|]. split; [exact E1|exact H3].
  - split; [exact H1|]. split; [exact H2|]. exact E1.
Qed.

Lemma fresh_headers_sound : incremental_headers ps -> forall cap r0 d n c', good r0 -> tell r0 = 0 ->
  read_headers dm bio n (context_new d (with_capacity cap r0)) = Ret (c', Some (Okay tt)) ->
  exists d' info' s q, ps_headers ps d src empty = (d', info', Okay s) /\ Z.of_nat q = target (length src) 0 s /\
    c_demuxer c' = d' /\ c_info c' = info' /\
    seek i (c_reader c') (Current 0) = Ret (c_reader c', Okay q).
Proof.
  intros Hinc cap r0 d n c' Hg Ht E.
  destruct (headers_sound i src good tell Hsrc ps Hnf Hinc n _ d 0 empty c' _ (fresh_at cap r0 d Hg Ht) E) as [d' [info' [res [Ep [_ Hres]]]]].
  destruct res as [s|e]; [|destruct Hres as [Hres _]; discriminate Hres].
  destruct Hres as [_ H]. exists d', info', s, (Z.to_nat (target (length src) 0 s)). split; [exact Ep|]. split.
  - pose proof (plain_target s (length src) 0 (inh_seek ps Hinc _ _ _ _ _ _ Ep)). lia.
  - apply at_position. exact H.
Qed.
End Fresh.

Section FreshAny.
Context {S P D : Type}.
Variable i : io S.
Variable src : list N.
Variable good : S -> Prop.
Variable tell : S -> nat.
Hypothesis Hsrc : source_ok i src good tell.
Variable dm : demuxer_fns P D (acc S).

Lemma fresh_eof : contract_demuxer i dm -> contract_seeks dm -> forall cap r0 ops outs a d info n c', good r0 -> tell r0 = 0 ->
  acc_legal i (with_capacity cap r0) ops -> acc_run i (with_capacity cap r0) ops = Ret (a, outs) ->
  read_event dm (acc_buffered i) n (mk_dctx d a info) = Ret (c', Some (Okay Eof)) ->
  (exists d r r' s q, dm_event dm d r = Ret (c_demuxer c', r', Okay (s, Eof)) /\ seek i r' s = Ret (c_reader c', Okay q)) \/
  (exists p dat, seek i (c_reader c') (Current 0) = Ret (c_reader c', Okay p) /\ data (c_reader c') = Ret dat /\
     dat = firstn (length dat) (skipn p src) /\ length src <= p + length dat).
Proof.
  intros Hdm Hsk cap r0 ops outs a d info n c' Hg Ht Hl Er E.
  refine (eof_honest i src good tell Hsrc dm Hdm Hsk n _ c' _ E).
  cbn [c_reader]. apply (legal_somewhere i src good tell Hsrc _ ops _ outs) in Er; [exact Er| |exact Hl].
  exists 0. apply new_rep; assumption.
Qed.
End FreshAny.
