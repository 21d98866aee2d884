(** The proofs of the theorems of [DemuxProps]. *)
From Coq Require Import List Arith NArith ZArith Bool.
From Verif Require Import Base AccModel AccSpec FormatModel DemuxModel DemuxSpec DemuxProofs DemuxProofs2 DemuxProofs3 DemuxExamples.
Import ListNotations.
Local Open Scope nat_scope.

Lemma c31_events_of_the_source : forall (S P D : Type) (i : io S) src good tell (ps : parser P D) cap r0 d calls rs,
  source_ok i src good tell -> never_fails i src good tell -> incremental ps -> good r0 -> tell r0 = 0 ->
  (exists n c', read_events (parser_demuxer ps (acc_buffered i)) (acc_buffered i) n calls (context_new d (with_capacity cap r0)) = Ret (c', Some rs)) <->
  (exists m d' p' info', all_events ps src m calls d 0 (mk_info None None []) = Some (d', p', info', rs)).
Proof.
  intros S P D i src good tell ps cap r0 d calls rs Hs Hn Hi Hg Ht. split.
  - intros [n [c' E]]. destruct (fresh_events_sound i src good tell Hs ps Hn Hi cap r0 d calls n c' rs Hg Ht E) as [m [d' [p' [info' [E' _]]]]].
    exists m, d', p', info'. exact E'.
  - intros [m [d' [p' [info' E]]]].
    destruct (fresh_events_complete i src good tell Hs ps Hn Hi cap r0 d calls m d' p' info' rs Hg Ht E) as [n [c' [E' _]]].
    exists n, c'. exact E'.
Qed.

Lemma c31_chunking_independent : forall (S S' P D : Type) (i : io S) (i' : io S') src good tell good' tell' (ps : parser P D)
    cap cap' r0 r0' d calls rs n c1,
  source_ok i src good tell -> never_fails i src good tell -> good r0 -> tell r0 = 0 ->
  source_ok i' src good' tell' -> never_fails i' src good' tell' -> good' r0' -> tell' r0' = 0 ->
  incremental ps ->
  read_events (parser_demuxer ps (acc_buffered i)) (acc_buffered i) n calls (context_new d (with_capacity cap r0)) = Ret (c1, Some rs) ->
  exists n' c2 p,
    read_events (parser_demuxer ps (acc_buffered i')) (acc_buffered i') n' calls (context_new d (with_capacity cap' r0')) = Ret (c2, Some rs) /\
    c_demuxer c2 = c_demuxer c1 /\ c_info c2 = c_info c1 /\
    seek i (c_reader c1) (Current 0) = Ret (c_reader c1, Okay p) /\ seek i' (c_reader c2) (Current 0) = Ret (c_reader c2, Okay p).
Proof.
  intros S S' P D i i' src good tell good' tell' ps cap cap' r0 r0' d calls rs n c1 Hs Hn Hg Ht Hs' Hn' Hg' Ht' Hi E.
  destruct (fresh_events_sound i src good tell Hs ps Hn Hi cap r0 d calls n c1 rs Hg Ht E) as [m [d' [p' [info' [E' [H1 [H2 H3]]]]]]].
  destruct (fresh_events_complete i' src good' tell' Hs' ps Hn' Hi cap' r0' d calls m d' p' info' rs Hg' Ht' E') as [n' [c2 [E2 [K1 [K2 K3]]]]].
  exists n', c2, p'. split; [exact E2|]. split; [congruence|]. split; [congruence|]. split; [exact H3|exact K3].
Qed.

Lemma c32_eof_only_at_the_end : forall (S P D : Type) (i : io S) src good tell (dm : demuxer_fns P D (acc S)) cap r0 ops outs a d info n c',
  source_ok i src good tell -> contract_demuxer i dm -> contract_seeks dm -> good r0 -> tell r0 = 0 ->
  acc_legal i (with_capacity cap r0) ops -> acc_run i (with_capacity cap r0) ops = Ret (a, outs) ->
  read_event dm (acc_buffered i) n (mk_dctx d a info) = Ret (c', Some (Okay Eof)) ->
  (exists d r r' s q, dm_event dm d r = Ret (c_demuxer c', r', Okay (s, Eof)) /\ seek i r' s = Ret (c_reader c', Okay q)) \/
  (exists p dat, seek i (c_reader c') (Current 0) = Ret (c_reader c', Okay p) /\ data (c_reader c') = Ret dat /\
     dat = firstn (length dat) (skipn p src) /\ length src <= p + length dat).
Proof.
  intros S P D i src good tell dm cap r0 ops outs a d info n c' Hs Hc Hk.
  exact (fresh_eof i src good tell Hs dm Hc Hk cap r0 ops outs a d info n c').
Qed.

Lemma c36_read_event_livelock_refuted :
  exists src r0 cap, source_ok cursor_io src (whole src) cur_pos /\ never_fails cursor_io src (whole src) cur_pos /\
    whole src r0 /\ cur_pos r0 = 0 /\
    ps_event dummy_parser tt src = (tt, Okay (Current 3, NewPacket packet_new)) /\
    forall n, exists c', read_event (parser_demuxer dummy_parser (acc_buffered cursor_io)) (acc_buffered cursor_io) n
      (context_new tt (with_capacity cap r0)) = Ret (c', None).
Proof.
  exists p1_src, p1_cursor, 4. split; [apply whole_ok|]. split; [apply whole_nf|]. split; [apply (whole_start p1_src [1])|].
  split; [reflexivity|]. split; [reflexivity|]. exact p1_livelock.
Qed.

Lemma c37_truncated_headers_refuted :
  exists src r0 cap, source_ok cursor_io src (whole src) cur_pos /\ never_fails cursor_io src (whole src) cur_pos /\
    whole src r0 /\ cur_pos r0 = 0 /\
    forall n, exists c', read_headers (parser_demuxer dummy_parser (acc_buffered cursor_io)) (acc_buffered cursor_io) n
      (context_new tt (with_capacity cap r0)) = Ret (c', None).
Proof.
  exists [100; 117; 109; 109; 121]%N, (mk_cursor [100; 117; 109; 109; 121]%N 0 []), 4.
  split; [apply whole_ok|]. split; [apply whole_nf|]. split; [apply (whole_start _ [])|]. split; [reflexivity|].
  apply (fresh_headers_hang cursor_io [100; 117; 109; 109; 121]%N (whole [100; 117; 109; 109; 121]%N) cur_pos (whole_ok _) dummy_parser (whole_nf _) dummy_headers 4 _ tt 4);
    [apply (whole_start _ [])|reflexivity|reflexivity].
Qed.

Lemma c37_truncated_headers_always_hang : forall (S P D : Type) (i : io S) src good tell (ps : parser P D) cap r0 d k,
  source_ok i src good tell -> never_fails i src good tell -> incremental_headers ps -> good r0 -> tell r0 = 0 ->
  ps_headers ps d src (mk_info None None []) = (d, mk_info None None [], Error (MoreDataNeeded k)) ->
  forall n, exists c', read_headers (parser_demuxer ps (acc_buffered i)) (acc_buffered i) n (context_new d (with_capacity cap r0)) = Ret (c', None).
Proof.
  intros S P D i src good tell ps cap r0 d k Hs Hn Hi. exact (fresh_headers_hang i src good tell Hs ps Hn Hi cap r0 d k).
Qed.

Lemma c37_complete_headers_partial : forall (S P D : Type) (i : io S) src good tell (ps : parser P D) cap r0 d d' info' res,
  source_ok i src good tell -> never_fails i src good tell -> incremental_headers ps -> good r0 -> tell r0 = 0 ->
  ps_headers ps d src (mk_info None None []) = (d', info', res) -> (forall n, res <> Error (MoreDataNeeded n)) ->
  exists n c', c_demuxer c' = d' /\ c_info c' = info' /\
  match res with
  | Okay s => read_headers (parser_demuxer ps (acc_buffered i)) (acc_buffered i) n (context_new d (with_capacity cap r0)) = Ret (c', Some (Okay tt)) /\
      seek i (c_reader c') (Current 0) = Ret (c_reader c', Okay (Z.to_nat (target (length src) 0 s)))
  | Error e => read_headers (parser_demuxer ps (acc_buffered i)) (acc_buffered i) n (context_new d (with_capacity cap r0)) = Ret (c', Some (Error e))
  end.
Proof.
  intros S P D i src good tell ps cap r0 d d' info' res Hs Hn Hi. exact (fresh_headers_complete i src good tell Hs ps Hn Hi cap r0 d d' info' res).
Qed.

Lemma c38_failed_seek_refuted :
  exists src r0 cap c', source_ok cursor_io src (fun c => cur_src c = src) cur_pos /\ cur_src r0 = src /\ cur_pos r0 = 0 /\
    ps_headers far_parser tt src (mk_info None None []) = (tt, mk_info None None [], Okay (Start 30)) /\
    read_headers (parser_demuxer far_parser (acc_buffered cursor_io)) (acc_buffered cursor_io) 1 (context_new tt (with_capacity cap r0)) = Ret (c', Some (Okay tt)) /\
    seek cursor_io (c_reader c') (Current 0) = Ret (c_reader c', Okay 0).
Proof.
  exists (map N.of_nat (seq 0 40)), (mk_cursor (map N.of_nat (seq 0 40)) 0 [Deliver 100; Fail (OtherError 29)]), 8. eexists.
  split; [apply AccProofs2.cursor_ok|]. split; [reflexivity|]. split; [reflexivity|]. split; [reflexivity|].
  split; vm_compute; reflexivity.
Qed.

Lemma c38_position_after_headers_partial : forall (S P D : Type) (i : io S) src good tell (ps : parser P D) cap r0 d n c',
  source_ok i src good tell -> never_fails i src good tell -> incremental_headers ps -> good r0 -> tell r0 = 0 ->
  read_headers (parser_demuxer ps (acc_buffered i)) (acc_buffered i) n (context_new d (with_capacity cap r0)) = Ret (c', Some (Okay tt)) ->
  exists d' info' s q, ps_headers ps d src (mk_info None None []) = (d', info', Okay s) /\ Z.of_nat q = target (length src) 0 s /\
    c_demuxer c' = d' /\ c_info c' = info' /\
    seek i (c_reader c') (Current 0) = Ret (c_reader c', Okay q).
Proof.
  intros S P D i src good tell ps cap r0 d n c' Hs Hn Hi. exact (fresh_headers_sound i src good tell Hs ps Hn Hi cap r0 d n c').
Qed.

Lemma c40_threshold_score_refuted :
  exists (score : nat -> list N -> N) l dat t, In t l /\ score t dat = probe_score_extension /\ probe score l dat = None.
Proof. exists (fun _ _ => 50%N), [0], [], 0. split; [left; reflexivity|]. split; reflexivity. Qed.

Lemma c40_above_threshold_partial : forall (T : Type) (score : T -> list N -> N) dat l t,
  In t l -> (probe_score_extension < score t dat)%N -> exists u, probe score l dat = Some u.
Proof.
  intros T score dat l t Hin Hs. destruct (probe score l dat) as [u|] eqn:E; [exists u; reflexivity|].
  exfalso. apply (proj1 (@probe_none T score dat l)) with (x := t) in E; [|exact Hin]. apply N.lt_nge in Hs. apply Hs. exact E.
Qed.
