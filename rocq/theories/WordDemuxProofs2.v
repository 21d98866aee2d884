(** Limits of [Context] on machine words, and [Context] without overflow checks. *)
From Coq Require Import List Arith NArith ZArith Bool Lia.
From Coq Require Import ZifyBool ZifyNat ZifyN.
From Verif Require Import Base AccModel AccSpec AccProofs FormatModel DemuxModel DemuxSpec DemuxProofs DemuxProofs2 DemuxProofs3 DemuxExamples
  WordAccModel WordSpec WordBitProofs WordAccProofs ReleaseModel ReleaseAccModel ReleaseAccProofs WordDemuxModel WordDemuxSpec WordDemuxProofs.
Import ListNotations.
Local Open Scope nat_scope.

(** ** Requests *)

Lemma session_exact : forall (S P D : Type) (i : io S) src good tell (ps : parser P D) rounds calls cap r d,
  source_ok i src good tell -> reports_u64 i -> seeks_fit ps -> good r -> tell r = 0 ->
  (N.of_nat (length src) < 2 ^ 63)%N -> (N.of_nat cap < 2 ^ 63)%N ->
  exists c rs, plain_session i ps rounds calls (context_new d (with_capacity cap r)) = Ret (c, rs) /\
    word_session i ps rounds calls (context_new d (w_with_capacity (N.of_nat cap) r)) =
      if (room c <? 2 ^ 63)%N then Ret (word_ctx c, rs) else Panic.
Proof.
  intros S P D i src good tell ps n calls cap r d Hs Hu Hp Hg Ht Hl Hc.
  destruct (new_both i src good tell Hs Hu ps Hp n calls cap r d Hg Ht Hl Hc) as [c [rs [E [_ [_ Ew]]]]].
  exists c, rs. split; [exact E|exact Ew].
Qed.

Lemma session_bounded : forall (S P D : Type) (i : io S) src good tell (ps : parser P D) rounds calls cap r d M,
  source_ok i src good tell -> reports_u64 i -> seeks_fit ps -> good r -> tell r = 0 ->
  (N.of_nat (length src) < 2 ^ 63)%N -> (forall n, asks ps n -> n <= M) ->
  (N.of_nat cap + N.of_nat (length calls) * N.of_nat rounds * N.of_nat M < 2 ^ 63)%N ->
  exists c rs, plain_session i ps rounds calls (context_new d (with_capacity cap r)) = Ret (c, rs) /\
    word_session i ps rounds calls (context_new d (w_with_capacity (N.of_nat cap) r)) = Ret (word_ctx c, rs).
Proof.
  intros S P D i src good tell ps n calls cap r d M Hs Hu Hp Hg Ht Hl HM Hc.
  destruct (new_both i src good tell Hs Hu ps Hp n calls cap r d Hg Ht Hl ltac:(lia)) as [c [rs [E [_ [HB Ew]]]]].
  exists c, rs. split; [exact E|]. specialize (HB M HM).
  rewrite Ew. destruct (N.ltb_spec (room c) (2 ^ 63)) as [H|H]; [reflexivity|]. unfold room in H. nia.
Qed.

(** A parser that wants [n] bytes. *)
Definition greedy (n : nat) : parser unit unit :=
  mk_parser (fun d dat info => (d, info, Okay (Current 0)))
    (fun d dat => if length dat <? n then (d, Error (MoreDataNeeded n)) else (d, Okay (Current 0, Eof))).

Lemma greedy_incremental n : incremental (greedy n).
Proof.
  constructor; cbn [greedy ps_event].
  - intros d dat d' m E. destruct (Nat.ltb_spec (length dat) n); [|discriminate E]. injection E as <- <-. split; [reflexivity|assumption].
  - intros d dat more d' res E Hf. destruct (Nat.ltb_spec (length dat) n).
    + injection E as <- <-. destruct (Hf _ eq_refl).
    + rewrite app_length. destruct (Nat.ltb_spec (length dat + length more) n); [lia|exact E].
  - intros d dat d' s ev E. destruct (length dat <? n); [discriminate E|]. injection E as <- <- <-. cbn. lia.
  - intros d dat d' s m E. destruct (length dat <? n); discriminate E.
Qed.

Lemma greedy_seeks n : seeks_fit (greedy n).
Proof.
  split; cbn [greedy ps_event ps_headers].
  - intros d dat d' s ev E. destruct (length dat <? n); [discriminate E|]. injection E as <- <- <-. cbn. lia.
  - intros d dat info d' info' s E. injection E as <- <- <-. cbn. lia.
Qed.

Lemma greedy_asks n : forall k, asks (greedy n) k -> k <= n.
Proof.
  intros k [[d [dat [d' E]]]|[[d [dat [d' [s E]]]]|[d [dat [info [d' [info' E]]]]]]]; cbn [greedy ps_event ps_headers] in E.
  - destruct (length dat <? _); [|discriminate E]. injection E as _ <-. apply le_n.
  - destruct (length dat <? _); discriminate E.
  - discriminate E.
Qed.

Lemma greedy_panics n (r : cursor) : (2 ^ 63 <= N.of_nat n)%N ->
  wd_event (parser_demuxer (greedy n) (word_buffered word_cursor_io)) (word_buffered word_cursor_io) word_grow 1
    (context_new tt (w_with_capacity 0 r)) = Panic.
Proof.
  intros H. cbn [wd_event]. unfold read_event_internal.
  cbn [parser_demuxer dm_event word_buffered b_data b_seek c_demuxer c_reader c_info context_new greedy ps_event].
  change (w_data (w_with_capacity 0 r)) with (Ret ([] : list N)). cbn [obind length].
  destruct (Nat.ltb_spec 0 n) as [_|Hn]; [|lia]. cbn [obind c_reader].
  change (w_data (w_with_capacity 0 r)) with (Ret ([] : list N)). cbn [obind length].
  destruct (Nat.leb_spec n 0) as [Hn|_]; [lia|].
  assert (G : word_grow (w_with_capacity 0 r) n = Panic) by (apply grow_limit; cbn; lia). rewrite G. reflexivity.
Qed.

Lemma greedy_refutes : exists (ps : parser unit unit) src r n,
  incremental ps /\ seeks_fit ps /\ (forall k, asks ps k -> k <= n) /\ (N.of_nat n < 2 ^ 64)%N /\
  source_ok word_cursor_io src (fun c => cur_src c = src) cur_pos /\ reports_u64 word_cursor_io /\ cur_src r = src /\ cur_pos r = 0 /\
  wd_event (parser_demuxer ps (word_buffered word_cursor_io)) (word_buffered word_cursor_io) word_grow 1
    (context_new tt (w_with_capacity 0 r)) = Panic.
Proof.
  exists (greedy (N.to_nat (2 ^ 63))), [1; 2; 3]%N, (mk_cursor [1; 2; 3]%N 0 []), (N.to_nat (2 ^ 63)).
  split; [apply greedy_incremental|]. split; [apply greedy_seeks|]. split; [apply greedy_asks|].
  split; [rewrite N2Nat.id; reflexivity|]. split; [apply word_cursor_ok|]. split; [exact word_cursor_u64|].
  split; [reflexivity|]. split; [reflexivity|]. apply greedy_panics. rewrite N2Nat.id. apply N.le_refl.
Qed.

(** ** Truncated headers *)

Section Headers.
Context {S P D : Type}.
Variable i : io S.
Variable src : list N.
Variable good : S -> Prop.
Variable tell : S -> nat.
Hypothesis Hsrc : source_ok i src good tell.
Hypothesis Hnf : never_fails i src good tell.
Variable ps : parser P D.
Hypothesis Hinc : incremental_headers ps.
Notation bio := (acc_buffered i).
Notation dm := (parser_demuxer ps bio).

Lemma hround_grows c c' : hround dm bio c = Ret (inr c') -> exists a d, fill_buf i (c_reader c) = Ret (a, Okay d) /\
  length (abuf a) < length (abuf (c_reader c')).
Proof.
  intros E. unfold hround in E. cbn [acc_buffered b_fill b_grow] in E.
  destruct (fill_buf i (c_reader c)) as [[a [d|e]]| |] eqn:Ef; try discriminate E; cbn [obind] in E.
  exists a, d. split; [reflexivity|]. unfold read_headers_internal in E.
  cbn [parser_demuxer dm_headers acc_buffered b_data b_seek c_demuxer c_reader c_info] in E.
  destruct (data a) as [dat| |]; try discriminate E. cbn [obind] in E.
  destruct (ps_headers ps (c_demuxer c) dat (c_info c)) as [[d' info'] res] eqn:Ep. cbn [obind] in E.
  destruct res as [s|[|k|io]]; cbn [obind] in E; try discriminate E.
  - destruct (seek i a s) as [[a' sr]| |]; discriminate E.
  - destruct (inh_more ps Hinc _ _ _ _ _ _ Ep) as [_ [_ Hk]]. injection E as <-. cbn [c_reader grow abuf].
    rewrite app_length, repeat_length. lia.
Qed.

Lemma hang_grows : forall c d p info k, at_state src good tell c d p info ->
  ps_headers ps d (skipn p src) info = (d, info, Error (MoreDataNeeded k)) ->
  forall n, exists c', read_headers dm bio n c = Ret (c', None) /\ length (abuf (c_reader c)) + n <= length (abuf (c_reader c')).
Proof.
  intros c d p info k H E n. revert c H. induction n as [|n IH]; intros c H.
  - exists c. split; [reflexivity|lia].
  - rewrite read_headers_round. destruct (headers_cases i src good tell Hsrc ps Hnf Hinc c d p info H) as [H1|H1].
    + destruct H1 as [c' [r [_ [d1 [info1 [res1 [Ep [Hf _]]]]]]]]. rewrite E in Ep. injection Ep as _ _ <-. destruct (Hf k). reflexivity.
    + destruct H1 as [c' [E1 [H' _]]]. destruct (hround_grows c c' E1) as [a [dd [Ef Hlt]]].
      destruct (fill_rep i src good tell Hsrc _ p (proj1 (proj2 H))) as [a2 [res [Ef2 [_ [L2 _]]]]].
      rewrite Ef in Ef2. injection Ef2 as <- _. rewrite E1. cbn [obind]. destruct (IH c' H') as [c2 [E2 L]].
      exists c2. split; [exact E2|lia].
Qed.

Hypothesis Hu64 : reports_u64 i.
Hypothesis Hps : seeks_fit ps.

Lemma truncated_panics cap r0 d k : good r0 -> tell r0 = 0 -> (N.of_nat (length src) < 2 ^ 63)%N -> (N.of_nat cap < 2 ^ 63)%N ->
  ps_headers ps d src (mk_info None None []) = (d, mk_info None None [], Error (MoreDataNeeded k)) ->
  forall n, (2 ^ 63 <= N.of_nat cap + N.of_nat n)%N ->
  wd_headers (parser_demuxer ps (word_buffered i)) (word_buffered i) word_grow n (context_new d (w_with_capacity (N.of_nat cap) r0)) = Panic.
Proof.
  intros Hg Ht Hl Hc E n Hn.
  destruct (hang_grows _ d 0 (mk_info None None []) k (fresh_at src good tell cap r0 d Hg Ht) E n) as [c1 [E1 L1]].
  cbn [context_new c_reader with_capacity abuf] in L1. rewrite repeat_length in L1.
  destruct (session_exact S P D i src good tell ps n [ReadHeaders] cap r0 d Hsrc Hu64 Hps Hg Ht Hl Hc) as [c [rs [Ep Ew]]].
  unfold plain_session, word_session in *. cbn [session] in *. rewrite E1 in Ep. cbn [obind] in Ep. injection Ep as <- <-.
  destruct (N.ltb_spec (room c1) (2 ^ 63)) as [H|H]; [unfold room in H; lia|].
  destruct (wd_headers _ _ _ n _) as [[c2 r2]| |]; cbn [obind] in Ew; [discriminate Ew|reflexivity|discriminate Ew].
Qed.

End Headers.

(** ** Without overflow checks *)

Section Release.
Context {S P D : Type}.
Variable i : io S.
Variable ps : parser P D.
Hypothesis Hps : seeks_fit ps.
Notation wio := (word_buffered i).
Notation rio := (release_buffered i).
Notation wdm := (parser_demuxer ps wio).
Notation rdm := (parser_demuxer ps rio).
Notation ctx := (dctx P D (wacc S)).

Lemma release_event_internal (c : ctx) x : end_fits (c_reader c) -> read_event_internal wdm wio c = Ret x ->
  read_event_internal rdm rio c = Ret x /\ end_fits (c_reader (fst x)).
Proof.
  intros F E. destruct c as [d a info]. unfold read_event_internal in *. cbn [c_reader] in F.
  cbn [parser_demuxer dm_event word_buffered release_buffered b_data b_seek c_demuxer c_reader c_info] in *.
  change (ra_data a) with (w_data a). destruct (w_data a) as [dat| |]; cbn [obind] in *; try discriminate E.
  destruct (ps_event ps d dat) as [d' raw] eqn:Ep. cbn [obind] in *. destruct raw as [[s ev]|e].
  - destruct (w_seek i a s) as [[a' sr]| |] eqn:Es; cbn [obind] in E; try discriminate E.
    destruct (seek_release i a s _ F (proj2 (proj1 Hps _ _ _ _ _ Ep)) Es) as [-> F']. cbn [fst] in F'. cbn [obind].
    split; [exact E|]. destruct sr as [q|e].
    + destruct ev as [pk|st|n| |]; try (injection E as <-; exact F').
      destruct (t_timebase (p_t pk)); [injection E as <-; exact F'|]. destruct (find _ _); injection E as <-; exact F'.
    + injection E as <-. exact F'.
  - split; [exact E|]. injection E as <-. exact F.
Qed.

Lemma release_headers_internal (c : ctx) x : end_fits (c_reader c) -> read_headers_internal wdm wio c = Ret x ->
  read_headers_internal rdm rio c = Ret x /\ end_fits (c_reader (fst x)).
Proof.
  intros F E. destruct c as [d a info]. unfold read_headers_internal in *. cbn [c_reader] in F.
  cbn [parser_demuxer dm_headers word_buffered release_buffered b_data b_seek c_demuxer c_reader c_info] in *.
  change (ra_data a) with (w_data a). destruct (w_data a) as [dat| |]; cbn [obind] in *; try discriminate E.
  destruct (ps_headers ps d dat info) as [[d' info'] raw] eqn:Ep. cbn [obind] in *. destruct raw as [s|e].
  - destruct (w_seek i a s) as [[a' sr]| |] eqn:Es; cbn [obind] in E; try discriminate E.
    destruct (seek_release i a s _ F (proj2 (proj2 Hps _ _ _ _ _ _ Ep)) Es) as [-> F']. cbn [obind].
    split; [exact E|]. injection E as <-. exact F'.
  - split; [exact E|]. injection E as <-. exact F.
Qed.

Lemma release_event n : forall (c : ctx) x, end_fits (c_reader c) -> wd_event wdm wio word_grow n c = Ret x ->
  wd_event rdm rio release_grow n c = Ret x /\ end_fits (c_reader (fst x)).
Proof.
  induction n as [|n IH]; intros c x F E; cbn [wd_event] in *; [split; [exact E|injection E as <-; exact F]|].
  destruct (read_event_internal wdm wio c) as [[c1 res]| |] eqn:Ei; cbn [obind] in E; try discriminate E.
  destruct (release_event_internal c _ F Ei) as [-> F1]. cbn [fst] in F1. cbn [obind].
  destruct res as [ev|[|k|e]]; try (split; [exact E|injection E as <-; exact F1]).
  cbn [word_buffered release_buffered b_data b_fill] in *. change (ra_data (c_reader c1)) with (w_data (c_reader c1)).
  destruct (w_data (c_reader c1)) as [dat| |]; cbn [obind] in *; try discriminate E.
  destruct (k <=? length dat); [exact (IH c1 x F1 E)|].
  unfold word_grow in E at 1. unfold release_grow at 1.
  destruct (w_grow (c_reader c1) (N.of_nat k)) as [a2| |] eqn:Eg; cbn [obind] in E; try discriminate E.
  destruct (grow_release _ _ _ F1 Eg) as [-> F2]. cbn [obind].
  destruct (w_fill_buf i a2) as [[a3 fr]| |] eqn:Ef; cbn [obind] in E; try discriminate E.
  destruct (fill_release i _ _ F2 Ef) as [-> F3]. cbn [fst] in F3. cbn [obind].
  destruct fr as [d|e]; [|split; [exact E|injection E as <-; exact F3]].
  change (ra_data a3) with (w_data a3). destruct (w_data a3) as [d3| |]; cbn [obind] in *; try discriminate E.
  destruct (length d3 <=? length dat); [split; [exact E|injection E as <-; exact F3]|].
  exact (IH (mk_dctx (c_demuxer c1) a3 (c_info c1)) x F3 E).
Qed.

Lemma release_headers n : forall (c : ctx) x, end_fits (c_reader c) -> wd_headers wdm wio word_grow n c = Ret x ->
  wd_headers rdm rio release_grow n c = Ret x /\ end_fits (c_reader (fst x)).
Proof.
  induction n as [|n IH]; intros c x F E; cbn [wd_headers] in *; [split; [exact E|injection E as <-; exact F]|].
  change (b_fill wio) with (w_fill_buf i) in E. change (b_fill rio) with (ra_fill_buf i).
  destruct (w_fill_buf i (c_reader c)) as [[a3 fr]| |] eqn:Ef; cbn [obind] in E; try discriminate E.
  destruct (fill_release i _ _ F Ef) as [-> F3]. cbn [fst] in F3. cbn [obind].
  destruct fr as [d|e]; [|split; [exact E|injection E as <-; exact F3]].
  destruct (read_headers_internal wdm wio _) as [[c1 res]| |] eqn:Ei; cbn [obind] in E; try discriminate E.
  destruct (release_headers_internal (mk_dctx (c_demuxer c) a3 (c_info c)) _ F3 Ei) as [-> F1]. cbn [fst] in F1. cbn [obind].
  destruct res as [ev|[|k|e]]; try (split; [exact E|injection E as <-; exact F1]).
  unfold word_grow in E at 1. unfold release_grow at 1.
  destruct (w_grow (c_reader c1) (N.of_nat k)) as [a2| |] eqn:Eg; cbn [obind] in E; try discriminate E.
  destruct (grow_release _ _ _ F1 Eg) as [-> F2]. cbn [obind].
  exact (IH (mk_dctx (c_demuxer c1) a2 (c_info c1)) x F2 E).
Qed.

Lemma release_session_agrees n calls : forall (c : ctx) x, end_fits (c_reader c) -> word_session i ps n calls c = Ret x ->
  release_session i ps n calls c = Ret x.
Proof.
  induction calls as [|[|] calls IH]; intros c x F E; unfold word_session, release_session in *; cbn [session] in *; [exact E| |].
  - destruct (wd_headers wdm wio word_grow n c) as [[c1 r]| |] eqn:E1; cbn [obind] in E; try discriminate E.
    destruct (release_headers n c _ F E1) as [-> F1]. cbn [obind].
    destruct (session _ _ calls c1) as [[c2 rs]| |] eqn:E2 in E; cbn [obind] in E; try discriminate E.
    rewrite (IH c1 _ F1 E2). exact E.
  - destruct (wd_event wdm wio word_grow n c) as [[c1 r]| |] eqn:E1; cbn [obind] in E; try discriminate E.
    destruct (release_event n c _ F E1) as [-> F1]. cbn [obind].
    destruct (session _ _ calls c1) as [[c2 rs]| |] eqn:E2 in E; cbn [obind] in E; try discriminate E.
    rewrite (IH c1 _ F1 E2). exact E.
Qed.

Lemma release_new n calls cap r d x :
  word_session i ps n calls (context_new d (w_with_capacity cap r)) = Ret x ->
  release_session i ps n calls (context_new d (w_with_capacity cap r)) = Ret x.
Proof. apply release_session_agrees. reflexivity. Qed.

End Release.

Lemma dummy_seeks : seeks_fit dummy_parser.
Proof.
  split; cbn [dummy_parser ps_event ps_headers].
  - intros d dat d' s ev E. destruct (length dat <? 2); [discriminate E|].
    assert (forall k : Z, (0 <= k < 2 ^ 63)%Z -> forward (Current k) /\ call_fits (ASeek (Current k))) by (intros; cbn; lia).
    repeat (match type of E with context [match ?c with _ => _ end] => destruct c end; try discriminate E);
      injection E as <- <- <-; cbn; lia.
  - intros d dat info d' info' s E. destruct (length dat <? 9); [discriminate E|]. injection E as <- <- <-. cbn. lia.
Qed.

(** Without overflow checks a request for [u64::MAX] bytes takes away a byte of the buffer. *)
Lemma greedy_release n : (N.of_nat n = 2 ^ 64 - 1)%N ->
  wd_event (parser_demuxer (greedy n) (release_buffered word_cursor_io)) (release_buffered word_cursor_io) release_grow 2
    (context_new tt (w_with_capacity 4 (mk_cursor [1; 2; 3; 4; 5]%N 0 []))) = Panic.
Proof.
  intros H. set (a0 := w_with_capacity 4 (mk_cursor [1; 2; 3; 4; 5]%N 0 [])).
  assert (G : forall a : wacc cursor, release_grow a n = ra_grow a (2 ^ 64 - 1)) by (intros a; unfold release_grow; rewrite H; reflexivity).
  assert (Step : forall d a info dat, ra_data a = Ret dat -> length dat < n ->
    read_event_internal (parser_demuxer (greedy n) (release_buffered word_cursor_io)) (release_buffered word_cursor_io) (mk_dctx d a info) =
      Ret (mk_dctx d a info, Error (MoreDataNeeded n))).
  { intros d a info dat Ed Hd. unfold read_event_internal.
    cbn [parser_demuxer dm_event release_buffered b_data c_demuxer c_reader c_info greedy ps_event]. rewrite Ed. cbn [obind].
    destruct (Nat.ltb_spec (length dat) n); [reflexivity|lia]. }
  unfold context_new. cbn [wd_event]. rewrite (Step tt a0 _ [] eq_refl) by (cbn [length]; lia). cbn [obind release_buffered b_data b_fill c_reader c_demuxer c_info].
  change (ra_data a0) with (Ret ([] : list N)). cbn [obind length]. destruct (Nat.leb_spec n 0); [lia|].
  rewrite G. set (g := ra_grow a0 (2 ^ 64 - 1)). vm_compute in g. subst g. cbn [obind].
  set (f := ra_fill_buf _ _). vm_compute in f. subst f. cbn [obind].
  set (q := ra_data _) at 1. vm_compute in q. subst q. cbn [obind length Nat.leb].
  set (a1 := mk_wacc _ _ _ _ _).
  change (mk_buffered (ra_fill_buf word_cursor_io) (ra_seek word_cursor_io) ra_data (fun (a : wacc cursor) (_ : nat) => a)) with (release_buffered word_cursor_io).
  rewrite (Step tt a1 _ [1; 2; 3]%N eq_refl) by (cbn [length]; lia). cbn [obind c_reader c_demuxer c_info].
  change (ra_data a1) with (Ret [1; 2; 3]%N). cbn [obind length]. destruct (Nat.leb_spec n 3); [lia|].
  rewrite G. vm_compute. reflexivity.
Qed.

Lemma greedy_release_refutes : exists (ps : parser unit unit) src r n cap,
  incremental ps /\ seeks_fit ps /\ (forall k, asks ps k -> k <= n) /\ (N.of_nat n < 2 ^ 64)%N /\
  source_ok word_cursor_io src (fun c => cur_src c = src) cur_pos /\ reports_u64 word_cursor_io /\ cur_src r = src /\ cur_pos r = 0 /\
  wd_event (parser_demuxer ps (release_buffered word_cursor_io)) (release_buffered word_cursor_io) release_grow 2
    (context_new tt (w_with_capacity cap r)) = Panic.
Proof.
  exists (greedy (N.to_nat (2 ^ 64 - 1))), [1; 2; 3; 4; 5]%N, (mk_cursor [1; 2; 3; 4; 5]%N 0 []), (N.to_nat (2 ^ 64 - 1)), 4%N.
  split; [apply greedy_incremental|]. split; [apply greedy_seeks|]. split; [apply greedy_asks|].
  split; [rewrite N2Nat.id; reflexivity|]. split; [apply word_cursor_ok|]. split; [exact word_cursor_u64|].
  split; [reflexivity|]. split; [reflexivity|]. apply greedy_release. rewrite N2Nat.id. reflexivity.
Qed.
