(** [Context] on any machine does what the one on numbers does. *)
From Coq Require Import List Arith NArith ZArith Bool Lia.
From Coq Require Import ZifyBool ZifyNat ZifyN.
From Verif Require Import Base AccModel AccSpec AccProofs FormatModel DemuxModel DemuxSpec WordAccModel WordSpec WordBitProofs WordAccProofs
  MachineModel MachineAccModel MachineAccSpec MachineAccProofs MachineDemuxModel WordDemuxModel WordDemuxSpec MachineDemuxSpec.
Import ListNotations.
Local Open Scope nat_scope.

Section Source.
Variable mc : machine.
Hypothesis Hbits : (1 <= bits mc)%N.
Hypothesis Hmax : (bits mc <= 64)%N.
Notation LIM := (2 ^ (bits mc - 1))%N.
Context {S P D : Type}.
Variable i : io S.
Variable src : list N.
Variable good : S -> Prop.
Variable tell : S -> nat.
Hypothesis Hsrc : source_ok i src good tell.
Hypothesis Hseek : reports_within mc i.
Hypothesis Hlen : (N.of_nat (length src) < LIM)%N.
Variable ps : parser P D.
Hypothesis Hps : seeks_within mc ps.
Notation rep := (rep src good tell).
Notation fits := (within mc src).
Notation bio := (acc_buffered i).
Notation wio := (machine_buffered mc i).
Notation dm := (parser_demuxer ps bio).
Notation wdm := (parser_demuxer ps wio).
Notation len c := (length (abuf (c_reader c))).

Lemma data_word (a : acc S) p : rep a p -> m_data (word_acc a) = data a.
Proof. intros _. unfold m_data, data. cbn [word_acc wa_buf wa_pos wa_end]. apply wslice_slice. Qed.

(** With overflow checks, or where no request is as long as half the address space. *)
Notation strict := (checked mc = true \/ forall k, asks ps k -> (N.of_nat k < LIM)%N).

Lemma grow_panics (a : acc S) n : strict -> asks ps n -> fits a -> (LIM <= N.of_nat (length (abuf a)) + N.of_nat n)%N -> machine_grow mc (word_acc a) n = Panic.
Proof.
  intros Hc Ha F H. pose proof (wi_room mc src a F) as Hr. change (MachineModel.room mc) with LIM in Hr.
  assert (E2 : (modulus mc = LIM + LIM)%N).
  { unfold modulus. replace (bits mc) with (N.succ (bits mc - 1)) at 1 by lia. rewrite N.pow_succ_r'. lia. }
  unfold machine_grow, m_grow, m_resize, blen. cbn [word_acc wa_buf]. unfold madd, ranged.
  destruct (N.ltb_spec (N.of_nat (length (abuf a)) + N.of_nat n) (modulus mc)) as [Hm|Hm].
  2:{ destruct Hc as [Hc|Hc]; [rewrite Hc; reflexivity|specialize (Hc n Ha); lia]. }
  cbn [obind].
  change (MachineModel.room mc) with LIM.
  destruct (N.leb_spec (N.of_nat (length (abuf a)) + N.of_nat n) (N.of_nat (length (abuf a)))); [lia|].
  destruct (N.ltb_spec (N.of_nat (length (abuf a)) + N.of_nat n) LIM); [lia|]. reflexivity.
Qed.

Lemma grow_fits (a : acc S) n : fits a -> (N.of_nat (length (abuf a)) + N.of_nat n < LIM)%N -> fits (grow a n).
Proof.
  intros F H. constructor; cbn [grow aindex apos abuf]; [apply F|apply F|]. change (MachineModel.room mc) with LIM.
  rewrite app_length, repeat_length. lia.
Qed.

Lemma grow_word (a : acc S) n : fits a -> (N.of_nat (length (abuf a)) + N.of_nat n < LIM)%N ->
  m_grow mc (word_acc a) (N.of_nat n) = Ret (word_acc (grow a n)).
Proof.
  intros F H. rewrite <- (seen_within mc src a F), <- (seen_within mc src _ (grow_fits a n F H)).
  apply (grow_seen mc Hbits). exact H.
Qed.

(** A seek, on both sides. *)
Lemma seek_both a p s : rep a p -> fits a -> forward s -> call_within mc (ASeek s) ->
  exists a' res p', seek i a s = Ret (a', res) /\ m_seek mc i (word_acc a) s = Ret (word_acc a', res) /\
    rep a' p' /\ fits a' /\ length (abuf a') = length (abuf a).
Proof.
  intros H F Hf Hc. destruct (seek_rep i src good tell Hsrc a p s H Hf) as [a' [res [E [L Hres]]]].
  destruct (seek_within mc Hbits i src good tell Hsrc Hseek Hlen Hmax a p s H F Hc Hf) as [Ew Hw].
  rewrite (seen_within mc src a F) in Ew.
  assert (exists p', rep a' p') as [p' H'].
  { destruct res as [n|e]; [exists n; apply Hres|]. destruct Hres as [[Hr _]|[n [_ Hr]]]; eexists; exact Hr. }
  exists a', res, p'. split; [exact E|]. split; [rewrite Ew, E; cbn [omap fst snd]; rewrite (seen_within mc src a' (Hw _ _ E)); reflexivity|].
  split; [exact H'|]. split; [exact (Hw _ _ E)|exact L].
Qed.

(** Filling, on both sides. *)
Lemma fill_both a p : rep a p -> fits a ->
  exists a' res, fill_buf i a = Ret (a', res) /\ m_fill_buf mc i (word_acc a) = Ret (word_acc a', res) /\
    rep a' p /\ fits a' /\ length (abuf a') = length (abuf a) /\ (forall d, res = Okay d -> data a' = Ret d).
Proof.
  intros H F. destruct (fill_rep i src good tell Hsrc a p H) as [a' [res [E [H' [L Hres]]]]].
  exists a', res. split; [exact E|]. pose proof (fill_within mc i src good tell Hsrc a a' p res H F E) as F'. split.
  { rewrite <- (seen_within mc src a F), (fill_seen mc Hbits i src good tell Hsrc a p H (wi_room mc src a F)), E.
    cbn [omap fst snd]. rewrite (seen_within mc src a' F'). reflexivity. }
  split; [exact H'|]. split; [exact F'|]. split; [exact L|].
  intros d ->. apply Hres.
Qed.

Lemma event_internal_both c p : rep (c_reader c) p -> fits (c_reader c) ->
  exists c1 res p1, read_event_internal dm bio c = Ret (c1, res) /\ read_event_internal wdm wio (word_ctx c) = Ret (word_ctx c1, res) /\
    rep (c_reader c1) p1 /\ fits (c_reader c1) /\ len c1 = len c /\ (forall n, res = Error (MoreDataNeeded n) -> asks ps n).
Proof.
  intros H F. destruct c as [d a info]. cbn [c_reader] in *. unfold read_event_internal.
  cbn [parser_demuxer dm_event acc_buffered machine_buffered b_data b_seek c_demuxer c_reader c_info word_ctx].
  rewrite (data_word a p H), (data_rep src good tell a p H). set (dat := firstn _ _). cbn [obind].
  destruct (ps_event ps d dat) as [d' raw] eqn:Ep. cbn [obind]. destruct raw as [[s ev]|e].
  - destruct (proj1 Hps _ _ _ _ _ Ep) as [Hf Hc].
    destruct (seek_both a p s H F Hf Hc) as [a' [sr [p' [E [Ew [H' [F' L]]]]]]]. rewrite E, Ew. cbn [obind].
    destruct sr as [q|e].
    + assert (G : forall info' res, (forall n, res = Error (MoreDataNeeded n) -> asks ps n) ->
        exists c1 (res0 : result (event P) error) p1,
          Ret (@mk_dctx P D (acc S) d' a' info', res) = Ret (c1, res0) /\ Ret (@mk_dctx P D (wacc S) d' (word_acc a') info', res) = Ret (word_ctx c1, res0) /\
          rep (c_reader c1) p1 /\ fits (c_reader c1) /\ len c1 = length (abuf a) /\ (forall n, res0 = Error (MoreDataNeeded n) -> asks ps n)).
      { intros info' res Hr. exists (mk_dctx d' a' info'), res, p'. split; [reflexivity|]. split; [reflexivity|]. cbn [c_reader].
        split; [exact H'|]. split; [exact F'|]. split; [exact L|exact Hr]. }
      destruct ev as [pk|st|n| |].
      * destruct (t_timebase (p_t pk)); [apply G; discriminate|]. destruct (find _ _); apply G; discriminate.
      * apply G; discriminate.
      * apply G. intros m Em. injection Em as <-. right. left. exists d, dat, d', s. exact Ep.
      * apply G; discriminate.
      * apply G; discriminate.
    + exists (mk_dctx d' a' info), (Error (Io e)), p'. split; [reflexivity|]. split; [reflexivity|]. cbn [c_reader].
      split; [exact H'|]. split; [exact F'|]. split; [exact L|discriminate].
  - exists (mk_dctx d' a info), (Error e), p. split; [reflexivity|]. split; [reflexivity|]. cbn [c_reader].
    split; [exact H|]. split; [exact F|]. split; [reflexivity|]. intros n En. injection En as ->. left. exists d, dat, d'. exact Ep.
Qed.

Lemma headers_internal_both c p : rep (c_reader c) p -> fits (c_reader c) ->
  exists c1 res p1, read_headers_internal dm bio c = Ret (c1, res) /\ read_headers_internal wdm wio (word_ctx c) = Ret (word_ctx c1, res) /\
    rep (c_reader c1) p1 /\ fits (c_reader c1) /\ len c1 = len c /\ (forall n, res = Error (MoreDataNeeded n) -> asks ps n).
Proof.
  intros H F. destruct c as [d a info]. cbn [c_reader] in *. unfold read_headers_internal.
  cbn [parser_demuxer dm_headers acc_buffered machine_buffered b_data b_seek c_demuxer c_reader c_info word_ctx].
  rewrite (data_word a p H), (data_rep src good tell a p H). set (dat := firstn _ _). cbn [obind].
  destruct (ps_headers ps d dat info) as [[d' info'] raw] eqn:Ep. cbn [obind]. destruct raw as [s|e].
  - destruct (proj2 Hps _ _ _ _ _ _ Ep) as [Hf Hc].
    destruct (seek_both a p s H F Hf Hc) as [a' [sr [p' [E [Ew [H' [F' L]]]]]]]. rewrite E, Ew. cbn [obind].
    exists (mk_dctx d' a' info'), (Okay tt), p'. split; [reflexivity|]. split; [reflexivity|]. cbn [c_reader].
    split; [exact H'|]. split; [exact F'|]. split; [exact L|discriminate].
  - exists (mk_dctx d' a info'), (Error e), p. split; [reflexivity|]. split; [reflexivity|]. cbn [c_reader].
    split; [exact H|]. split; [exact F|]. split; [reflexivity|]. intros n En. injection En as ->. right. right. exists d, dat, info, d', info'. exact Ep.
Qed.

(** The two outcomes of a call from [c]: with [extra] rounds, the buffer grows by at most [M] in each. *)
Definition both {A : Type} (rounds : nat) (c : dctx P D (acc S)) (plain : outcome (dctx P D (acc S) * A))
    (word : outcome (dctx P D (wacc S) * A)) : Prop :=
  exists c' r p', plain = Ret (c', r) /\ rep (c_reader c') p' /\ len c <= len c' /\
    (forall M, (forall n, asks ps n -> n <= M) -> len c' <= len c + rounds * M) /\
    ((room c' < LIM)%N -> fits (c_reader c') /\ word = Ret (word_ctx c', r)) /\
    (strict -> (LIM <= room c')%N -> word = Panic).

Lemma both_ret {A : Type} n c c' p' (r : A) : rep (c_reader c') p' -> fits (c_reader c') -> len c' = len c ->
  both n c (Ret (c', r)) (Ret (word_ctx c', r)).
Proof.
  intros H F L. exists c', r, p'. split; [reflexivity|]. split; [exact H|]. split; [lia|]. split; [intros M _; lia|].
  split; [intros _; split; [exact F|reflexivity]|]. intros _ Hr. pose proof (wi_room _ _ _ F) as Hw. change (MachineModel.room mc) with LIM in Hw. unfold room in Hr. lia.
Qed.

Lemma both_more {A : Type} n c c1 k plain (word : outcome (dctx P D (wacc S) * A)) : len c1 = len c + k -> asks ps k ->
  both n c1 plain word -> both (Datatypes.S n) c plain word.
Proof.
  intros L Hk [c' [r [p' [E [H [Hle [HM [H1 H2]]]]]]]]. exists c', r, p'. split; [exact E|]. split; [exact H|]. split; [lia|].
  split; [|split; [exact H1|exact H2]]. intros M HMa. pose proof (HM M HMa). pose proof (HMa k Hk). lia.
Qed.

Lemma both_same {A : Type} n c c1 plain (word : outcome (dctx P D (wacc S) * A)) : len c1 = len c ->
  both n c1 plain word -> both (Datatypes.S n) c plain word.
Proof.
  intros L [c' [r [p' [E [H [Hle [HM [H1 H2]]]]]]]]. exists c', r, p'. split; [exact E|]. split; [exact H|]. split; [lia|].
  split; [|split; [exact H1|exact H2]]. intros M HMa. pose proof (HM M HMa). lia.
Qed.

(** Once the buffer is too large the outcome is a panic. *)
Definition plain_ok {A : Type} (n : nat) (c : dctx P D (acc S)) (plain : outcome (dctx P D (acc S) * A)) : Prop :=
  exists c' r p', plain = Ret (c', r) /\ rep (c_reader c') p' /\ len c <= len c' /\
    (forall M, (forall k, asks ps k -> k <= M) -> len c' <= len c + n * M).

Lemma both_panic {A : Type} n c plain (word : outcome (dctx P D (wacc S) * A)) : plain_ok n c plain -> (LIM <= room c)%N ->
  (strict -> word = Panic) -> both n c plain word.
Proof.
  intros [c' [r [p' [E [H [L HM]]]]]] Hc Hp. exists c', r, p'. split; [exact E|]. split; [exact H|]. split; [exact L|]. split; [exact HM|].
  unfold room in *. split; [intros Hr; lia|intros Hk _; exact (Hp Hk)].
Qed.

Lemma both_plain {A : Type} n c plain (word : outcome (dctx P D (wacc S) * A)) : both n c plain word -> plain_ok n c plain.
Proof. intros [c' [r [p' [E [H [L [HM _]]]]]]]. exists c', r, p'. auto. Qed.

(** Without the bound: the plain side alone. *)
Lemma event_internal_plain c p : rep (c_reader c) p ->
  exists c1 res p1, read_event_internal dm bio c = Ret (c1, res) /\
    rep (c_reader c1) p1 /\ len c1 = len c /\ (forall n, res = Error (MoreDataNeeded n) -> asks ps n).
Proof.
  intros H. destruct c as [d a info]. cbn [c_reader] in *. unfold read_event_internal.
  cbn [parser_demuxer dm_event acc_buffered b_data b_seek c_demuxer c_reader c_info].
  rewrite (data_rep src good tell a p H). set (dat := firstn _ _). cbn [obind].
  destruct (ps_event ps d dat) as [d' raw] eqn:Ep. cbn [obind]. destruct raw as [[s ev]|e].
  - destruct (proj1 Hps _ _ _ _ _ Ep) as [Hf Hc].
    destruct (seek_rep i src good tell Hsrc a p s H Hf) as [a' [sr [E [L Hres]]]]. rewrite E. cbn [obind].
    assert (exists p', rep a' p') as [p' H'].
    { destruct sr as [n|e]; [exists n; apply Hres|]. destruct Hres as [[Hr _]|[n [_ Hr]]]; eexists; exact Hr. }
    destruct sr as [q|e].
    + assert (G : forall info' res, (forall n, res = Error (MoreDataNeeded n) -> asks ps n) ->
        exists c1 (res0 : result (event P) error) p1, Ret (@mk_dctx P D (acc S) d' a' info', res) = Ret (c1, res0) /\
          rep (c_reader c1) p1 /\ len c1 = length (abuf a) /\ (forall n, res0 = Error (MoreDataNeeded n) -> asks ps n)).
      { intros info' res Hr. exists (mk_dctx d' a' info'), res, p'. split; [reflexivity|]. cbn [c_reader].
        split; [exact H'|]. split; [exact L|exact Hr]. }
      destruct ev as [pk|st|n| |].
      * destruct (t_timebase (p_t pk)); [apply G; discriminate|]. destruct (find _ _); apply G; discriminate.
      * apply G; discriminate.
      * apply G. intros m Em. injection Em as <-. right. left. exists d, dat, d', s. exact Ep.
      * apply G; discriminate.
      * apply G; discriminate.
    + exists (mk_dctx d' a' info), (Error (Io e)), p'. split; [reflexivity|]. cbn [c_reader].
      split; [exact H'|]. split; [exact L|discriminate].
  - exists (mk_dctx d' a info), (Error e), p. split; [reflexivity|]. cbn [c_reader].
    split; [exact H|]. split; [reflexivity|]. intros n En. injection En as ->. left. exists d, dat, d'. exact Ep.
Qed.

Lemma headers_internal_plain c p : rep (c_reader c) p ->
  exists c1 res p1, read_headers_internal dm bio c = Ret (c1, res) /\
    rep (c_reader c1) p1 /\ len c1 = len c /\ (forall n, res = Error (MoreDataNeeded n) -> asks ps n).
Proof.
  intros H. destruct c as [d a info]. cbn [c_reader] in *. unfold read_headers_internal.
  cbn [parser_demuxer dm_headers acc_buffered b_data b_seek c_demuxer c_reader c_info].
  rewrite (data_rep src good tell a p H). set (dat := firstn _ _). cbn [obind].
  destruct (ps_headers ps d dat info) as [[d' info'] raw] eqn:Ep. cbn [obind]. destruct raw as [s|e].
  - destruct (proj2 Hps _ _ _ _ _ _ Ep) as [Hf Hc].
    destruct (seek_rep i src good tell Hsrc a p s H Hf) as [a' [sr [E [L Hres]]]]. rewrite E. cbn [obind].
    assert (exists p', rep a' p') as [p' H'].
    { destruct sr as [n|e]; [exists n; apply Hres|]. destruct Hres as [[Hr _]|[n [_ Hr]]]; eexists; exact Hr. }
    exists (mk_dctx d' a' info'), (Okay tt), p'. split; [reflexivity|]. cbn [c_reader].
    split; [exact H'|]. split; [exact L|discriminate].
  - exists (mk_dctx d' a info'), (Error e), p. split; [reflexivity|]. cbn [c_reader].
    split; [exact H|]. split; [reflexivity|]. intros n En. injection En as ->. right. right. exists d, dat, info, d', info'. exact Ep.
Qed.

Lemma ok_ret {A : Type} n c c' p' (r : A) k : rep (c_reader c') p' -> len c' = len c + k -> (k = 0 \/ 0 < n /\ asks ps k) ->
  plain_ok n c (Ret (c', r)).
Proof.
  intros H L Hk. exists c', r, p'. split; [reflexivity|]. split; [exact H|]. split; [lia|]. intros M HM.
  destruct Hk as [->|[Hn Hk]]; [lia|]. pose proof (HM k Hk). nia.
Qed.
Lemma ok_step {A : Type} n c c1 k (plain : outcome (dctx P D (acc S) * A)) : len c1 = len c + k -> (k = 0 \/ asks ps k) ->
  plain_ok n c1 plain -> plain_ok (Datatypes.S n) c plain.
Proof.
  intros L Hk [c' [r [p' [E [H [Hle HM]]]]]]. exists c', r, p'. split; [exact E|]. split; [exact H|]. split; [lia|].
  intros M HMa. pose proof (HM M HMa). destruct Hk as [->|Hk]; [lia|]. pose proof (HMa k Hk). lia.
Qed.

Lemma grow_len (a : acc S) k : length (abuf (grow a k)) = length (abuf a) + k.
Proof. cbn [grow abuf]. rewrite app_length, repeat_length. reflexivity. Qed.

Lemma event_plain n : forall c p, rep (c_reader c) p -> plain_ok n c (read_event dm bio n c).
Proof.
  induction n as [|n IH]; intros c p H.
  - cbn [read_event]. apply (ok_ret _ _ _ p _ 0); [exact H|lia|left; reflexivity].
  - cbn [read_event]. destruct (event_internal_plain c p H) as [c1 [res [p1 [E [H1 [L1 Hask]]]]]]. rewrite E. cbn [obind].
    destruct res as [ev|[|k|e]]; try (apply (ok_ret _ _ _ p1 _ 0); [exact H1|lia|left; reflexivity]).
    specialize (Hask k eq_refl). cbn [acc_buffered b_data b_fill b_grow].
    rewrite (data_rep src good tell _ p1 H1). cbn [obind].
    destruct (k <=? _); [apply (ok_step _ _ c1 0); [lia|left; reflexivity|exact (IH c1 p1 H1)]|].
    destruct (fill_rep i src good tell Hsrc _ p1 (grow_rep src good tell _ p1 k H1)) as [a3 [fr [Ef [H3 [L3 Hfr]]]]]. rewrite Ef. cbn [obind].
    rewrite grow_len in L3. destruct fr as [d|e]; [|apply (ok_ret _ _ _ p1 _ k); [exact H3|cbn [c_reader]; lia|right; split; [lia|exact Hask]]].
    destruct Hfr as [Hd _]. rewrite Hd. cbn [obind]. destruct (length d <=? _).
    + apply (ok_ret _ _ _ p1 _ k); [exact H3|cbn [c_reader]; lia|right; split; [lia|exact Hask]].
    + apply (ok_step _ _ (mk_dctx (c_demuxer c1) a3 (c_info c1)) k); [cbn [c_reader]; lia|right; exact Hask|]. exact (IH (mk_dctx (c_demuxer c1) a3 (c_info c1)) p1 H3).
Qed.

Lemma headers_plain n : forall c p, rep (c_reader c) p -> plain_ok n c (read_headers dm bio n c).
Proof.
  induction n as [|n IH]; intros c p H.
  - cbn [read_headers]. apply (ok_ret _ _ _ p _ 0); [exact H|lia|left; reflexivity].
  - cbn [read_headers]. cbn [acc_buffered b_fill].
    destruct (fill_rep i src good tell Hsrc _ p H) as [a3 [fr [Ef [H3 [L3 Hfr]]]]]. rewrite Ef. cbn [obind].
    destruct fr as [d|e]; [|apply (ok_ret _ _ _ p _ 0); [exact H3|cbn [c_reader]; lia|left; reflexivity]].
    destruct (headers_internal_plain (mk_dctx (c_demuxer c) a3 (c_info c)) p H3) as [c1 [res [p1 [E [H1 [L1 Hask]]]]]].
    rewrite E. cbn [obind]. cbn [c_reader] in L1.
    destruct res as [ev|[|k|e]]; try (apply (ok_ret _ _ _ p1 _ 0); [exact H1|lia|left; reflexivity]).
    specialize (Hask k eq_refl). cbn [b_grow].
    apply (ok_step _ _ (mk_dctx (c_demuxer c1) (grow (c_reader c1) k) (c_info c1)) k); [cbn [c_reader]; rewrite grow_len; lia|right; exact Hask|].
    apply (IH _ p1). cbn [c_reader]. apply grow_rep. exact H1.
Qed.

(** Events, on both sides. *)
Lemma event_both n : forall c p, rep (c_reader c) p -> fits (c_reader c) ->
  both n c (read_event dm bio n c) (wd_event wdm wio (machine_grow mc) n (word_ctx c)).
Proof.
  induction n as [|n IH]; intros c p H F.
  - cbn [read_event wd_event]. apply (both_ret _ _ _ p); [exact H|exact F|reflexivity].
  - pose proof (event_plain (Datatypes.S n) c p H) as HP. cbn [read_event wd_event] in *.
    destruct (event_internal_both c p H F) as [c1 [res [p1 [E [Ew [H1 [F1 [L1 Hask]]]]]]]]. rewrite E in *. rewrite Ew. cbn [obind] in *.
    destruct res as [ev|[|k|e]]; try (apply (both_ret _ _ _ p1); [exact H1|exact F1|exact L1]).
    specialize (Hask k eq_refl). cbn [acc_buffered machine_buffered b_data b_fill b_grow word_ctx c_reader c_demuxer c_info] in *.
    rewrite (data_word _ p1 H1). rewrite (data_rep src good tell _ p1 H1) in *. set (dat := firstn _ _) in *. cbn [obind] in *.
    destruct (k <=? length dat); [apply (both_same _ _ c1); [exact L1|exact (IH c1 p1 H1 F1)]|].
    destruct (N.ltb_spec (room c1 + N.of_nat k) (LIM)) as [Hroom|Hroom].
    + unfold machine_grow at 1. rewrite (grow_word (c_reader c1) k F1 Hroom). cbn [obind].
      pose proof (grow_fits _ k F1 Hroom) as Fg. pose proof (grow_rep src good tell _ p1 k H1) as Hg.
      destruct (fill_both _ p1 Hg Fg) as [a3 [fr [Ef [Efw [H3 [F3 [L3 Hd]]]]]]]. rewrite Ef, Efw in *. cbn [obind] in *. rewrite grow_len in L3.
      set (c3 := mk_dctx (c_demuxer c1) a3 (c_info c1)) in *.
      assert (L3' : len c3 = len c + k) by (cbn [c3 c_reader]; lia).
      change (mk_dctx (c_demuxer c1) (word_acc a3) (c_info c1)) with (word_ctx c3).
      assert (R : forall r : option (result (event P) error), both (Datatypes.S n) c (Ret (c3, r)) (Ret (word_ctx c3, r))).
      { intros r. apply (both_more n c c3 k); [exact L3'|exact Hask|]. apply (both_ret _ _ _ p1); [exact H3|exact F3|reflexivity]. }
      destruct fr as [d|e]; [|apply R]. rewrite (data_word _ p1 H3), (Hd d eq_refl). cbn [obind].
      destruct (length d <=? length dat); [apply R|].
      apply (both_more n c c3 k); [exact L3'|exact Hask|]. exact (IH c3 p1 H3 F3).
    + unfold room in Hroom.
      assert (HPan : forall (K : wacc S -> outcome (dctx P D (wacc S) * option (result (event P) error))), strict ->
        (let! r2 := machine_grow mc (word_acc (c_reader c1)) k in K r2) = Panic)
        by (intros K Hk; rewrite (grow_panics (c_reader c1) k Hk Hask F1 Hroom); reflexivity).
      destruct (fill_rep i src good tell Hsrc _ p1 (grow_rep src good tell _ p1 k H1)) as [a3 [fr [Ef [H3 [L3 Hfr]]]]]. rewrite Ef in *. cbn [obind] in *.
      rewrite grow_len in L3. set (c3 := mk_dctx (c_demuxer c1) a3 (c_info c1)) in *.
      assert (L3' : len c3 = len c + k) by (cbn [c3 c_reader]; lia).
      assert (B : (LIM <= room c3)%N) by (unfold room; lia).
      destruct fr as [d|e].
      * destruct Hfr as [Hd _]. rewrite Hd in *. cbn [obind] in *. destruct (length d <=? length dat).
        -- apply (both_more n c c3 k); [exact L3'|exact Hask|]. apply both_panic; [|exact B|apply HPan].
           apply (ok_ret _ _ _ p1 _ 0); [exact H3|lia|left; reflexivity].
        -- apply (both_more n c c3 k); [exact L3'|exact Hask|]. apply both_panic; [|exact B|apply HPan]. exact (event_plain n c3 p1 H3).
      * apply (both_more n c c3 k); [exact L3'|exact Hask|]. apply both_panic; [|exact B|apply HPan].
        apply (ok_ret _ _ _ p1 _ 0); [exact H3|lia|left; reflexivity].
Qed.

Lemma headers_both n : forall c p, rep (c_reader c) p -> fits (c_reader c) ->
  both n c (read_headers dm bio n c) (wd_headers wdm wio (machine_grow mc) n (word_ctx c)).
Proof.
  induction n as [|n IH]; intros c p H F.
  - cbn [read_headers wd_headers]. apply (both_ret _ _ _ p); [exact H|exact F|reflexivity].
  - cbn [read_headers wd_headers]. cbn [acc_buffered machine_buffered b_fill b_grow].
    change (c_reader (word_ctx c)) with (word_acc (c_reader c)).
    destruct (fill_both _ p H F) as [a3 [fr [Ef [Efw [H3 [F3 [L3 _]]]]]]]. rewrite Ef, Efw. cbn [obind].
    set (c3 := mk_dctx (c_demuxer c) a3 (c_info c)).
    change (mk_dctx (c_demuxer (word_ctx c)) (word_acc a3) (c_info (word_ctx c))) with (word_ctx c3).
    destruct fr as [d|e]; [|apply (both_ret _ _ _ p); [exact H3|exact F3|exact L3]].
    destruct (headers_internal_both c3 p H3 F3) as [c1 [res [p1 [E [Ew [H1 [F1 [L1 Hask]]]]]]]].
    fold dm. change (mk_buffered (fill_buf i) (seek i) data grow) with bio. rewrite E.
    change (mk_buffered (m_fill_buf mc i) (m_seek mc i) m_data (fun (a : wacc S) (_ : nat) => a)) with wio. rewrite Ew. cbn [obind].
    assert (L1' : len c1 = len c) by (rewrite L1; exact L3).
    destruct res as [ev|[|k|e]]; try (apply (both_ret _ _ _ p1); [exact H1|exact F1|exact L1']).
    specialize (Hask k eq_refl). cbn [word_ctx c_reader c_demuxer c_info] in *.
    set (cg := mk_dctx (c_demuxer c1) (grow (c_reader c1) k) (c_info c1)).
    assert (Lg : len cg = len c + k) by (cbn [cg c_reader]; rewrite grow_len; lia).
    pose proof (grow_rep src good tell _ p1 k H1) as Hg.
    destruct (N.ltb_spec (room c1 + N.of_nat k) (LIM)) as [Hroom|Hroom].
    + unfold machine_grow at 1. rewrite (grow_word (c_reader c1) k F1 Hroom). cbn [obind].
      change (mk_dctx (c_demuxer c1) (word_acc (grow (c_reader c1) k)) (c_info c1)) with (word_ctx cg).
      apply (both_more n c cg k); [exact Lg|exact Hask|]. apply (IH cg p1 Hg). exact (grow_fits _ k F1 Hroom).
    + unfold room in Hroom.
      apply (both_more n c cg k); [exact Lg|exact Hask|]. apply both_panic; [exact (headers_plain n cg p1 Hg)|unfold room; lia|].
      intros Hk. rewrite (grow_panics (c_reader c1) k Hk Hask F1 Hroom). reflexivity.
Qed.

(** Sessions. *)
Lemma session_both n calls : forall c p, rep (c_reader c) p -> fits (c_reader c) ->
  both (length calls * n) c (plain_session i ps n calls c) (machine_session mc i ps n calls (word_ctx c)).
Proof.
  assert (Plain : forall calls c p, rep (c_reader c) p -> plain_ok (length calls * n) c (plain_session i ps n calls c)).
  { clear calls. induction calls as [|[|] calls IH]; intros c p H; unfold plain_session; cbn [session length].
    - apply (ok_ret _ _ _ p _ 0); [exact H|lia|left; reflexivity].
    - destruct (headers_plain n c p H) as [c1 [r [p1 [E [H1 [L1 M1]]]]]]. rewrite E. cbn [obind].
      destruct (IH c1 p1 H1) as [c2 [rs [p2 [E2 [H2 [L2 M2]]]]]]. unfold plain_session in E2. rewrite E2. cbn [obind].
      exists c2, (GotHeaders r :: rs), p2. split; [reflexivity|]. split; [exact H2|]. split; [lia|].
      intros M HM. specialize (M1 M HM). specialize (M2 M HM). lia.
    - destruct (event_plain n c p H) as [c1 [r [p1 [E [H1 [L1 M1]]]]]]. rewrite E. cbn [obind].
      destruct (IH c1 p1 H1) as [c2 [rs [p2 [E2 [H2 [L2 M2]]]]]]. unfold plain_session in E2. rewrite E2. cbn [obind].
      exists c2, (GotEvent r :: rs), p2. split; [reflexivity|]. split; [exact H2|]. split; [lia|].
      intros M HM. specialize (M1 M HM). specialize (M2 M HM). lia. }
  assert (Step : forall (A : Type) (out : A -> ctx_out P) calls c plain word,
    (forall c p, rep (c_reader c) p -> fits (c_reader c) ->
       both (length calls * n) c (plain_session i ps n calls c) (machine_session mc i ps n calls (word_ctx c))) ->
    both n c plain word ->
    both (n + length calls * n) c
      (let! (c1, r) := plain in let! (c2, rs) := plain_session i ps n calls c1 in Ret (c2, out r :: rs))
      (let! (c1, r) := word in let! (c2, rs) := machine_session mc i ps n calls c1 in Ret (c2, out r :: rs))).
  { intros A out cs c plain word IH [c1 [r [p1 [-> [H1 [L1 [M1 [W1 P1]]]]]]]]. cbn [obind].
    destruct (N.ltb_spec (room c1) (LIM)) as [Hr|Hr].
    - destruct (W1 Hr) as [F1 ->]. cbn [obind].
      destruct (IH c1 p1 H1 F1) as [c2 [rs [p2 [-> [H2 [L2 [M2 [W2 P2]]]]]]]]. cbn [obind].
      exists c2, (out r :: rs), p2. split; [reflexivity|]. split; [exact H2|]. split; [lia|].
      split; [intros M HM; specialize (M1 M HM); specialize (M2 M HM); lia|]. split.
      + intros Hr2. destruct (W2 Hr2) as [F2 ->]. split; [exact F2|reflexivity].
      + intros Hk Hr2. rewrite (P2 Hk Hr2). reflexivity.
    - destruct (Plain cs c1 p1 H1) as [c2 [rs [p2 [-> [H2 [L2 M2]]]]]]. cbn [obind].
      exists c2, (out r :: rs), p2. split; [reflexivity|]. split; [exact H2|]. split; [lia|].
      split; [intros M HM; specialize (M1 M HM); specialize (M2 M HM); lia|]. split; [|intros Hk _; rewrite (P1 Hk Hr); reflexivity].
      intros Hr2. unfold room in *. lia. }
  induction calls as [|[|] calls IH]; intros c p H F.
  - apply (both_ret _ _ _ p); [exact H|exact F|reflexivity].
  - exact (Step _ GotHeaders calls c _ _ IH (headers_both n c p H F)).
  - exact (Step _ GotEvent calls c _ _ IH (event_both n c p H F)).
Qed.

(** From a new context. *)
Lemma new_both n calls cap r d : good r -> tell r = 0 -> (N.of_nat cap < LIM)%N ->
  exists c' rs, plain_session i ps n calls (context_new d (with_capacity cap r)) = Ret (c', rs) /\
    cap <= length (abuf (c_reader c')) /\
    (forall M, (forall k, asks ps k -> k <= M) -> length (abuf (c_reader c')) <= cap + length calls * n * M) /\
    ((room c' < LIM)%N -> machine_session mc i ps n calls (context_new d (w_with_capacity (N.of_nat cap) r)) = Ret (word_ctx c', rs)) /\
    (strict -> (LIM <= room c')%N ->
       machine_session mc i ps n calls (context_new d (w_with_capacity (N.of_nat cap) r)) = Panic).
Proof.
  intros Hg Ht Hc. set (c0 := context_new d (with_capacity cap r) : dctx P D (acc S)).
  assert (L0 : length (abuf (c_reader c0)) = cap) by (cbn [c0 context_new c_reader with_capacity abuf]; apply repeat_length).
  assert (F0 : fits (c_reader c0)).
  { constructor.
    - cbn [c0 context_new c_reader with_capacity aindex]. pose proof (modulus_nz mc Hbits). lia.
    - left. cbn [c0 context_new c_reader with_capacity aindex]. lia.
    - rewrite L0. exact Hc. }
  destruct (session_both n calls c0 0 (new_rep src good tell cap r Hg Ht) F0) as [c' [rs [p' [E [H' [L [HM [W Pn]]]]]]]].
  exists c', rs. split; [exact E|]. split; [lia|]. split; [intros M HMa; specialize (HM M HMa); lia|].
  replace (context_new d (w_with_capacity (N.of_nat cap) r)) with (word_ctx c0).
  2:{ unfold c0, context_new, word_ctx, word_acc, w_with_capacity, with_capacity. cbn. rewrite Nat2N.id. reflexivity. }
  split; [intros Hr; apply W; exact Hr|exact Pn].
Qed.

End Source.
