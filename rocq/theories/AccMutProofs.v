(** Histories with [get_mut]. *)
From Coq Require Import List Arith NArith ZArith Bool Lia.
From Coq Require Import ZifyBool ZifyNat ZifyN.
From Verif Require Import Base AccModel AccSpec AccProofs AccProofs2 AccAnySpec AccAnyProofs AccMutSpec AccExamples.
Import ListNotations.
Local Open Scope nat_scope.

Section Mut.
Context {R : Type}.
Variable i : io R.
Variable good : list N -> R -> Prop.
Variable tell : R -> nat.
Hypothesis Hsrc : forall s, source_ok i s (good s) tell.

Record repm (a : acc R) (m : mixed) : Prop := {
  rm_good : good (x_src m) (inner a);
  rm_pos : apos a <= aend a;
  rm_end : aend a <= length (abuf a);
  rm_told : aindex a = x_told m;
  rm_win : firstn (aend a - apos a) (skipn (apos a) (abuf a)) = x_buf m;
  rm_tell : tell (inner a) = x_at m
}.

Lemma repm_buf a m : repm a m -> length (x_buf m) = aend a - apos a.
Proof.
  intros H. rewrite <- (rm_win _ _ H), firstn_length, skipn_length. pose proof (rm_pos _ _ H). pose proof (rm_end _ _ H). lia.
Qed.

Lemma repm_data a m : repm a m -> data a = Ret (x_buf m).
Proof. intros H. unfold data. rewrite slice_ok by apply H. rewrite (rm_win _ _ H). reflexivity. Qed.

(** The bytes to come as a source of its own, read by the same reader; it cannot seek. *)
Definition i0 : io R := mk_io (io_read i) (fun r _ => (r, Error (OtherError 0))).
Definition good0 (m : mixed) (r : R) : Prop := good (x_src m) r /\ x_at m <= tell r.
Definition tell0 (m : mixed) (r : R) : nat := tell r - x_at m + length (x_buf m).

Lemma ok0 m : source_ok i0 (coming m) (good0 m) (tell0 m).
Proof.
  constructor.
  - intros r dst r' dst' res [Hg Ha] E. cbn [i0 io_read] in E.
    destruct (so_read _ _ _ _ (Hsrc (x_src m)) _ _ _ _ _ Hg E) as [Hg' [HL Hr]].
    unfold good0, tell0, reads, coming. rewrite app_length, skipn_length. destruct res as [k|e].
    + destruct Hr as (K1 & K2 & K3 & K4 & K5). split; [split; [exact Hg'|lia]|]. split; [exact HL|]. split; [exact K1|]. split; [lia|].
      split; [|split; [|lia]].
      * rewrite K3. f_equal. rewrite skipn_app, skipn_skipn_plus. rewrite (skipn_all2 (n := _) (x_buf m)) by lia. cbn [app]. f_equal. lia.
      * intros Z. destruct (K4 Z); [left; assumption|right; lia].
    + split; [split; [exact Hg'|lia]|]. split; [exact HL|]. lia.
  - intros r s r' res Hg E. cbn [i0 io_seek] in E. injection E as <- <-. split; [exact Hg|reflexivity].
Qed.

Definition start0 (m : mixed) : machine := mk_machine 0 (length (x_buf m)) (x_told m).

Lemma repm_repx a m : repm a m -> repx (coming m) (good0 m) (tell0 m) a (start0 m).
Proof.
  intros H. pose proof (repm_buf _ _ H) as L. pose proof (rm_tell _ _ H) as T.
  split; [|split; [symmetry; exact L|exact (rm_told _ _ H)]].
  constructor; cbn [start0 m_pos retold inner abuf apos aend aindex].
  - split; [exact (rm_good _ _ H)|lia].
  - apply H.
  - apply H.
  - reflexivity.
  - unfold coming. rewrite app_length. lia.
  - rewrite (rm_win _ _ H). unfold coming. cbn [skipn]. rewrite <- L. symmetry. apply firstn_app_exact. reflexivity.
  - unfold tell0. lia.
Qed.

(** Back again. *)
Definition end0 (m : mixed) (k : machine) : mixed :=
  mk_mixed (x_src m) (window (coming m) k) (x_at m + (m_pos k + m_buf k) - length (x_buf m)) (m_told k).

Lemma repx_repm a m k : repx (coming m) (good0 m) (tell0 m) a k -> length (x_buf m) <= m_pos k + m_buf k -> repm a (end0 m k).
Proof.
  intros X HL. pose proof X as (H & B & T). pose proof (tell_x _ _ _ _ _ X) as W.
  pose proof (repx_data _ _ _ _ _ X) as D. constructor; cbn [end0 x_src x_buf x_at x_told].
  - apply (rp_good _ _ _ _ _ H).
  - apply (rp_pos _ _ _ _ _ H).
  - apply (rp_end _ _ _ _ _ H).
  - exact T.
  - unfold data in D. rewrite slice_ok in D by apply H. injection D as D. exact D.
  - pose proof (rp_good _ _ _ _ _ H) as [_ A]. cbn [retold inner] in A. unfold tell0 in W. lia.
Qed.

Lemma end0_coming m k : m_buf k <= length (coming m) - m_pos k -> length (x_buf m) <= m_pos k + m_buf k ->
  coming (end0 m k) = skipn (m_pos k) (coming m).
Proof.
  intros HB HL. unfold coming at 1. cbn [end0 x_src x_buf x_at]. unfold window.
  rewrite <- (firstn_skipn (m_buf k) (skipn (m_pos k) (coming m))) at 2. f_equal.
  rewrite skipn_skipn_plus. unfold coming. rewrite skipn_app, skipn_skipn_plus. rewrite (skipn_all2 (n := _) (x_buf m)) by lia. cbn [app]. f_equal. lia.
Qed.

Lemma end0_delivered m k n : m_pos k = n -> m_told k = x_told m + n -> m_buf k <= length (coming m) - n ->
  n <= length (coming m) -> length (x_buf m) <= n + m_buf k -> delivered m n (end0 m k).
Proof.
  intros <- HT HB HN HL. split; [reflexivity|]. split; [apply end0_coming; assumption|]. split; [exact HN|]. split; [|exact HT].
  cbn [end0 x_at x_buf]. unfold window. rewrite firstn_length, skipn_length. lia.
Qed.

Lemma same_tell a m a' k : repm a m -> repx (coming m) (good0 m) (tell0 m) a' k -> m_pos k + m_buf k >= length (x_buf m).
Proof. intros _ X. pose proof (tell_x _ _ _ _ _ X) as W. unfold tell0 in W. lia. Qed.

Lemma same_machine m : end0 m (start0 m) = m.
Proof.
  destruct m as [s b p t]. unfold end0, start0, window, coming. cbn [m_pos m_buf m_told x_src x_buf x_at x_told skipn].
  rewrite firstn_app_exact by reflexivity. f_equal. lia.
Qed.

(** Moving inside the buffer. *)
Lemma repm_move a m n : repm a m -> n <= length (x_buf m) ->
  repm (mk_acc (inner a) (abuf a) (apos a + n) (aend a) (aindex a + n)) (skipped m n).
Proof.
  intros H Hn. pose proof (repm_buf _ _ H) as L. pose proof (rm_pos _ _ H). pose proof (rm_end _ _ H).
  constructor; cbn [skipped inner abuf apos aend aindex x_src x_buf x_at x_told]; try apply H; try lia.
  - rewrite (rm_told _ _ H). reflexivity.
  - rewrite <- (rm_win _ _ H). rewrite skipn_firstn_comm, skipn_skipn_plus. f_equal. lia.
Qed.

Lemma real_seek_mixed a m s t : repm a m -> target (length (x_src m)) (x_at m) s = t ->
  exists a' res m', seek_inner i a s = Ret (a', res) /\ repm a' m' /\ mixed_seek m t res m'.
Proof.
  intros H Ht. unfold seek_inner. destruct (io_seek i (inner a) s) as [r' res] eqn:Es.
  destruct (so_seek _ _ _ _ (Hsrc (x_src m)) _ _ _ _ (rm_good _ _ H) Es) as [Hg Hs]. rewrite (rm_tell _ _ H) in Hs.
  destruct res as [sz|e].
  - destruct Hs as [Hsz Hp]. rewrite Ht in Hsz.
    assert (H0 : rep (x_src m) (good (x_src m)) tell (mk_acc r' (abuf a) 0 0 sz) sz).
    { constructor; cbn [inner apos aend abuf aindex]; try lia; try assumption; try reflexivity. }
    destruct (fill_rep i _ _ _ (Hsrc (x_src m)) _ _ H0) as [a1 [fr [Ef [H1 [_ H2]]]]]. rewrite Ef. cbn [obind].
    set (w := firstn (buffered a1) (skipn sz (x_src m))).
    assert (Lw : length w = buffered a1) by exact (data_length _ _ _ _ _ H1).
    assert (X : repm a1 (mk_mixed (x_src m) w (sz + buffered a1) sz)).
    { constructor; cbn [x_src x_buf x_at x_told]; try apply H1. }
    destruct fr as [d|e].
    + eexists a1, (Okay sz), _. split; [reflexivity|]. split; [exact X|]. unfold mixed_seek. cbn [x_src x_buf x_at x_told coming].
      repeat split; [exact Hsz| |rewrite Lw; reflexivity].
      unfold coming. cbn [x_buf x_at x_src]. unfold w. rewrite <- skipn_skipn_plus. apply firstn_skipn.
    + eexists a1, (Error e), _. split; [reflexivity|]. split; [exact X|]. right. cbn [x_src x_buf x_at x_told].
      change (buffered (mk_acc r' (abuf a) 0 0 sz)) with 0 in H2. unfold w. rewrite H2. repeat split; [|lia]. lia.
  - eexists _, (Error e), m. split; [reflexivity|]. split; [|left; reflexivity].
    constructor; cbn [inner apos aend abuf aindex]; try apply H; try assumption.
Qed.

Lemma seek_mixed_ok a m s : repm a m ->
  exists a' res m', seek i a s = Ret (a', res) /\ repm a' m' /\ seek_mixed m s res m'.
Proof.
  intros X. pose proof (repm_buf _ _ X) as L. pose proof (rm_told _ _ X) as T. pose proof (rm_pos _ _ X) as P. pose proof (rm_tell _ _ X) as W.
  unfold seek, seek_mixed. destruct s as [n|d|d].
  - rewrite csub_ok by lia. cbn [obind]. rewrite T. replace (x_told m + aend a - apos a) with (x_told m + length (x_buf m)) by lia.
    destruct ((x_told m <=? n) && (n <? x_told m + length (x_buf m))) eqn:E.
    + eexists _, _, _. split; [reflexivity|]. split; [|split; reflexivity].
      replace n with (aindex a + (n - x_told m)) at 2 by lia. apply repm_move; [exact X|lia].
    + apply real_seek_mixed; [exact X|reflexivity].
  - apply real_seek_mixed; [exact X|reflexivity].
  - rewrite csub_ok by lia. cbn [obind]. rewrite <- L. destruct (Z.ltb_spec d 0) as [Hd|Hd].
    + destruct (Z.leb_spec 0 d); [lia|]. apply real_seek_mixed; [exact X|]. reflexivity.
    + destruct (Z.leb_spec 0 d); [|lia]. destruct (Nat.leb_spec (Z.to_nat d) (length (x_buf m))).
      * cbn [aindex]. rewrite <- T. eexists _, _, _. split; [reflexivity|]. split; [|split; reflexivity]. apply repm_move; [exact X|lia].
      * apply real_seek_mixed; [exact X|]. reflexivity.
Qed.

Lemma step_same a op : (forall s, op <> ASeek s) -> acc_step i0 a op = acc_step i a op.
Proof. intros H. destruct op; try reflexivity. exfalso. apply (H s). reflexivity. Qed.

Lemma fill_mixed a m : repm a m -> exists a' res m', fill_buf i a = Ret (a', res) /\ repm a' m' /\
  call_mixed m AFill (OFill res) m'.
Proof.
  intros H. destruct (step_any i0 _ _ _ (ok0 m) a _ AFill (repm_repx _ _ H)) as (a' & o & k & E & X & B & C).
  cbn [acc_step] in E. change (fill_buf i0 a) with (fill_buf i a) in E.
  destruct (fill_buf i a) as [[a1 res]| |]; cbn [obind] in E; try discriminate E. injection E as -> <-.
  cbn [start0 m_pos m_told m_buf] in C. destruct C as (C1 & C2 & C3). pose proof (same_tell _ _ _ _ H X) as G.
  exists a', res, (end0 m k). split; [reflexivity|]. split; [apply (repx_repm _ _ _ X); lia|].
  destruct res as [d|e]; cbn [call_mixed].
  - destruct C3 as [-> C3]. split; [reflexivity|]. split; [apply end0_delivered; lia|].
    cbn [end0 x_buf]. rewrite (repx_window _ _ _ _ _ X). exact C3.
  - replace k with (start0 m); [apply same_machine|]. unfold start0. destruct k as [p b t]. cbn in C1, C2, C3. rewrite C1, C2, C3. reflexivity.
Qed.

Lemma read_failed a m dst a' dst' e : repm a m -> read i a dst = Ret (a', dst', Error e) -> repm a' m.
Proof.
  intros H. unfold read. rewrite csub_ok by apply H. cbn [obind]. destruct (length dst <? aend a - apos a) eqn:E1.
  - destruct (slice (abuf a) (apos a) (apos a + length dst)) as [s| |]; cbn [obind]; try discriminate.
  - destruct (length (abuf a) <? length dst).
    + destruct (slice (abuf a) (apos a) (aend a)) as [s| |]; cbn [obind]; try discriminate. destruct (slice_read s dst) as [d1 n].
      destruct (slice d1 (aend a - apos a) (length d1)) as [t| |]; cbn [obind]; try discriminate.
      destruct (io_read i (inner a) t) as [[r' t'] [k|e']] eqn:Er.
      * destruct (reset_buffer_position _); cbn [obind]; discriminate.
      * intros E. injection E as <- _ _. destruct (so_read _ _ _ _ (Hsrc (x_src m)) _ _ _ _ _ (rm_good _ _ H) Er) as [Hg [_ Hr]].
        constructor; cbn [inner abuf apos aend aindex]; try apply H; [exact Hg|]. rewrite Hr. apply H.
    + destruct (fill_mixed a m H) as (a1 & res & m1 & Ef & X & C). rewrite Ef. cbn [obind]. destruct res as [d|e'].
      * destruct (slice_read d dst). discriminate.
      * intros E. injection E as <- _ _. cbn [call_mixed] in C. rewrite <- C. exact X.
Qed.

Lemma step_mixed a m op : repm a m ->
  exists a' o m', acc_step i a op = Ret (a', o) /\ repm a' m' /\ call_mixed m op o m'.
Proof.
  intros H. destruct op as [dst|  |n|n| | | |s].
  - rewrite <- step_same by discriminate.
    destruct (step_any i0 _ _ _ (ok0 m) a _ (ARead dst) (repm_repx _ _ H)) as (a' & o & k & E & X & B & C).
    exists a', o. destruct o as [d' res| | | | |]; try contradiction. cbn [start0 m_pos m_told m_buf] in C. destruct C as [[L Hr] T].
    pose proof (same_tell _ _ _ _ H X) as G. destruct res as [n|e].
    + destruct Hr as (K1 & K2 & K3 & K4 & K5). cbn [Nat.add] in K5. exists (end0 m k). split; [exact E|]. split; [apply (repx_repm _ _ _ X); lia|].
      cbn [call_mixed]. split; [exact L|]. split; [exact K1|]. split; [exact K3|]. split.
      * apply end0_delivered; lia.
      * intros Z. destruct (K4 Z) as [|K6]; [left; assumption|right]. destruct (coming m); [reflexivity|cbn in K6; lia].
    + exists m. split; [exact E|]. split; [|split; [exact L|reflexivity]].
      cbn [acc_step] in E. change (read i0 a dst) with (read i a dst) in E. destruct (read i a dst) as [[[a1 d1] r1]| |] eqn:Er; cbn [obind] in E; try discriminate E.
      injection E as -> -> ->. exact (read_failed _ _ _ _ _ _ H Er).
  - destruct (fill_mixed a m H) as (a' & res & m' & E & X & C). exists a', (OFill res), m'. cbn [acc_step]. rewrite E. cbn [obind]. auto.
  - eexists (consume a n), OUnit, _. split; [reflexivity|]. split; [|reflexivity].
    pose proof (repm_buf _ _ H) as L. pose proof (rm_pos _ _ H). pose proof (rm_end _ _ H).
    constructor; cbn [consume skipped inner abuf apos aend aindex x_src x_buf x_at x_told]; try apply H; try lia.
    + rewrite (rm_told _ _ H). reflexivity.
    + rewrite <- (rm_win _ _ H). rewrite skipn_firstn_comm, skipn_skipn_plus.
      destruct (Nat.leb_spec n (aend a - apos a)) as [Q|Q].
      * f_equal; [lia|]. f_equal. lia.
      * replace (aend a - Nat.min (apos a + n) (aend a)) with 0 by lia. replace (aend a - apos a - n) with 0 by lia. reflexivity.
  - eexists (grow a n), OUnit, m. split; [reflexivity|]. split; [|reflexivity].
    pose proof (rm_pos _ _ H). pose proof (rm_end _ _ H).
    constructor; cbn [grow inner abuf apos aend aindex]; try apply H.
    + rewrite app_length. lia.
    + rewrite <- (rm_win _ _ H). rewrite skipn_app, firstn_app_le; [reflexivity|]. rewrite skipn_length. lia.
  - rewrite <- step_same by discriminate.
    destruct (step_any i0 _ _ _ (ok0 m) a _ AReset (repm_repx _ _ H)) as (a' & o & k & E & X & B & C).
    exists a', o, m. destruct o; try contradiction. split; [exact E|]. split; [|reflexivity].
    rewrite C in X. rewrite <- (same_machine m). apply repx_repm; [exact X|]. cbn [start0 m_pos m_buf]. lia.
  - cbn [acc_step]. rewrite (repm_data _ _ H). cbn [obind]. eexists a, _, m. split; [reflexivity|]. split; [exact H|]. split; reflexivity.
  - cbn [acc_step]. unfold capacity. rewrite csub_ok by apply H. cbn [obind]. eexists a, _, m. split; [reflexivity|]. split; [exact H|].
    split; [reflexivity|]. symmetry. exact (repm_buf _ _ H).
  - destruct (seek_mixed_ok a m s H) as (a' & res & m' & E & X & C). cbn [acc_step]. rewrite E. cbn [obind].
    exists a', (OSeek res), m'. split; [reflexivity|]. split; [exact X|exact C].
Qed.

Lemma run_mixed : forall ops a m, repm a m -> Forall (touches good tell) ops ->
  exists a' outs m', mut_run i a ops = Ret (a', outs) /\ repm a' m' /\ history_mixed m ops outs m'.
Proof.
  induction ops as [|[op|f g h] ops IH]; intros a m H HT.
  - exists a, [], m. split; [reflexivity|]. split; [exact H|reflexivity].
  - apply Forall_cons_iff in HT. destruct HT as [_ HT]. cbn [mut_run].
    destruct (step_mixed a m op H) as (a1 & o & m1 & E1 & X1 & C1). rewrite E1. cbn [obind].
    destruct (IH a1 m1 X1 HT) as (a2 & outs & m2 & E2 & X2 & C2). rewrite E2. cbn [obind].
    exists a2, (o :: outs), m2. split; [reflexivity|]. split; [exact X2|]. exists m1. split; assumption.
  - apply Forall_cons_iff in HT. destruct HT as [HF HT]. cbn [mut_run]. destruct (HF _ _ (rm_good _ _ H)) as [Hg Hh].
    rewrite (rm_tell _ _ H) in Hh.
    assert (X : repm (set_inner a (f (get_mut a))) (mk_mixed (g (x_src m)) (x_buf m) (tell (f (inner a))) (x_told m))).
    { constructor; cbn [set_inner get_mut inner abuf apos aend aindex x_src x_buf x_at x_told]; try apply H; [exact Hg|reflexivity]. }
    destruct (IH _ _ X HT) as (a2 & outs & m2 & E2 & X2 & C2).
    exists a2, outs, m2. split; [exact E2|]. split; [exact X2|]. cbn [history_mixed]. exists (tell (f (inner a))). split; [exact Hh|]. exact C2.
Qed.

Lemma repm_new cap r s : good s r -> repm (with_capacity cap r) (mk_mixed s [] (tell r) 0).
Proof. intros Hg. constructor; cbn; try lia; try assumption; reflexivity. Qed.

Lemma mixed_history cap r s ops : good s r -> Forall (touches good tell) ops ->
  exists a outs m, mut_run i (with_capacity cap r) ops = Ret (a, outs) /\
    history_mixed (mk_mixed s [] (tell r) 0) ops outs m /\
    good (x_src m) (into_inner a) /\ tell (into_inner a) = x_at m /\ data a = Ret (x_buf m) /\ seek i a (Current 0) = Ret (a, Okay (x_told m)).
Proof.
  intros Hg HT. destruct (run_mixed ops _ _ (repm_new cap r s Hg) HT) as (a & outs & m & E & X & C).
  exists a, outs, m. split; [exact E|]. split; [exact C|]. split; [apply X|]. split; [apply X|]. split; [apply repm_data; exact X|].
  pose proof (rm_pos _ _ X) as P. pose proof (rm_told _ _ X) as T.
  unfold seek. rewrite csub_ok by lia. cbn [obind]. change (Z.to_nat 0) with 0. cbn [Z.leb Z.compare Nat.leb]. rewrite !Nat.add_0_r.
  destruct a; cbn in *. rewrite T. reflexivity.
Qed.
End Mut.

Lemma seek_inner_lands {R : Type} (i : io R) s (good : R -> Prop) tell a w q :
  source_ok i s good tell -> never_fails i s good tell -> good (inner a) -> apos a <= aend a ->
  Z.of_nat q = target (length s) (tell (inner a)) w ->
  exists a', seek_inner i a w = Ret (a', Okay q) /\ rep s good tell a' q.
Proof.
  intros Hs Hn Hg HP Hq. destruct (io_seek i (inner a) w) as [r' res] eqn:Es.
  destruct (proj2 Hn _ _ _ _ Hg Es) as [q' ->]; [lia|].
  destruct (so_seek _ _ _ _ Hs _ _ _ _ Hg Es) as [Hg' [Hq' Ht]].
  assert (H : q' = q) by lia.
  assert (H0 : rep s good tell (mk_acc r' (abuf a) 0 0 q) q).
  { constructor; cbn [inner apos aend abuf aindex]; try lia; try assumption; try reflexivity. }
  destruct (fill_never_fails i s good tell Hs Hn _ _ H0) as (a2 & dd & Ef & H2).
  exists a2. split; [|exact H2]. unfold seek_inner. rewrite Es, H, Ef. reflexivity.
Qed.

Lemma outside_seek_repairs : forall (R : Type) (i : io R) good tell cap r s0 ops a outs,
  (forall s, source_ok i s (good s) tell) -> (forall s, never_fails i s (good s) tell) ->
  good s0 r -> Forall (touches good tell) ops -> mut_run i (with_capacity cap r) ops = Ret (a, outs) ->
  exists s buf told, good s (into_inner a) /\ data a = Ret buf /\ seek i a (Current 0) = Ret (a, Okay told) /\
    forall w q,
      (w = Start q /\ (q < told \/ told + length buf <= q)) \/ (exists d, w = End d /\ Z.of_nat q = (Z.of_nat (length s) + d)%Z) ->
      exists a', seek i a w = Ret (a', Okay q) /\ delivers i s a' q /\
        forall ops2, acc_legal i a' ops2 ->
          exists a2 outs2 p2, acc_run i a' ops2 = Ret (a2, outs2) /\ history_spec s q ops2 outs2 p2.
Proof.
  intros R i good tell cap r s0 ops a outs Hs Hn Hg HT E.
  destruct (run_mixed i good tell Hs ops _ _ (repm_new i good tell Hs cap r s0 Hg) HT) as (a1 & o1 & m & E1 & X & _).
  rewrite E in E1. injection E1 as <- <-. pose proof (rm_pos _ _ _ _ X) as P. pose proof (rm_told _ _ _ _ X) as T. pose proof (rm_good _ _ _ _ X) as G.
  exists (x_src m), (x_buf m), (x_told m). split; [exact G|]. split; [exact (repm_data good tell _ _ X)|]. split.
  { unfold seek. rewrite csub_ok by lia. cbn [obind]. change (Z.to_nat 0) with 0. cbn [Z.leb Z.compare Nat.leb]. rewrite !Nat.add_0_r.
    rewrite <- T. destruct a; reflexivity. }
  intros w q Hw.
  assert (K : exists a', seek i a w = Ret (a', Okay q) /\ rep (x_src m) (good (x_src m)) tell a' q).
  { destruct Hw as [[-> Hq]|[d [-> Hq]]].
    - unfold seek. rewrite csub_ok by lia. cbn [obind]. rewrite (repm_buf good tell _ _ X) in Hq.
      destruct ((aindex a <=? q) && (q <? aindex a + aend a - apos a)) eqn:F; [lia|].
      apply (seek_inner_lands i (x_src m)); auto.
    - apply (seek_inner_lands i (x_src m)); auto. }
  destruct K as (a' & K1 & K2). exists a'. split; [exact K1|].
  split; [exact (rep_observed i _ _ _ (Hs _) (Hn _) a' q K2)|].
  intros ops2 Hl. destruct (run_rep i _ _ _ (Hs _) ops2 a' q K2 Hl) as (a3 & outs3 & p3 & E3 & _ & C3). eauto.
Qed.

(** The cursor of the examples, over any bytes. *)
Definition cur_good (s : list N) (c : cursor) : Prop := cur_src c = s /\ forallb no_fail (cur_script c) = true.

Lemma cur_ok s : source_ok cursor_io s (cur_good s) cur_pos.
Proof. apply cursor_good. Qed.
Lemma cur_nf s : never_fails cursor_io s (cur_good s) cur_pos.
Proof. apply cursor_good. Qed.

Lemma move_touches n : touches cur_good cur_pos (move_to n).
Proof. intros s r [H1 H2]. split; [split; assumption|reflexivity]. Qed.
Lemma overwrite_touches n b : touches cur_good cur_pos (overwrite n b).
Proof. intros s r [H1 H2]. split; [split; [cbn; rewrite H1; reflexivity|exact H2]|reflexivity]. Qed.

Lemma moved_under_refuted : exists (good : list N -> cursor -> Prop) (src : list N) (r0 : cursor) (cap : nat) (ops : list (mut_op cursor)) a outs q a',
  (forall s, source_ok cursor_io s (good s) cur_pos) /\ (forall s, never_fails cursor_io s (good s) cur_pos) /\ good src r0 /\ cur_pos r0 = 0 /\
  Forall (touches good cur_pos) ops /\
  mut_run cursor_io (with_capacity cap r0) ops = Ret (a, outs) /\ good src (into_inner a) /\
  seek cursor_io a (Start q) = Ret (a', Okay q) /\ q < length src /\ ~ delivers cursor_io src a' q.
Proof.
  exists cur_good, ex_src, ex_cursor, 10, [Call (ARead (ex_slice 3)); Call AFill; move_to 0]. eexists _, _, 5, _.
  split; [exact cur_ok|]. split; [exact cur_nf|]. split; [split; reflexivity|]. split; [reflexivity|].
  split. { constructor; [exact I|]. constructor; [exact I|]. constructor; [apply move_touches|constructor]. }
  split; [vm_compute; reflexivity|]. split; [vm_compute; split; reflexivity|]. split; [vm_compute; reflexivity|]. split; [vm_compute; lia|].
  intros D. destruct (D 12) as [a' E]. vm_compute in E. discriminate E.
Qed.

Lemma c156_inner_touched : forall (R : Type) (i : io R) good tell cap r s ops,
  (forall s', source_ok i s' (good s') tell) -> good s r -> Forall (touches good tell) ops ->
  exists a outs m, mut_run i (with_capacity cap r) ops = Ret (a, outs) /\
    history_mixed (mk_mixed s [] (tell r) 0) ops outs m /\
    good (x_src m) (into_inner a) /\ tell (into_inner a) = x_at m /\ data a = Ret (x_buf m) /\ seek i a (Current 0) = Ret (a, Okay (x_told m)).
Proof. intros R i good tell cap r s ops Hs. exact (mixed_history i good tell Hs cap r s ops). Qed.
