(** Every sequence of calls on [AccReader]. *)
From Coq Require Import List Arith NArith ZArith Bool Lia.
From Coq Require Import ZifyBool ZifyNat ZifyN.
From Verif Require Import Base AccModel AccSpec AccProofs AccAnySpec.
Import ListNotations.
Local Open Scope nat_scope.

Section Any.
Context {R : Type}.
Variable i : io R.
Variable src : list N.
Variable good : R -> Prop.
Variable tell : R -> nat.
Hypothesis Hsrc : source_ok i src good tell.

(** The same reader with another idea of its position. *)
Definition retold (a : acc R) (k : nat) : acc R := mk_acc (inner a) (abuf a) (apos a) (aend a) k.

Lemma reset_retold a k : reset_buffer_position (retold a k) = (let! a' := reset_buffer_position a in Ret (retold a' k)).
Proof.
  unfold reset_buffer_position, retold. cbn [inner abuf apos aend aindex]. destruct (csub (aend a) (apos a)) as [x| |]; cbn [obind]; try reflexivity.
  destruct (0 <? x); cbn [obind]; [|reflexivity]. destruct (slice (abuf a) (apos a) (aend a)); reflexivity.
Qed.

Lemma reset_told (a a' : acc R) : reset_buffer_position a = Ret a' -> aindex a' = aindex a.
Proof.
  unfold reset_buffer_position. destruct (csub (aend a) (apos a)) as [x| |]; cbn [obind]; try discriminate.
  destruct (0 <? x); cbn [obind].
  - destruct (slice (abuf a) (apos a) (aend a)); cbn [obind]; try discriminate. intros E. injection E as <-. reflexivity.
  - intros E. injection E as <-. reflexivity.
Qed.

Lemma fill_retold a k : fill_buf i (retold a k) = (let! (a', res) := fill_buf i a in Ret (retold a' k, res)).
Proof.
  unfold fill_buf. rewrite reset_retold. change (apos (retold a k)) with (apos a). change (aend (retold a k)) with (aend a).
  change (abuf (retold a k)) with (abuf a). destruct (negb (apos a =? 0) || negb (aend a =? length (abuf a))).
  - destruct (reset_buffer_position a) as [a1| |]; cbn [obind]; try reflexivity.
    unfold retold. cbn [inner abuf apos aend aindex]. destruct (slice (abuf a1) (aend a1) (length (abuf a1))) as [t| |]; cbn [obind]; try reflexivity.
    destruct (io_read i (inner a1) t) as [[r' t'] [n|e]]; [|reflexivity].
    cbn [inner abuf apos aend aindex].
    destruct (slice (with_tail (abuf a1) (aend a1) t') (apos a1) (aend a1 + n)); reflexivity.
  - destruct (slice (abuf a) (apos a) (aend a)); reflexivity.
Qed.

Lemma fill_told (a a' : acc R) res : fill_buf i a = Ret (a', res) -> aindex a' = aindex a.
Proof.
  unfold fill_buf. destruct (negb (apos a =? 0) || negb (aend a =? length (abuf a))).
  - destruct (reset_buffer_position a) as [a1| |] eqn:E; cbn [obind]; try discriminate. apply reset_told in E.
    destruct (slice (abuf a1) (aend a1) (length (abuf a1))) as [t| |]; cbn [obind]; try discriminate.
    destruct (io_read i (inner a1) t) as [[r' t'] [n|e]].
    + cbn [inner abuf apos aend aindex]. destruct (slice (with_tail (abuf a1) (aend a1) t') (apos a1) (aend a1 + n)); cbn [obind]; try discriminate.
      intros H. injection H as <- _. exact E.
    + intros H. injection H as <- _. exact E.
  - destruct (slice (abuf a) (apos a) (aend a)); cbn [obind]; try discriminate. intros H. injection H as <- _. reflexivity.
Qed.

Definition moved (res : result nat io_error) : nat := match res with Okay n => n | Error _ => 0 end.

Lemma read_retold a k dst : read i (retold a k) dst =
  (let! (a', dst', res) := read i a dst in Ret (retold a' (k + moved res), dst', res)).
Proof.
  unfold read. change (apos (retold a k)) with (apos a). change (aend (retold a k)) with (aend a).
  change (abuf (retold a k)) with (abuf a). change (inner (retold a k)) with (inner a). change (aindex (retold a k)) with k.
  destruct (csub (aend a) (apos a)) as [rem| |]; cbn [obind]; try reflexivity.
  destruct (length dst <? rem).
  - destruct (slice (abuf a) (apos a) (apos a + length dst)) as [s| |]; cbn [obind]; try reflexivity.
  - destruct (length (abuf a) <? length dst).
    + destruct (slice (abuf a) (apos a) (aend a)) as [s| |]; cbn [obind]; try reflexivity.
      destruct (slice_read s dst) as [d1 n]. destruct (slice d1 rem (length d1)) as [t| |]; cbn [obind]; try reflexivity.
      destruct (io_read i (inner a) t) as [[r' t'] [m|e]]; cbn [obind].
      * change (consume (mk_acc r' (abuf a) (apos a) (aend a) k) (m + n)) with (retold (consume (mk_acc r' (abuf a) (apos a) (aend a) (aindex a)) (m + n)) (k + (m + n))).
        rewrite reset_retold. destruct (reset_buffer_position (consume (mk_acc r' (abuf a) (apos a) (aend a) (aindex a)) (m + n))); reflexivity.
      * unfold retold. cbn [inner abuf apos aend moved]. rewrite Nat.add_0_r. reflexivity.
    + rewrite fill_retold. destruct (fill_buf i a) as [[a1 [d|e]]| |]; cbn [obind]; try reflexivity.
      cbn [moved]. rewrite Nat.add_0_r. reflexivity.
Qed.

Lemma read_told (a : acc R) dst (a' : acc R) dst' res : read i a dst = Ret (a', dst', res) -> aindex a' = aindex a + moved res.
Proof.
  unfold read. destruct (csub (aend a) (apos a)) as [rem| |]; cbn [obind]; try discriminate.
  destruct (length dst <? rem).
  - destruct (slice (abuf a) (apos a) (apos a + length dst)) as [s| |]; cbn [obind]; try discriminate.
    destruct (slice_read s dst) as [d' n]. intros E. injection E as <- _ <-. reflexivity.
  - destruct (length (abuf a) <? length dst).
    + destruct (slice (abuf a) (apos a) (aend a)) as [s| |]; cbn [obind]; try discriminate.
      destruct (slice_read s dst) as [d1 n]. destruct (slice d1 rem (length d1)) as [t| |]; cbn [obind]; try discriminate.
      destruct (io_read i (inner a) t) as [[r' t'] [m|e]].
      * destruct (reset_buffer_position _) as [a2| |] eqn:E2; cbn [obind]; try discriminate. intros E. injection E as <- _ <-.
        apply reset_told in E2. exact E2.
      * intros E. injection E as <- _ <-. cbn [aindex moved]. lia.
    + destruct (fill_buf i a) as [[a1 [d|e]]| |] eqn:Ef; cbn [obind]; try discriminate; apply fill_told in Ef.
      * destruct (slice_read d dst) as [d' n]. intros E. injection E as <- _ <-. cbn [consume aindex moved]. lia.
      * intros E. injection E as <- _ <-. cbn [moved]. lia.
Qed.

(** The invariant: that of [AccProofs] for the true position. *)
Definition repx (a : acc R) (m : machine) : Prop :=
  rep src good tell (retold a (m_pos m)) (m_pos m) /\ buffered a = m_buf m /\ aindex a = m_told m.

Lemma repx_new cap r : good r -> repx (with_capacity cap r) (mk_machine (tell r) 0 0).
Proof.
  intros Hg. split; [|split; reflexivity]. constructor; cbn; try lia; try assumption; reflexivity.
Qed.

Lemma retold_same a k : k = aindex a -> retold a k = a.
Proof. intros ->. destruct a. reflexivity. Qed.

Lemma repx_rep a p : rep src good tell a p -> repx a (mk_machine p (buffered a) p).
Proof.
  intros H. pose proof (rp_index _ _ _ _ _ H) as E. split; [|split; [reflexivity|exact E]].
  cbn [m_pos]. rewrite retold_same by (symmetry; exact E). exact H.
Qed.

Lemma repx_data a m : repx a m -> data a = Ret (window src m).
Proof.
  intros (H & B & _). pose proof (data_rep _ _ _ _ _ H) as E. unfold window. rewrite <- B. exact E.
Qed.

Lemma repx_window a m : repx a m -> length (window src m) = m_buf m.
Proof.
  intros (H & B & _). pose proof (data_length _ _ _ _ _ H) as E. unfold window. rewrite <- B. exact E.
Qed.

Lemma repx_avail a m : repx a m -> m_buf m <= length src - m_pos m.
Proof. intros (H & B & _). rewrite <- B. exact (rp_avail _ _ _ _ _ H). Qed.

(** Moving within the window. *)
Lemma repx_move a m n k : repx a m -> n <= m_buf m ->
  repx (mk_acc (inner a) (abuf a) (apos a + n) (aend a) k) (mk_machine (m_pos m + n) (m_buf m - n) k).
Proof.
  intros (H & B & T) Hn. pose proof (rp_pos _ _ _ _ _ H) as P. cbn [retold apos aend] in P.
  destruct (consume_rep src good tell _ _ n H) as [C D]; [change (buffered (retold a (m_pos m))) with (buffered a); lia|].
  split; [|split; [|reflexivity]].
  - cbn [m_pos]. unfold retold. cbn [inner abuf apos aend]. unfold consume, retold in C. cbn [inner abuf apos aend aindex] in C.
    unfold buffered in B. replace (Nat.min (apos a + n) (aend a)) with (apos a + n) in C by lia. exact C.
  - unfold buffered in *. cbn [apos aend m_buf]. lia.
Qed.

Lemma real_seek_any a m s t : repx a m -> target (length src) (tell (inner a)) s = t ->
  exists a' res m', seek_inner i a s = Ret (a', res) /\ repx a' m' /\ real_seek m t res m'.
Proof.
  intros (H & B & T) Ht. unfold seek_inner. destruct (io_seek i (inner a) s) as [r' res] eqn:Es.
  destruct (so_seek _ _ _ _ Hsrc _ _ _ _ (rp_good _ _ _ _ _ H) Es) as [Hg Hs]. cbn [retold inner] in Hg, Hs.
  destruct res as [sz|e].
  - destruct Hs as [Hsz Hp]. rewrite Ht in Hsz.
    assert (H0 : rep src good tell (mk_acc r' (abuf a) 0 0 sz) sz).
    { constructor; cbn [inner apos aend abuf aindex]; try lia; try assumption; try reflexivity. }
    destruct (fill_rep i src good tell Hsrc _ _ H0) as [a1 [fr [Ef [H1 _]]]]. rewrite Ef. cbn [obind].
    pose proof (repx_rep _ _ H1) as X.
    destruct fr as [d|e].
    + eexists a1, (Okay sz), _. split; [reflexivity|]. split; [exact X|]. repeat split. exact Hsz.
    + eexists a1, (Error e), _. split; [reflexivity|]. split; [exact X|]. right. split; [exact Hsz|reflexivity].
  - eexists _, (Error e), m. split; [reflexivity|]. split; [|left; reflexivity].
    split; [|split; [exact B|exact T]]. constructor; cbn [retold inner apos aend abuf aindex]; try apply H; try assumption.
    cbn [seeks] in Hs. rewrite Hs. apply H.
Qed.

Lemma tell_x a m : repx a m -> tell (inner a) = m_pos m + m_buf m.
Proof. intros (H & B & _). rewrite <- B. exact (rp_tell _ _ _ _ _ H). Qed.

Lemma seek_any_ok a m s : repx a m ->
  exists a' res m', seek i a s = Ret (a', res) /\ repx a' m' /\ seek_any (length src) m s res m'.
Proof.
  intros X. pose proof X as (H & B & T). pose proof (rp_pos _ _ _ _ _ H) as P. cbn [retold apos aend] in P. pose proof (tell_x _ _ X) as W.
  assert (B' : aend a - apos a = m_buf m) by exact B.
  unfold seek, seek_any. destruct s as [n|d|d].
  - rewrite csub_ok by lia. cbn [obind]. rewrite T. replace (m_told m + aend a - apos a) with (m_told m + m_buf m) by lia.
    destruct ((m_told m <=? n) && (n <? m_told m + m_buf m)) eqn:E.
    + eexists _, _, _. split; [reflexivity|]. split; [|split; reflexivity]. apply repx_move; [exact X|lia].
    + apply real_seek_any; [exact X|reflexivity].
  - apply real_seek_any; [exact X|reflexivity].
  - rewrite csub_ok by lia. cbn [obind]. rewrite B'. destruct (Z.ltb_spec d 0) as [Hd|Hd].
    + destruct (Z.leb_spec 0 d); [lia|]. apply real_seek_any; [exact X|]. cbn [target]. rewrite W. reflexivity.
    + destruct (Z.leb_spec 0 d); [|lia]. destruct (Nat.leb_spec (Z.to_nat d) (m_buf m)).
      * cbn [aindex]. rewrite T. eexists _, _, _. split; [reflexivity|]. split; [|split; reflexivity]. apply repx_move; [exact X|lia].
      * apply real_seek_any; [exact X|]. cbn [target]. rewrite W. lia.
Qed.

Lemma step_any a m op : repx a m ->
  exists a' o m', acc_step i a op = Ret (a', o) /\ repx a' m' /\ call_any src m op o m'.
Proof.
  intros X. pose proof X as (H & B & T). pose proof (rp_pos _ _ _ _ _ H) as P. cbn [retold apos aend] in P.
  assert (B' : aend a - apos a = m_buf m) by exact B.
  unfold call_any. destruct op as [dst|  |n|n| | | |s]; cbn [acc_step].
  - destruct (read_rep i src good tell Hsrc _ _ dst H) as (a1 & dst' & res & p' & E & H1 & Hr & _).
    rewrite read_retold in E. destruct (read i a dst) as [[[a' d'] r]| |] eqn:Er; cbn [obind] in E; try discriminate E.
    injection E as <- -> ->. cbn [obind]. pose proof (read_told _ _ _ _ _ Er) as K. rewrite T in K.
    assert (Ep : p' = m_pos m + moved res).
    { destruct res; cbn [moved]; [apply Hr|]. destruct Hr as [_ ->]. lia. }
    rewrite <- Ep in H1. eexists a', _, (mk_machine p' (buffered a') (aindex a')). split; [reflexivity|].
    assert (X' : repx a' (mk_machine p' (buffered a') (aindex a'))) by (split; [exact H1|split; reflexivity]).
    split; [exact X'|]. split; [apply (repx_avail _ _ X')|]. split; [exact Hr|]. cbn [m_pos m_told]. lia.
  - destruct (fill_rep i src good tell Hsrc _ _ H) as (a1 & res & E & H1 & _ & Hres).
    rewrite fill_retold in E. destruct (fill_buf i a) as [[a' r]| |] eqn:Er; cbn [obind] in E; try discriminate E.
    injection E as <- ->. cbn [obind]. pose proof (fill_told _ _ _ Er) as K. rewrite T in K.
    assert (X' : repx a' (mk_machine (m_pos m) (buffered a') (m_told m))) by (split; [exact H1|split; [reflexivity|exact K]]).
    eexists a', _, _. split; [reflexivity|]. split; [exact X'|]. split; [apply (repx_avail _ _ X')|]. cbn [m_pos m_told m_buf].
    split; [reflexivity|]. split; [reflexivity|]. change (buffered (retold a' (m_pos m))) with (buffered a') in Hres.
    change (buffered (retold a (m_pos m))) with (buffered a) in Hres. rewrite B in Hres. destruct res as [d|e]; [|exact Hres].
    destruct Hres as (D & L & _). split; [|exact L]. change (data (retold a' (m_pos m))) with (data a') in D.
    rewrite (repx_data _ _ X') in D. injection D as <-. reflexivity.
  - eexists (consume a n), OUnit, _. split; [reflexivity|].
    assert (Y : repx (consume a n) (mk_machine (m_pos m + Nat.min n (m_buf m)) (m_buf m - n) (m_told m + n))).
    { unfold consume. rewrite T. replace (Nat.min (apos a + n) (aend a)) with (apos a + Nat.min n (m_buf m)) by lia.
      replace (m_buf m - n) with (m_buf m - Nat.min n (m_buf m)) by lia. apply repx_move; [exact X|lia]. }
    split; [exact Y|]. split; [|reflexivity]. apply (repx_avail _ _ Y).
  - eexists (grow a n), OUnit, m. split; [reflexivity|]. split; [|split; [apply (repx_avail _ _ X)|reflexivity]].
    split; [|split; [exact B|exact T]]. exact (grow_rep src good tell _ _ n H).
  - destruct (reset_rep src good tell _ _ H) as (a1 & E & H1 & _ & _ & _ & _ & L).
    rewrite reset_retold in E. destruct (reset_buffer_position a) as [a'| |] eqn:Er; cbn [obind] in E; try discriminate E.
    injection E as <-. cbn [obind]. pose proof (reset_told _ _ Er) as K.
    eexists a', OUnit, m. split; [reflexivity|]. split; [|split; [apply (repx_avail _ _ X)|reflexivity]].
    split; [exact H1|]. split; [rewrite <- B; exact L|rewrite K; exact T].
  - rewrite (repx_data _ _ X). cbn [obind]. eexists a, _, m. split; [reflexivity|]. split; [exact X|]. split; [apply (repx_avail _ _ X)|].
    split; reflexivity.
  - unfold capacity. rewrite csub_ok by lia. cbn [obind]. eexists a, _, m. split; [reflexivity|]. split; [exact X|]. split; [apply (repx_avail _ _ X)|].
    split; [reflexivity|exact B'].
  - destruct (seek_any_ok a m s X) as (a' & res & m' & E & X' & S'). rewrite E. cbn [obind].
    eexists a', _, m'. split; [reflexivity|]. split; [exact X'|]. split; [apply (repx_avail _ _ X')|exact S'].
Qed.

Lemma run_any : forall ops a m, repx a m ->
  exists a' outs m', acc_run i a ops = Ret (a', outs) /\ repx a' m' /\ history_any src m ops outs m'.
Proof.
  induction ops as [|op ops IH]; intros a m X; cbn [acc_run].
  - exists a, [], m. split; [reflexivity|]. split; [exact X|reflexivity].
  - destruct (step_any a m op X) as (a1 & o & m1 & E1 & X1 & C1). rewrite E1. cbn [obind].
    destruct (IH a1 m1 X1) as (a2 & outs & m2 & E2 & X2 & C2). rewrite E2. cbn [obind].
    exists a2, (o :: outs), m2. split; [reflexivity|]. split; [exact X2|]. exists m1. split; assumption.
Qed.

Lemma any_history cap r ops : good r ->
  exists a outs m, acc_run i (with_capacity cap r) ops = Ret (a, outs) /\
    history_any src (mk_machine (tell r) 0 0) ops outs m /\
    data a = Ret (window src m) /\ length (window src m) = m_buf m /\ tell (inner a) = m_pos m + m_buf m /\
    seek i a (Current 0) = Ret (a, Okay (m_told m)).
Proof.
  intros Hg. destruct (run_any ops _ _ (repx_new cap r Hg)) as (a & outs & m & E & X & C).
  exists a, outs, m. split; [exact E|]. split; [exact C|]. split; [apply repx_data; exact X|]. split; [apply (repx_window a); exact X|].
  split; [apply tell_x; exact X|]. destruct X as (H & B & T). pose proof (rp_pos _ _ _ _ _ H) as P. cbn [retold apos aend] in P.
  unfold seek. rewrite csub_ok by lia. cbn [obind]. change (Z.to_nat 0) with 0. cbn [Z.leb Z.compare Nat.leb]. rewrite !Nat.add_0_r.
  destruct a; cbn in *. rewrite T. reflexivity.
Qed.
End Any.
