(** Readers that were not at their beginning when they were wrapped. *)
From Coq Require Import List Arith NArith ZArith Bool Lia.
From Coq Require Import ZifyBool ZifyNat ZifyN.
From Verif Require Import Base AccModel AccSpec AccProofs AccProofs2 AccAnySpec AccAnyProofs AccExamples.
Import ListNotations.
Local Open Scope nat_scope.

Lemma any_history_unwrapped : forall (R : Type) (i : io R) src good tell cap r ops,
  source_ok i src good tell -> good r ->
  exists a outs m, acc_run i (with_capacity cap r) ops = Ret (a, outs) /\
    history_any src (mk_machine (tell r) 0 0) ops outs m /\
    data a = Ret (window src m) /\ length (window src m) = m_buf m /\ tell (into_inner a) = m_pos m + m_buf m /\
    seek i a (Current 0) = Ret (a, Okay (m_told m)).
Proof. intros R i src good tell cap r ops Hs. exact (any_history i src good tell Hs cap r ops). Qed.

(** 30 bytes, wrapped after 5 of them. *)
Definition late_cursor : cursor := mk_cursor ex_src 5 [].

Lemma wrapped_late_refuted : exists (src : list N) (good : cursor -> Prop) (r0 : cursor) (cap : nat) (ops : list acc_op) a outs q a',
  source_ok cursor_io src good cur_pos /\ never_fails cursor_io src good cur_pos /\ good r0 /\
  acc_run cursor_io (with_capacity cap r0) ops = Ret (a, outs) /\
  seek cursor_io a (Start q) = Ret (a', Okay q) /\ q < length src /\ ~ delivers cursor_io src a' q.
Proof.
  exists ex_src, ex_good, late_cursor, 10, [AFill]. eexists _, _, 3, _.
  split; [exact ex_ok|]. split; [exact ex_nf|]. split; [split; reflexivity|].
  split; [vm_compute; reflexivity|]. split; [vm_compute; reflexivity|]. split; [vm_compute; lia|].
  intros D. destruct (D 1) as [a' E]. vm_compute in E. discriminate E.
Qed.

Lemma seek_end_repairs : forall (R : Type) (i : io R) src good tell cap r ops a outs d q,
  source_ok i src good tell -> never_fails i src good tell -> good r ->
  acc_run i (with_capacity cap r) ops = Ret (a, outs) -> Z.of_nat q = (Z.of_nat (length src) + d)%Z ->
  exists a', seek i a (End d) = Ret (a', Okay q) /\ delivers i src a' q /\
    forall ops2, acc_legal i a' ops2 ->
      exists a2 outs2 p2, acc_run i a' ops2 = Ret (a2, outs2) /\ history_spec src q ops2 outs2 p2.
Proof.
  intros R i src good tell cap r ops a outs d q Hs Hn Hg E Hq.
  destruct (run_any i src good tell Hs ops _ _ (repx_new src good tell cap r Hg)) as (a1 & o1 & m & E1 & X & _).
  rewrite E in E1. injection E1 as <- <-.
  destruct (io_seek i (inner a) (End d)) as [r' res] eqn:Es.
  destruct (proj2 Hn _ _ _ _ (rp_good _ _ _ _ _ (proj1 X)) Es) as [q' ->]; [cbn [target]; lia|].
  destruct (so_seek _ _ _ _ Hs _ _ _ _ (rp_good _ _ _ _ _ (proj1 X)) Es) as [Hg' [Hq' Ht]]. cbn [target] in Hq'.
  assert (H : q' = q) by lia.
  assert (H0 : rep src good tell (mk_acc r' (abuf a) 0 0 q) q).
  { constructor; cbn [inner apos aend abuf aindex]; try lia; try assumption; try reflexivity. }
  destruct (fill_never_fails i src good tell Hs Hn _ _ H0) as (a2 & dd & Ef & H2).
  exists a2. split.
  { unfold seek, seek_inner. change (inner (retold a (m_pos m))) with (inner a) in *. rewrite Es. rewrite H, Ef. reflexivity. }
  split; [exact (rep_observed i src good tell Hs Hn a2 q H2)|].
  intros ops2 Hl. destruct (run_rep i src good tell Hs ops2 a2 q H2 Hl) as (a3 & outs3 & p3 & E3 & _ & C3). eauto.
Qed.
