(** Property C148: overflow checks, for any width of [usize]. *)
From Coq Require Import List Arith NArith ZArith Bool.
From Verif Require Import Base AccModel AccSpec AccExamples BitModel WordBitModel CodebookModel CodebookSpec ReleaseCbSpec AudioModel PixelModel FormatModel FrameModel
  DemuxModel DemuxSpec MuxModel StreamModel WordAccModel WordCountModel MachineModel MachineAccModel MachineAccSpec MachineBitModel MachineBitSpec MachineCountModel
  MachineFrameModel MachineDemuxModel WordDemuxModel WordDemuxSpec MachineDemuxSpec MachineLooseProofs.
Import ListNotations.
Local Open Scope N_scope.

(** C148: what a build with overflow checks returns, one without returns as well: over any
    source and sink at all, from any state, for any width.  [AccReader]: *)
Theorem C148_unchecked_acc : forall b (R : Type) (i : io R) ops (a : wacc R) x,
  m_acc_run (mk_machine b true) i a ops = Ret x -> m_acc_run (mk_machine b false) i a ops = Ret x.
Proof. intros b R i ops a. exact (run_loose b i ops a). Qed.
Print Assumptions C148_unchecked_acc.

(** the demuxing [Context]: *)
Theorem C148_unchecked_context : forall b (S P D : Type) (i : io S) (ps : parser P D) rounds calls (c : dctx P D (wacc S)) x,
  machine_session (mk_machine b true) i ps rounds calls c = Ret x -> machine_session (mk_machine b false) i ps rounds calls c = Ret x.
Proof. intros b S P D i ps rounds calls c. exact (session_loose b i ps rounds calls c). Qed.
Print Assumptions C148_unchecked_context.

(** [Writer] and [get_buffer]: *)
Theorem C148_unchecked_writer : forall b (W : Type) (s : sink W) ops (w : wwriter W) x,
  mw_run (mk_machine b true) s w ops = Ret x -> mw_run (mk_machine b false) s w ops = Ret x.
Proof. intros b W s ops w. exact (wrun_loose b s ops w). Qed.
Print Assumptions C148_unchecked_writer.

Theorem C148_unchecked_get_buffer : forall b (R : Type) (rd : reader R) fuel r buf n x,
  mget_buffer (mk_machine b true) rd fuel r buf n = Ret x -> mget_buffer (mk_machine b false) rd fuel r buf n = Ret x.
Proof. intros b R rd fuel r buf n. exact (get_buffer_loose b rd fuel r buf n). Qed.
Print Assumptions C148_unchecked_get_buffer.

(** the bit reader with codeword reads: *)
Theorem C148_unchecked_bits : forall b (S : Type) e (cb : codebook S) buf steps x,
  mb_mixed_from_new (mk_machine b true) e cb buf steps = Ret x -> mb_mixed_from_new (mk_machine b false) e cb buf steps = Ret x.
Proof. intros b S e cb buf steps. exact (bits_loose b e cb buf steps). Qed.
Print Assumptions C148_unchecked_bits.

(** frames and copies: *)
Theorem C148_unchecked_frames : forall b,
  (forall k t x, m_new_default_frame (mk_machine b true) k t = Ret x -> m_new_default_frame (mk_machine b false) k t = Ret x) /\
  (forall f dst dl x, m_copy_frame_to_buffer (mk_machine b true) f dst dl = Ret x -> m_copy_frame_to_buffer (mk_machine b false) f dst dl = Ret x) /\
  (forall f src sl x, m_copy_from_slice (mk_machine b true) f src sl = Ret x -> m_copy_from_slice (mk_machine b false) f src sl = Ret x).
Proof. intros b. exact (conj (frame_loose b) (conj (to_buffer_loose b) (from_slice_loose b))). Qed.
Print Assumptions C148_unchecked_frames.

(** With four bits: a history that stays below position 16 has the same result on both, one
    that goes on has one on the machine without checks only. *)
Example C148_example :
  let start := w_with_capacity 7 (mk_cursor ex_src 0 []) in
  let ops := [ARead (ex_slice 7); ARead (ex_slice 6); AFill; AConsume 1] in
  (exists x, m_acc_run (mk_machine 4 true) cursor_io start ops = Ret x /\ m_acc_run (mk_machine 4 false) cursor_io start ops = Ret x) /\
  m_acc_run (mk_machine 4 true) cursor_io start (ops ++ [ARead (ex_slice 7)]) = Panic /\
  exists x, m_acc_run (mk_machine 4 false) cursor_io start (ops ++ [ARead (ex_slice 7)]) = Ret x.
Proof.
  cbv zeta. split; [eexists; split; vm_compute; reflexivity|]. split; [vm_compute; reflexivity|]. eexists; vm_compute; reflexivity.
Qed.
