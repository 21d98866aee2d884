(** C177, C178: the calls of its source that [AccReader] makes. *)
From Coq Require Import List Arith NArith ZArith Bool.
From Verif Require Import Base AccModel AccSpec CallsSpec CallsProofs CallsProofs2.
Import ListNotations.
Local Open Scope nat_scope.

(** C177: watching the source changes nothing, and each call makes exactly the calls [makes] says, from any
    state whose window lies in the buffer. *)
Theorem C177_one_call : forall (R : Type) (i : io R) (a a' : acc R) log op o,
  apos a <= aend a <= length (abuf a) -> acc_step i a op = Ret (a', o) ->
  exists calls, acc_step (traced i) (logged a log) op = Ret (logged a' (log ++ calls), o) /\
    makes op (length (abuf a)) (aend a - apos a) (aindex a) calls.
Proof. intros R i a a' log op o [H1 H2]. apply step_calls. split; assumption. Qed.
Print Assumptions C177_one_call.

(** Over any history and any source, even one that reports wrong counts: at most one [read] per call, never one of
    zero bytes, and only [seek] seeks. *)
Theorem C177_calls : forall (R : Type) (i : io R) cap r0 ops a outs,
  slices_kept i -> acc_run i (with_capacity cap r0) ops = Ret (a, outs) ->
  exists calls, acc_run (traced i) (with_capacity cap (r0, [])) ops = Ret (logged a (concat calls), outs) /\
    allowed_all ops calls.
Proof.
  intros R i cap r0 ops a outs Hk H. apply (run_calls i Hk ops (with_capacity cap r0) [] a outs); [split; apply Nat.le_0_l|exact H].
Qed.
Print Assumptions C177_calls.

Theorem C177_bounds : forall ops calls, allowed_all ops calls ->
  count_reads (concat calls) <= length (filter may_read ops) /\ count_seeks (concat calls) <= length (filter may_seek ops).
Proof. exact all_counts. Qed.
Print Assumptions C177_bounds.

(** C178: with a buffer of [cap >= 2] bytes and a source that fills what it is given, reading [k] bytes one at a time calls
    the source once per [cap - 1] bytes, not once per [cap]. *)
Theorem C178_byte_by_byte : forall (R : Type) (i : io R) src good tell cap r0 x k,
  source_ok i src good tell -> fills i src good tell -> good r0 -> tell r0 = 0 -> 2 <= cap -> k < length src ->
  exists a log, acc_run (traced i) (with_capacity cap (r0, [])) (repeat (ARead [x]) k) =
    Ret (logged a log, byte_outs (firstn k src)) /\ count_reads log = over k (cap - 1).
Proof. intros R i src good tell cap r0 x k Hs Hf. apply (bytes_count i src good tell Hs Hf). Qed.
Print Assumptions C178_byte_by_byte.

(** The last byte of the source always takes a call: what is left is one byte, and a read of it asks the source first. *)
Theorem C178_whole : forall (R : Type) (i : io R) src good tell cap r0 x,
  source_ok i src good tell -> fills i src good tell -> good r0 -> tell r0 = 0 -> 2 <= cap -> src <> [] ->
  exists a log, acc_run (traced i) (with_capacity cap (r0, [])) (repeat (ARead [x]) (length src)) =
    Ret (logged a log, byte_outs src) /\ count_reads log = over (length src - 1) (cap - 1) + 1.
Proof. intros R i src good tell cap r0 x Hs Hf. apply (bytes_whole i src good tell Hs Hf). Qed.
Print Assumptions C178_whole.

(** With a buffer of one byte, or none, every byte takes a call. *)
Theorem C178_unbuffered : forall (R : Type) (i : io R) src good tell cap r0 x k,
  source_ok i src good tell -> fills i src good tell -> good r0 -> tell r0 = 0 -> cap <= 1 -> k <= length src ->
  exists a log, acc_run (traced i) (with_capacity cap (r0, [])) (repeat (ARead [x]) k) =
    Ret (logged a log, byte_outs (firstn k src)) /\ count_reads log = k.
Proof. intros R i src good tell cap r0 x k Hs Hf. apply (bytes_unbuffered i src good tell Hs Hf). Qed.
Print Assumptions C178_unbuffered.

(** A history over ten bytes with a buffer of four: the calls it makes. *)
Example C177_example :
  match acc_run (traced cursor_io) (with_capacity 4 (mk_cursor [1; 2; 3; 4; 5; 6; 7; 8; 9; 10]%N 0 [], []))
    [AFill; ARead [0; 0; 0]%N; AData; ASeek (Current 3); ARead [0; 0; 0; 0; 0; 0]%N; ASeek (Start 1); AFill] with
  | Ret (a, _) => snd (inner a)
  | _ => []
  end = [CRead 4 (Okay 4); CSeek (Current 2) (Okay 6); CRead 4 (Okay 4); CRead 2 (Okay 0); CSeek (Start 1) (Okay 1); CRead 4 (Okay 4)].
Proof. vm_compute. reflexivity. Qed.

(** Nine bytes through a buffer of four take three calls of the source, and the tenth one more. *)
Example C178_example :
  map (fun k => match acc_run (traced cursor_io) (with_capacity 4 (mk_cursor [1; 2; 3; 4; 5; 6; 7; 8; 9; 10]%N 0 [], []))
      (repeat (ARead [0%N]) k) with Ret (a, _) => count_reads (snd (inner a)) | _ => 0 end) [0; 1; 3; 4; 6; 7; 9; 10] =
  [0; 1; 1; 2; 2; 3; 3; 4].
Proof. vm_compute. reflexivity. Qed.

(** The sources of the examples are such sources. *)
Example C178_cursor : forall src,
  source_ok cursor_io src (fun c => cur_src c = src /\ cur_script c = []) cur_pos /\
  fills cursor_io src (fun c => cur_src c = src /\ cur_script c = []) cur_pos.
Proof. exact plain_cursor. Qed.
