(** The proofs of the theorems of [AccProps]. *)
From Coq Require Import List Arith NArith ZArith Bool.
From Verif Require Import Base AccModel AccSpec AccProofs2 AccExamples.
Import ListNotations.
Local Open Scope nat_scope.

Lemma c23_source_bytes_in_order : forall (R : Type) (i : io R) src good tell cap r0 ops,
  source_ok i src good tell -> good r0 -> tell r0 = 0 -> acc_legal i (with_capacity cap r0) ops ->
  exists a outs p, acc_run i (with_capacity cap r0) ops = Ret (a, outs) /\ history_spec src 0 ops outs p.
Proof. intros R i src good tell cap r0 ops Hs. exact (acc_history i src good tell Hs cap r0 ops). Qed.

Lemma c24_seek_lands : forall (R : Type) (i : io R) src good tell cap r0 ops a outs,
  source_ok i src good tell -> never_fails i src good tell -> good r0 -> tell r0 = 0 ->
  acc_legal i (with_capacity cap r0) ops -> acc_run i (with_capacity cap r0) ops = Ret (a, outs) ->
  exists p, history_spec src 0 ops outs p /\
    forall s q, forward s -> Z.of_nat q = target (length src) p s ->
      exists a', seek i a s = Ret (a', Okay q) /\ delivers i src a' q.
Proof.
  intros R i src good tell cap r0 ops a outs Hs Hn Hg Ht. exact (seek_lands i src good tell Hs cap r0 ops a outs Hg Ht Hn).
Qed.

Lemma c25_position_reported : forall (R : Type) (i : io R) src good tell cap r0 ops a outs,
  source_ok i src good tell -> good r0 -> tell r0 = 0 ->
  acc_legal i (with_capacity cap r0) ops -> acc_run i (with_capacity cap r0) ops = Ret (a, outs) ->
  exists p, history_spec src 0 ops outs p /\ seek i a (Current 0) = Ret (a, Okay p) /\
    (never_fails i src good tell -> delivers i src a p).
Proof.
  intros R i src good tell cap r0 ops a outs Hs. exact (position_reported i src good tell Hs cap r0 ops a outs).
Qed.

Lemma c26_backward_seek_refuted :
  exists (src : list N) (good : cursor -> Prop) (r0 : cursor) (cap : nat) (ops : list acc_op) a outs p d a' q,
    source_ok cursor_io src good cur_pos /\ never_fails cursor_io src good cur_pos /\ good r0 /\ cur_pos r0 = 0 /\
    acc_legal cursor_io (with_capacity cap r0) ops /\ acc_run cursor_io (with_capacity cap r0) ops = Ret (a, outs) /\
    seek cursor_io a (Current 0) = Ret (a, Okay p) /\ (d < 0)%Z /\ (0 <= Z.of_nat p + d)%Z /\
    seek cursor_io a (Current d) = Ret (a', Okay q) /\ Z.of_nat q <> (Z.of_nat p + d)%Z.
Proof.
  exists ex_src, ex_good, ex_cursor, 10, ex_short. eexists _, _, _, (-2)%Z, _, _.
  split; [exact ex_ok|]. split; [exact ex_nf|]. split; [apply ex_start|]. split; [apply ex_start|]. split; [exact ex_legal_short|].
  split; [vm_compute; reflexivity|]. split; [vm_compute; reflexivity|]. split; [reflexivity|]. split; [vm_compute; discriminate|].
  split; [vm_compute; reflexivity|]. vm_compute. discriminate.
Qed.

Lemma c26_backward_seek_partial : forall (R : Type) (i : io R) src good tell cap r0 ops a outs d,
  source_ok i src good tell -> never_fails i src good tell -> good r0 -> tell r0 = 0 ->
  acc_legal i (with_capacity cap r0) ops -> acc_run i (with_capacity cap r0) ops = Ret (a, outs) -> (d < 0)%Z ->
  capacity a = Ret 0 ->
  exists p, history_spec src 0 ops outs p /\
    forall q, Z.of_nat q = (Z.of_nat p + d)%Z -> exists a', seek i a (Current d) = Ret (a', Okay q) /\ delivers i src a' q.
Proof.
  intros R i src good tell cap r0 ops a outs d Hs Hn Hg Ht.
  exact (backward_seek_unbuffered i src good tell Hs cap r0 ops a outs d Hg Ht Hn).
Qed.

Lemma c26_backward_seek_offset_partial : forall (R : Type) (i : io R) src good tell cap r0 ops a outs d,
  source_ok i src good tell -> never_fails i src good tell -> good r0 -> tell r0 = 0 ->
  acc_legal i (with_capacity cap r0) ops -> acc_run i (with_capacity cap r0) ops = Ret (a, outs) -> (d < 0)%Z ->
  exists p c, history_spec src 0 ops outs p /\ capacity a = Ret c /\
    forall q, Z.of_nat q = (Z.of_nat p + Z.of_nat c + d)%Z -> exists a', seek i a (Current d) = Ret (a', Okay q) /\ delivers i src a' q.
Proof.
  intros R i src good tell cap r0 ops a outs d Hs Hn Hg Ht.
  exact (backward_seek i src good tell Hs cap r0 ops a outs d Hg Ht Hn).
Qed.

Lemma c27_grow_reset_transparent : forall (R : Type) (i : io R) src good tell cap r0 ops a outs,
  source_ok i src good tell -> good r0 -> tell r0 = 0 ->
  acc_legal i (with_capacity cap r0) ops -> acc_run i (with_capacity cap r0) ops = Ret (a, outs) ->
  exists p d, history_spec src 0 ops outs p /\ data a = Ret d /\ seek i a (Current 0) = Ret (a, Okay p) /\
    (forall n, data (grow a n) = Ret d /\ seek i (grow a n) (Current 0) = Ret (grow a n, Okay p) /\
       (0 < n -> forall a' d', fill_buf i (grow a n) = Ret (a', Okay d') ->
          exists more, d' = d ++ more /\ (p + length d < length src -> more <> []))) /\
    (exists a', reset_buffer_position a = Ret a' /\ data a' = Ret d /\ seek i a' (Current 0) = Ret (a', Okay p)).
Proof.
  intros R i src good tell cap r0 ops a outs Hs. exact (grow_reset_transparent i src good tell Hs cap r0 ops a outs).
Qed.

Lemma c28_read_exact : forall (R : Type) (i : io R) src good tell cap r0 ops a outs n,
  source_ok i src good tell -> never_fails i src good tell -> good r0 -> tell r0 = 0 ->
  acc_legal i (with_capacity cap r0) ops -> acc_run i (with_capacity cap r0) ops = Ret (a, outs) ->
  exists p, history_spec src 0 ops outs p /\
    (n <= length src - p -> exists a', read_exact i n a n = Ret (a', Some (Okay (firstn n (skipn p src)))) /\
       seek i a' (Current 0) = Ret (a', Okay (p + n))) /\
    (length src - p < n -> exists a', read_exact i n a n = Ret (a', Some (Error UnexpectedEof))).
Proof.
  intros R i src good tell cap r0 ops a outs n Hs Hn Hg Ht.
  exact (read_exact_whole i src good tell Hs cap r0 ops a outs n Hg Ht Hn).
Qed.

Lemma c29_window_bounds : forall (R : Type) (i : io R) src good tell cap r0 ops,
  source_ok i src good tell -> good r0 -> tell r0 = 0 -> acc_legal i (with_capacity cap r0) ops ->
  exists a outs, acc_run i (with_capacity cap r0) ops = Ret (a, outs) /\
    apos a <= aend a <= length (abuf a) /\ length (abuf a) = cap + grown ops.
Proof. intros R i src good tell cap r0 ops Hs. exact (window_bounds i src good tell Hs cap r0 ops). Qed.

Lemma c30_failures_lose_nothing : forall (R : Type) (i : io R) src good tell cap r0 ops a outs,
  source_ok i src good tell -> good r0 -> tell r0 = 0 ->
  acc_legal i (with_capacity cap r0) ops -> acc_run i (with_capacity cap r0) ops = Ret (a, outs) ->
  exists p d, history_spec src 0 ops outs p /\ data a = Ret d /\
    (forall a' e, fill_buf i a = Ret (a', Error e) \/
                  (exists dst dst', read i a dst = Ret (a', dst', Error e)) \/
                  (exists s, seek i a s = Ret (a', Error e) /\ forall s', exists r' e', io_seek i (inner a) s' = (r', Error e')) ->
       data a' = Ret d /\ seek i a' (Current 0) = Ret (a', Okay p) /\
       (forall ops2, acc_legal i a' ops2 ->
          exists a2 outs2 p2, acc_run i a' ops2 = Ret (a2, outs2) /\ history_spec src p ops2 outs2 p2)).
Proof.
  intros R i src good tell cap r0 ops a outs Hs. exact (failure_safe i src good tell Hs cap r0 ops a outs).
Qed.
