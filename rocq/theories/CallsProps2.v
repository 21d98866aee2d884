(** C180: [fill_buf] and the source. *)
From Coq Require Import List Arith NArith ZArith Bool.
From Verif Require Import Base AccModel AccSpec CallsSpec CallsProofs CallsProofs2 CallsProofs3.
Import ListNotations.
Local Open Scope nat_scope.

(** The documentation of [BufRead::fill_buf] has it fill the buffer when it is empty; here three bytes are waiting, the
    source is called nevertheless, and its failure is what the caller gets. *)
Theorem C180_fill_calls_source_refuted :
  exists a outs d, acc_run cursor_io (with_capacity 4 (mk_cursor [1; 2; 3; 4; 5]%N 0 [Deliver 4; Fail (OtherError 5)])) [AFill; AConsume 1] = Ret (a, outs) /\
    data a = Ret d /\ length d = 3 /\ exists a', fill_buf cursor_io a = Ret (a', Error (OtherError 5)).
Proof.
  eexists _, _, _. split; [vm_compute; reflexivity|]. split; [vm_compute; reflexivity|]. split; [reflexivity|].
  eexists. vm_compute. reflexivity.
Qed.
Print Assumptions C180_fill_calls_source_refuted.

(** The source is left alone exactly when the whole buffer is full. *)
Theorem C180_fill_exact : forall (R : Type) (i : io R) (a a' : acc R) log res,
  apos a <= aend a <= length (abuf a) -> fill_buf i a = Ret (a', res) ->
  exists calls, fill_buf (traced i) (logged a log) = Ret (logged a' (log ++ calls), res) /\
    (aend a - apos a = length (abuf a) -> calls = []) /\
    (aend a - apos a < length (abuf a) -> exists r, calls = [CRead (length (abuf a) - (aend a - apos a)) r]).
Proof. exact fill_asks. Qed.
Print Assumptions C180_fill_exact.

(** So taking a source byte by byte with [fill_buf] and [consume] calls it for every byte, whatever the capacity. *)
Theorem C180_fill_consume : forall (R : Type) (i : io R) src good tell,
  source_ok i src good tell -> never_fails i src good tell ->
  forall cap r0 k, good r0 -> tell r0 = 0 -> 0 < cap -> k <= length src ->
  exists a log outs, acc_run (traced i) (with_capacity cap (r0, [])) (concat (repeat [AFill; AConsume 1] k)) = Ret (logged a log, outs) /\
    count_reads log = k.
Proof. exact @fill_bytes. Qed.
Print Assumptions C180_fill_consume.

Example C180_example :
  match acc_run (traced cursor_io) (with_capacity 4 (mk_cursor [1; 2; 3; 4; 5; 6]%N 0 [], [])) (concat (repeat [AFill; AConsume 1] 5)) with
  | Ret (a, _) => snd (inner a)
  | _ => []
  end = [CRead 4 (Okay 4); CRead 1 (Okay 1); CRead 1 (Okay 1); CRead 1 (Okay 0); CRead 2 (Okay 0)].
Proof. vm_compute. reflexivity. Qed.
