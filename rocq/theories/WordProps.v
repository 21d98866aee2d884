(** Properties C95 and C96: counters as machine words. *)
From Coq Require Import List Arith NArith ZArith Bool.
From Verif Require Import Base BitModel BitMain AccModel AccSpec AccExamples WordBitModel WordAccModel WordSpec WordBitProofs WordAccProofs.
Import ListNotations.
Local Open Scope N_scope.

(** C95: the bit reader with its counters as 64-bit words does what the bit reader with
    unbounded counters does, panics included, as long as the bits of the buffer and the bits
    skipped are fewer than 2^64 together. *)
Theorem C95_bit_reader_words : forall e buf ops,
  8 * N.of_nat (length buf) + total_skip ops < 2 ^ 64 ->
  w_run_from_new e buf ops = (let! (r, outs) := run_from_new e buf ops in Ret (word_reader r, outs)).
Proof. exact run_word. Qed.
Print Assumptions C95_bit_reader_words.

Example C95_example :
  8 * N.of_nat (length demo_buf) + total_skip demo_ops < 2 ^ 64 /\
  exists r outs, w_run_from_new LE demo_buf demo_ops = Ret (r, outs) /\ length outs = 13%nat /\
    w_index r = 34 /\ w_consumed r = Ret 228.
Proof. split; [reflexivity|]. eexists _, _. split; [vm_compute; reflexivity|]. repeat split; vm_compute; reflexivity. Qed.

(** C95: beyond that bound the words overflow: after skipping [usize::MAX] bits twice,
    [consumed] panics, although the number of bits consumed exists. *)
Theorem C95_bit_count_overflow_refuted : exists e buf ops r outs,
  Forall (fun op => match op with OpSkip n => N.of_nat n < 2 ^ 64 | _ => True end) ops /\
  run_from_new e buf ops = Ret (r, outs) /\ w_run_from_new e buf ops = Panic.
Proof. exact overflow_refuted. Qed.
Print Assumptions C95_bit_count_overflow_refuted.

(** C96: [AccReader] with its counters as 64-bit words does what [AccReader] with unbounded
    counters does, for every source that behaves like a file, every legal history of calls
    and every seek to a 64-bit position, as long as source and buffer are each shorter than
    2^63 bytes. *)
Theorem C96_acc_reader_words : forall (R : Type) (i : io R) src good tell r cap ops,
  source_ok i src good tell -> good r -> tell r = 0%nat -> reports_u64 i ->
  acc_legal i (with_capacity cap r) ops -> Forall call_fits ops ->
  N.of_nat (length src) < 2 ^ 63 -> N.of_nat cap + N.of_nat (grown ops) < 2 ^ 63 ->
  w_acc_run i (w_with_capacity (N.of_nat cap) r) ops =
  (let! (a, outs) := acc_run i (with_capacity cap r) ops in Ret (word_acc a, outs)).
Proof. exact acc_word. Qed.
Print Assumptions C96_acc_reader_words.

Example C96_example :
  source_ok word_cursor_io ex_src (fun c => cur_src c = ex_src) cur_pos /\ reports_u64 word_cursor_io /\
  acc_legal word_cursor_io (with_capacity 10 ex_cursor) ex_ops /\ Forall call_fits ex_ops /\
  exists a outs, w_acc_run word_cursor_io (w_with_capacity 10 ex_cursor) ex_ops = Ret (a, outs) /\
    length outs = length ex_ops /\ wa_index a = 30.
Proof.
  split; [apply word_cursor_ok|]. split; [exact word_cursor_u64|]. split; [exact word_legal|].
  split; [repeat (constructor; [first [exact I | reflexivity | split; [discriminate|reflexivity]]|]); constructor|]. eexists _, _. split; [vm_compute; reflexivity|]. split; vm_compute; reflexivity.
Qed.

(** A call that breaks the contract of [consume] at the last 64-bit position overflows. *)
Example C96_contract : w_consume (mk_wacc tt [] 0 0 (2 ^ 64 - 1)) 1 = Panic.
Proof. reflexivity. Qed.

(** C96: growing panics exactly when the buffer would reach 2^63 bytes, so a caller that
    passes on a request from elsewhere has to bound it. *)
Theorem C96_grow_limit : forall (R : Type) (a : wacc R) n, w_grow a n = Panic <-> 2 ^ 63 <= blen (wa_buf a) + n.
Proof. exact grow_limit. Qed.
Print Assumptions C96_grow_limit.

Example C96_grow_example :
  w_grow (mk_wacc tt [1; 2; 3] 0 0 0) (2 ^ 64 - 1) = Panic /\ w_grow (mk_wacc tt [1; 2; 3] 0 0 0) 2 = Ret (mk_wacc tt [1; 2; 3; 0; 0] 0 0 0).
Proof. split; reflexivity. Qed.
