(** Properties C112, C113 and C114: [AccReader] in a build without overflow checks. *)
From Coq Require Import List Arith NArith ZArith Bool.
From Verif Require Import Base AccModel AccSpec AccExamples WordAccModel WordSpec WordAccProofs ReleaseAccModel ReleaseAccSpec ReleaseAccProofs.
Import ListNotations.
Local Open Scope N_scope.

(** C112: whatever a history of calls delivers with overflow checks, over any source at all,
    it delivers without them. *)
Theorem C112_release_acc_agrees : forall (R : Type) (i : io R) cap r ops x, Forall call_fits ops ->
  w_acc_run i (w_with_capacity cap r) ops = Ret x -> ra_run i (w_with_capacity cap r) ops = Ret x.
Proof. intros R i. exact (acc_agree i). Qed.
Print Assumptions C112_release_acc_agrees.

Example C112_example :
  Forall call_fits ex_ops /\
  exists a outs, w_acc_run word_cursor_io (w_with_capacity 10 ex_cursor) ex_ops = Ret (a, outs) /\ length outs = length ex_ops /\ wa_index a = 30.
Proof.
  split; [repeat (constructor; [first [exact I | reflexivity | split; [discriminate|reflexivity]]|]); constructor|].
  eexists _, _. split; [vm_compute; reflexivity|]. split; vm_compute; reflexivity.
Qed.

(** C113: no sequence of calls panics, whatever is consumed and wherever one seeks, over any
    source that keeps the contract of [read]; only the buffer has to stay below 2^63 bytes. *)
Theorem C113_release_acc_never_panics : forall (R : Type) (i : io R) cap r ops, honest_io i -> reports_u64 i ->
  Forall call_fits ops -> cap + N.of_nat (grown ops) < 2 ^ 63 ->
  exists a outs, ra_run i (w_with_capacity cap r) ops = Ret (a, outs).
Proof. intros R i cap r ops Hio Hsk. exact (acc_total i Hio Hsk cap r ops). Qed.
Print Assumptions C113_release_acc_never_panics.

(** With overflow checks the same call panics. *)
Example C113_example :
  honest_io word_cursor_io /\ reports_u64 word_cursor_io /\
  w_consume (mk_wacc tt [1; 2; 3] 2 3 5) (2 ^ 64 - 1) = Panic /\
  ra_consume (mk_wacc tt [1; 2; 3] 2 3 5) (2 ^ 64 - 1) = mk_wacc tt [1; 2; 3] 1 3 4 /\
  w_seek word_cursor_io (mk_wacc ex_cursor [1; 2; 3] 0 3 (2 ^ 64 - 3)) (Current 3) = Panic /\
  ra_seek word_cursor_io (mk_wacc ex_cursor [1; 2; 3] 0 3 (2 ^ 64 - 3)) (Current 3) = Ret (mk_wacc ex_cursor [1; 2; 3] 3 3 0, Okay 0%nat).
Proof. split; [exact word_cursor_honest|]. split; [exact word_cursor_u64|]. split; [reflexivity|]. split; [reflexivity|]. split; vm_compute; reflexivity. Qed.

(** C114: growing the buffer keeps what is buffered.  Without overflow checks a huge request
    cuts the buffer instead, and the buffered bytes cannot be looked at any more. *)
Theorem C114_release_grow_refuted : exists (a : wacc unit) n a', n < 2 ^ 64 /\ ra_data a = Ret [1; 2; 3] /\
  ra_grow a n = Ret a' /\ ra_data a' = Panic.
Proof. exact grow_loses. Qed.
Print Assumptions C114_release_grow_refuted.

(** When exactly: *)
Theorem C114_release_grow_partial : forall (R : Type) (a : wacc R) n, n < 2 ^ 64 -> blen (wa_buf a) < 2 ^ 63 ->
  wa_pos a <= wa_end a -> wa_end a <= blen (wa_buf a) ->
  (ra_grow a n = Panic <-> 2 ^ 63 <= blen (wa_buf a) + n < 2 ^ 64) /\
  (blen (wa_buf a) + n < 2 ^ 63 -> exists a', ra_grow a n = Ret a' /\ ra_data a' = ra_data a) /\
  (2 ^ 64 <= blen (wa_buf a) + n -> exists a', ra_grow a n = Ret a' /\
     (wa_end a <= blen (wa_buf a) + n - 2 ^ 64 -> ra_data a' = ra_data a) /\
     (blen (wa_buf a) + n - 2 ^ 64 < wa_end a -> ra_data a' = Panic)).
Proof. exact grow_exact. Qed.
Print Assumptions C114_release_grow_partial.

Example C114_example :
  ra_grow (mk_wacc tt [1; 2; 3] 1 3 0) (2 ^ 63) = Panic /\
  ra_grow (mk_wacc tt [1; 2; 3] 1 3 0) 2 = Ret (mk_wacc tt [1; 2; 3; 0; 0] 1 3 0) /\
  ra_grow (mk_wacc tt [1; 2; 3] 0 2 0) (2 ^ 64 - 1) = Ret (mk_wacc tt [1; 2] 0 2 0).
Proof. split; [reflexivity|]. split; reflexivity. Qed.
