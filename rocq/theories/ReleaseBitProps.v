(** Properties C109, C110 and C111: the bit reader in a build without overflow checks. *)
From Coq Require Import List Arith NArith ZArith Bool.
From Verif Require Import Base BitModel BitSpec BitQueueSpec BitMain WordBitModel WordSpec ReleaseBitModel ReleaseBitSpec ReleaseBitProofs.
Import ListNotations.
Local Open Scope N_scope.

(** C109: whatever a run delivers with overflow checks - any buffer, any arguments of the
    machine's type, in or out of the documented ranges - it delivers without them. *)
Theorem C109_release_bits_agree : forall e buf ops x, N.of_nat (length buf) < 2 ^ 64 -> Forall arg_fits ops ->
  w_run_from_new e buf ops = Ret x -> rb_run_from_new e buf ops = Ret x.
Proof. exact bits_agree. Qed.
Print Assumptions C109_release_bits_agree.

Example C109_example :
  Forall arg_fits [OpGet32 32; OpGet64 60; OpSkip 9; OpGet64 3; OpAvailable] /\
  exists r, w_run_from_new BE demo_buf [OpGet32 32; OpGet64 60; OpSkip 9; OpGet64 3; OpAvailable]
    = Ret (r, [OutWord 625635220; OutWord 837071613342460283; OutUnit; OutWord 1; OutCount 216]).
Proof. split; [repeat constructor|]. eexists. vm_compute. reflexivity. Qed.

(** C110: with arguments in the documented ranges the unchecked reader never panics and is
    the bit queue; only [available] differs from C78, it wraps around instead of panicking. *)
Theorem C110_release_queue_exact : forall e buf ops, bytes buf -> Forall op_ok ops ->
  8 * N.of_nat (length buf) + total_skip ops < 2 ^ 64 ->
  exists r, rb_run_from_new e buf ops = Ret (r, snd (rq_run e buf ops)) /\
    w_left r = N.of_nat (length (waiting (fst (rq_run e buf ops)))) /\
    rb_consumed r = N.of_nat (fetched (fst (rq_run e buf ops)) - length (waiting (fst (rq_run e buf ops)))) /\
    rb_available r = Z.to_N (bits_left (bits_of e buf) (fst (rq_run e buf ops)) mod 2 ^ 64).
Proof. exact release_queue. Qed.
Print Assumptions C110_release_queue_exact.

(** A skip beyond the end of 16 bytes, after which a build with checks panics. *)
Example C110_example :
  snd (rq_run LE (firstn 16 demo_buf) [OpGetBit; OpSkip 136; OpAvailable; OpConsumed]) = [OutBit true; OutUnit; OutCount 53; OutCount 75] /\
  w_run_from_new LE (firstn 16 demo_buf) [OpGetBit; OpSkip 136; OpAvailable; OpConsumed] = Panic.
Proof. split; vm_compute; reflexivity. Qed.

(** C111: a reader never reports more bits than its buffer has.  Without overflow checks it
    does, as soon as a skip has gone beyond the end. *)
Theorem C111_release_available_refuted : exists e buf ops r outs, bytes buf /\ Forall op_ok ops /\
  rb_run_from_new e buf ops = Ret (r, outs) /\ 8 * N.of_nat (length buf) < rb_available r.
Proof. exact release_available_refuted. Qed.
Print Assumptions C111_release_available_refuted.

(** What holds: consumed and available bits make up the buffer up to its end, and are 2^64
    too many beyond it. *)
Theorem C111_release_available_partial : forall e buf ops r outs, bytes buf -> Forall op_ok ops ->
  8 * N.of_nat (length buf) + total_skip ops < 2 ^ 64 ->
  rb_run_from_new e buf ops = Ret (r, outs) ->
  (rb_consumed r <= 8 * N.of_nat (length buf) -> rb_consumed r + rb_available r = 8 * N.of_nat (length buf)) /\
  (8 * N.of_nat (length buf) < rb_consumed r -> rb_consumed r + rb_available r = 8 * N.of_nat (length buf) + 2 ^ 64).
Proof. exact release_available. Qed.
Print Assumptions C111_release_available_partial.

Example C111_example : exists r outs r' outs',
  rb_run_from_new BE demo_buf [OpGet64 50] = Ret (r, outs) /\ rb_consumed r = 50 /\ rb_available r = 270 /\
  rb_run_from_new BE demo_buf [OpSkip 400] = Ret (r', outs') /\ rb_consumed r' = 336 /\ rb_available r' = 18446744073709551600.
Proof.
  eexists _, _, _, _. split; [vm_compute; reflexivity|]. split; [vm_compute; reflexivity|]. split; [vm_compute; reflexivity|].
  split; [vm_compute; reflexivity|]. split; vm_compute; reflexivity.
Qed.
