(** Properties C78, C79 and the exact forms of C13 and C14: the bit reader at
    every position and after every skip. *)
From Coq Require Import List Arith NArith Bool.
From Verif Require Import Base BitModel BitSpec BitQueueSpec BitMain BitQueueProofs BitQueueProofs2 BitQueueMain.
Import ListNotations.
Local Open Scope nat_scope.

(** C78: for every buffer and every sequence of calls with arguments in the
    documented ranges - reading past the end and skipping anywhere included -
    the reader does exactly what the bit queue does; it panics exactly when the
    queue says so. *)
Theorem C78_bit_queue_exact : forall e buf ops, bytes buf -> Forall op_ok ops ->
  match q_run e buf ops with
  | Some (q, outs) => exists r, run_from_new e buf ops = Ret (r, outs) /\
      left r = length (waiting q) /\ consumed r = Ret (fetched q - length (waiting q))
  | None => run_from_new e buf ops = Panic
  end.
Proof. exact bit_queue_exact. Qed.
Print Assumptions C78_bit_queue_exact.

(** Past the end of 9 bytes, and a skip that goes too far. *)
Example C78_example :
  Forall op_ok [OpGet32 32; OpGet32 20; OpGet32 32; OpSkip 9; OpAvailable] /\
  q_run BE (firstn 9 demo_buf) [OpGet32 32; OpGet32 20; OpGet32 32; OpSkip 9; OpAvailable]
  = Some (mk_queue [] 64, [OutWord 625635220; OutWord 761312; OutWord 847249408; OutUnit; OutCount 8]).
Proof. split; [repeat constructor|vm_compute; reflexivity]. Qed.

Example C78_example_panic :
  q_run LE (firstn 9 demo_buf) [OpSkip 200; OpAvailable] = None.
Proof. vm_compute. reflexivity. Qed.

(** C79: with reads of the 64-bit path only, the reader reads exactly the whole
    8-byte blocks of the buffer, whatever its length: zeros afterwards, and the
    position stops at the end of the last whole block. *)
Theorem C79_whole_blocks_exact : forall e buf ops, bytes buf -> Forall read64 ops ->
  exists r, run_from_new e buf ops
    = Ret (r, snd (clamp_ops e (bits_of e (firstn (8 * (length buf / 8)) buf)) 0 ops)) /\
    consumed r = Ret (fst (clamp_ops e (bits_of e (firstn (8 * (length buf / 8)) buf)) 0 ops)).
Proof. exact blocks_exact. Qed.
Print Assumptions C79_whole_blocks_exact.

(** Of 15 bytes all ones only 64 bits can be read this way. *)
Example C79_example :
  Forall read64 [OpGet64 60; OpGet64 10; OpGetBit; OpConsumed] /\
  snd (clamp_ops LE (bits_of LE (firstn (8 * (15 / 8)) (repeat 255%N 15))) 0 [OpGet64 60; OpGet64 10; OpGetBit; OpConsumed])
  = [OutWord 1152921504606846975; OutWord 15; OutBit false; OutCount 64].
Proof. split; [repeat constructor|vm_compute; reflexivity]. Qed.

(** C13, exact: which reads deliver genuine bits, and what the others deliver.
    The history may contain anything, provided its skips arrived where they
    should. *)
Theorem C13_readable_exact : forall e buf ops r0 r outs c n, bytes buf -> new e buf = Ret r0 ->
  skips_arrive e r0 ops -> run_ops e r0 ops = Ret (r, outs) -> consumed r = Ret c ->
  (n <= 64 -> exists r', get_bits_64 e r n = Ret (r', value e (read_from (bits_of e buf) c (left r) n))) /\
  (n <= 32 -> exists r', get_bits_32 e r n = Ret (r', value e (read_from (bits_of e buf) c (left r) n))) /\
  (exists r' b, get_bit e r = Ret (r', b) /\ [b] = read_from (bits_of e buf) c (left r) 1).
Proof. exact readable_exact. Qed.
Print Assumptions C13_readable_exact.

Example C13_readable_example :
  exists r0 r outs, new BE (firstn 16 demo_buf) = Ret r0 /\
    skips_arrive BE r0 [OpGet32 32; OpSkip 40; OpGet32 10] /\
    run_ops BE r0 [OpGet32 32; OpSkip 40; OpGet32 10] = Ret (r, outs) /\
    consumed r = Ret 82 /\ readable 128 82 (left r) 46 = true /\ readable 128 82 (left r) 47 = false.
Proof. exact c13_readable_example. Qed.

(** C14, exact: where a skip arrives and what is available then, after any
    history whatsoever. *)
Theorem C14_skip_exact : forall e buf ops n r outs c, bytes buf -> Forall op_ok ops ->
  run_from_new e buf ops = Ret (r, outs) -> consumed r = Ret c ->
  exists r', skip_bits e r n = Ret r' /\
    consumed r' = Ret (skip_target (8 * length buf) c (left r) n) /\
    available r' =
      if c + left r + (if n <=? left r then 0 else skip_far (n - left r)) <=? 8 * length buf
      then Ret (8 * length buf - skip_target (8 * length buf) c (left r) n) else Panic.
Proof. exact skip_exact. Qed.
Print Assumptions C14_skip_exact.

(** Skips of 80 and of 128 bits from the start of 16 bytes arrive; one of 129
    bits arrives at bit 66 and leaves 62 stale bits. *)
Example C14_skip_example :
  exists r outs, run_from_new LE (firstn 16 demo_buf) [] = Ret (r, outs) /\ consumed r = Ret 0 /\ left r = 64 /\
    skip_target 128 0 64 80 = 80 /\ skip_target 128 0 64 128 = 128 /\ skip_target 128 0 64 129 = 66.
Proof. eexists _, _. split; [vm_compute; reflexivity|]. repeat split; vm_compute; reflexivity. Qed.
