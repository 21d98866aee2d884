(** C198: counting equal bits. *)
From Coq Require Import List Arith NArith Bool.
From Verif Require Import Base BitModel BitSpec RunSpec RunProofs.
Import ListNotations.
Local Open Scope nat_scope.

(** C198 is false: over eight zero bytes the loop that counts zeros never ends. *)
Theorem C198_run_ends_refuted : exists e buf r, bytes buf /\ new e buf = Ret r /\ available r = Ret 64 /\ forall fuel, count_run fuel e false r = Ret None.
Proof. exact run_ends_false. Qed.
Print Assumptions C198_run_ends_refuted.

(** Nor does it over any other number of zero bytes, none included. *)
Theorem C198_zeros_endless : forall e n, exists r, new e (repeat 0%N n) = Ret r /\ forall fuel, count_run fuel e false r = Ret None.
Proof. exact zeros_endless. Qed.
Print Assumptions C198_zeros_endless.

(** What a new reader counts, for every buffer: the run at the start of the whole 8-byte blocks, which zeros follow without end. *)
Theorem C198_new_reader : forall e b buf r0, bytes buf -> new e buf = Ret r0 ->
  match run_length b (firstn (64 * (length buf / 8)) (bits_of e buf)) with
  | Some n => exists r', count_run (n + 1) e b r0 = Ret (Some (r', n))
  | None => forall fuel, count_run fuel e b r0 = Ret None
  end.
Proof. exact new_run. Qed.
Print Assumptions C198_new_reader.

(** The loop that counts ones ends, after any history of calls, with at most as many as [available] counts bits. *)
Theorem C198_ones_end_partial : forall e buf ops r outs a, bytes buf -> Forall op_ok ops -> run_from_new e buf ops = Ret (r, outs) -> available r = Ret a ->
  exists r' n, count_run (a + 1) e true r = Ret (Some (r', n)) /\ n <= a.
Proof. exact ones_end. Qed.
Print Assumptions C198_ones_end_partial.

(** The loop that counts zeros ends within as many reads or never. *)
Theorem C198_soon_or_never : forall e buf ops r outs a, bytes buf -> Forall op_ok ops -> run_from_new e buf ops = Ret (r, outs) -> available r = Ret a ->
  (exists r' n, count_run (a + 1) e false r = Ret (Some (r', n)) /\ n <= a) \/ (forall fuel, count_run fuel e false r = Ret None).
Proof. exact zeros_soon_or_never. Qed.
Print Assumptions C198_soon_or_never.

(** A run that ends 8 bytes before the end of the buffer or earlier is counted exactly, and the reader
    then stands behind the bit that ends it. *)
Theorem C198_run_exact : forall e b buf ops k, bytes buf -> 8 <= length buf -> ops_within e (bits_of e buf) (8 * length buf - 64) 0 ops ->
  run_at (bits_of e buf) (fst (spec_ops e (bits_of e buf) 0 ops)) k b -> fst (spec_ops e (bits_of e buf) 0 ops) + k + 1 <= 8 * length buf - 64 ->
  exists r outs r', run_from_new e buf ops = Ret (r, outs) /\ count_run (k + 1) e b r = Ret (Some (r', k)) /\
    consumed r' = Ret (fst (spec_ops e (bits_of e buf) 0 ops) + k + 1).
Proof. exact run_exact. Qed.
Print Assumptions C198_run_exact.

(** Checking [available] before each read does not help a new reader if the length is no multiple of 8 bytes: the loop is the same. *)
Theorem C198_guarded_same : forall e b buf r0 fuel, bytes buf -> length buf mod 8 <> 0 -> new e buf = Ret r0 -> count_guarded fuel e b r0 = count_run fuel e b r0.
Proof. exact guarded_same. Qed.
Print Assumptions C198_guarded_same.

(** With whole blocks the check makes the loop end, with the right count. *)
Theorem C198_guarded_blocks : forall e b buf r0, bytes buf -> length buf mod 8 = 0 -> new e buf = Ret r0 ->
  exists r', count_guarded (8 * length buf + 1) e b r0 = Ret (Some (r', leading b (bits_of e buf))).
Proof. exact guarded_blocks. Qed.
Print Assumptions C198_guarded_blocks.

(** Behind three bits, 7 zeros and a one are a run of 7; ten bytes of ones count as 64, for the last
    two are never fetched; ten bytes that are zero but for the last have no end. *)
Example C198_example : exists r outs r' r1 r1' r2,
  run_from_new BE ([224; 32] ++ repeat 0 14)%N [OpSkip 3] = Ret (r, outs) /\ count_run 8 BE false r = Ret (Some (r', 7)) /\ consumed r' = Ret 11 /\
  run_at (bits_of BE ([224; 32] ++ repeat 0 14)%N) 3 7 false /\
  new LE (repeat 255%N 10) = Ret r1 /\ count_run 81 LE true r1 = Ret (Some (r1', 64)) /\
  new LE (repeat 0 9 ++ [1])%N = Ret r2 /\ available r2 = Ret 80 /\ count_run 1000 LE false r2 = Ret None.
Proof.
  eexists. eexists. eexists. eexists. eexists. eexists.
  split; [vm_compute; reflexivity|]. split; [vm_compute; reflexivity|]. split; [vm_compute; reflexivity|].
  split; [split; [intros i Hi; do 7 (destruct i as [|i]; [reflexivity|]); exfalso; do 7 apply Nat.succ_lt_mono in Hi; inversion Hi|reflexivity]|].
  split; [vm_compute; reflexivity|]. split; [vm_compute; reflexivity|]. split; [vm_compute; reflexivity|]. split; [vm_compute; reflexivity|]. vm_compute. reflexivity.
Qed.

(** Sixteen zero bytes are counted as 128 zeros with the check; one byte more, and there is no end. *)
Example C198_guarded_example : exists r r' r1, new BE (repeat 0%N 16) = Ret r /\ count_guarded 129 BE false r = Ret (Some (r', 128)) /\
  new BE (repeat 0%N 17) = Ret r1 /\ count_guarded 1000 BE false r1 = Ret None.
Proof.
  eexists. eexists. eexists. split; [vm_compute; reflexivity|]. split; [vm_compute; reflexivity|]. split; [vm_compute; reflexivity|]. vm_compute. reflexivity.
Qed.
