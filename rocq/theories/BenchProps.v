(** Properties C141-C143: the benchmarks of the repository. *)
From Coq Require Import List Arith NArith Bool.
From Verif Require Import Base BitModel BitSpec AccModel AccSpec BenchModel BenchSpec.
From Verif Require Import BenchProofs BenchProofs2 BenchProofs3 AccProofs2.
Import ListNotations.
Local Open Scope nat_scope.

(** C141: over a buffer of whole 8-byte blocks the loop of benches/bitstream.rs
    makes one pass per block, each pass reads the bits of its block, and at the
    end nothing is left. *)
Theorem C141_drain_whole_blocks : forall e buf, bytes buf -> length buf mod 8 = 0 ->
  exists r, bitread e (length buf / 8) buf
    = Ret (Some (r, map (block_reads e (bits_of e buf)) (seq 0 (length buf / 8)))) /\
    consumed r = Ret (8 * length buf) /\ available r = Ret 0.
Proof. exact drain_blocks. Qed.
Print Assumptions C141_drain_whole_blocks.

(** Over any other buffer it never ends, and never panics either. *)
Theorem C141_drain_endless : forall e buf fuel, bytes buf -> length buf mod 8 <> 0 ->
  bitread e fuel buf = Ret None.
Proof. exact drain_endless. Qed.
Print Assumptions C141_drain_endless.

(** The buffer of the benchmark: 16 times 0x55, two passes. *)
Example C141_example : exists r,
  bitread LE 2 (repeat 85%N 16) = Ret (Some (r,
    let row := [OutUnit; OutWord 0; OutUnit; OutWord 2; OutUnit; OutWord 10; OutUnit; OutWord 42;
                OutUnit; OutWord 682; OutWord 341; OutUnit] in [row; row])).
Proof. eexists. vm_compute. reflexivity. Qed.
Example C141_example_endless :
  bitread LE 100 (repeat 85%N 17) = Ret None /\ bitread LE 100 [85%N] = Ret None.
Proof. split; vm_compute; reflexivity. Qed.

(** C142: the last [length mod 4] bytes are never consumed, whatever is read and
    skipped by at most 64 bits at a time ... *)
Theorem C142_tail_never_consumed : forall e buf ops, bytes buf -> Forall near_op ops ->
  exists r outs a, run_from_new e buf ops = Ret (r, outs) /\ available r = Ret a /\ 8 * (length buf mod 4) <= a.
Proof. exact tail_left. Qed.
Print Assumptions C142_tail_never_consumed.

(** ... so a loop [while reader.available() > 0] around such calls never ends when
    the length is not a multiple of 4. *)
Theorem C142_while_available_endless : forall e buf body fuel, bytes buf -> Forall near_op body ->
  length buf mod 4 <> 0 ->
  (let! r := new e buf in while_available e body fuel r) = Ret None.
Proof. exact while_never. Qed.
Print Assumptions C142_while_available_endless.

(** Ten bytes, one bit at a time: the loop would need 80 passes; 300 do not
    suffice. With 8 bytes 64 passes do. *)
Example C142_example :
  (let! r := new BE (map N.of_nat (seq 1 10)) in while_available BE [OpGetBit] 300 r) = Ret None /\
  exists r outs, (let! r := new BE (map N.of_nat (seq 1 8)) in while_available BE [OpGetBit] 64 r)
    = Ret (Some (r, outs)) /\ length outs = 64.
Proof. split; [vm_compute; reflexivity|]. eexists _, _. split; vm_compute; reflexivity. Qed.

(** C143: the loops of bitstream/benches/bitread.rs never panic, on any buffer and
    for any number of passes ... *)
Theorem C143_bench_never_panics : forall e buf k pass bits, bytes buf -> In (pass, bits) bench_passes ->
  exists r outs, run_from_new e buf (passes k pass) = Ret (r, outs).
Proof. exact bench_never_panics. Qed.
Print Assumptions C143_bench_never_panics.

(** ... and, while the buffer has 64 bits to spare, read exactly its bits. *)
Theorem C143_bench_reads_exact : forall e buf k pass bits, bytes buf -> In (pass, bits) bench_passes ->
  k * bits + 64 <= 8 * length buf ->
  exists r, run_from_new e buf (passes k pass) = Ret (r, snd (spec_ops e (bits_of e buf) 0 (passes k pass))) /\
    consumed r = Ret (k * bits).
Proof. exact bench_reads. Qed.
Print Assumptions C143_bench_reads_exact.

(** The buffer and the passes, element by element. *)
Theorem C143_bench_programs : forall k i l, l < 31 ->
  (length (bench_buffer k) = 128 * k /\ (i < 128 * k -> nth_error (bench_buffer k) i = Some (N.of_nat (i mod 128)))) /\
  (length pass32 = 63 /\ nth_error pass32 l = Some (OpGet32 l) /\ nth_error pass32 31 = Some OpGetBit /\ nth_error pass32 (32 + l) = Some (OpGet32 l)) /\
  (length pass64 = 63 /\ nth_error pass64 l = Some (OpGet64 l) /\ nth_error pass64 31 = Some OpGetBit /\ nth_error pass64 (32 + l) = Some (OpGet64 (32 + l))) /\
  (length pass_mixed = 93 /\ nth_error pass_mixed (3 * l) = Some (OpGet64 l) /\ nth_error pass_mixed (3 * l + 1) = Some OpGetBit /\
   nth_error pass_mixed (3 * l + 2) = Some (OpGet32 l)).
Proof. exact bench_programs. Qed.
Print Assumptions C143_bench_programs.

(** The sizes of the benchmark are such. *)
Theorem C143_bench_sizes : forall pass bits, In (pass, bits) bench_passes ->
  bytes (bench_buffer 2048) /\ 1024 * bits + 64 <= 8 * length (bench_buffer 2048).
Proof. exact bench_sizes_ok. Qed.
Print Assumptions C143_bench_sizes.

Example C143_example : exists r,
  run_from_new BE (bench_buffer 8) (passes 2 pass_mixed)
  = Ret (r, snd (spec_ops BE (bits_of BE (bench_buffer 8)) 0 (passes 2 pass_mixed))) /\ consumed r = Ret 1922.
Proof. eexists. split; vm_compute; reflexivity. Qed.

(** The first 18 results of the pass that mixes calls. *)
Example C143_first_results : exists r outs,
  run_from_new BE (bench_buffer 8) (passes 2 pass_mixed) = Ret (r, outs) /\
  firstn 18 outs = ([OutWord 0; OutBit false; OutWord 0; OutWord 0; OutBit false; OutWord 0; OutWord 0; OutBit false; OutWord 0;
    OutWord 0; OutBit false; OutWord 1; OutWord 0; OutBit false; OutWord 4; OutWord 0; OutBit true; OutWord 16])%N.
Proof. eexists _, _. split; vm_compute; reflexivity. Qed.

(** The loop of benches/format.rs reads the bytes of the source one by one,
    whatever the capacity and however short the inner reads are; one read more
    and its [unwrap] panics. *)
Theorem C143_bench_accreader : forall (R : Type) (i : io R) src good tell cap k r0,
  source_ok i src good tell -> never_fails i src good tell -> good r0 -> tell r0 = 0 ->
  (k <= length src -> exists a, bench_accreader i cap k r0 = Ret (a, firstn k src)) /\
  (length src < k -> bench_accreader i cap k r0 = Panic).
Proof. exact bench_acc_exact. Qed.
Print Assumptions C143_bench_accreader.

Example C143_example_accreader : exists a,
  bench_accreader cursor_io 5 16 (mk_cursor (repeat 85%N 16) 0 []) = Ret (a, repeat 85%N 16) /\
  bench_accreader cursor_io 5 17 (mk_cursor (repeat 85%N 16) 0 []) = Panic.
Proof. eexists. split; vm_compute; reflexivity. Qed.
