(** What the benchmarks do, in terms of the bits of the buffer. *)
From Coq Require Import List Arith NArith Bool.
From Verif Require Import Base BitModel BitSpec BenchModel.
Import ListNotations.
Local Open Scope nat_scope.

(** Bits 64k to 64k+64 of the stream as the loop of benches/bitstream.rs reads
    them: 1, 3, 5, 7, 11 and 10 bits are looked at, each after as many skipped
    ones (except the last, which are skipped afterwards). *)
Definition block_reads (e : endian) (l : list bool) (k : nat) : list bit_out :=
  let at_ p n := OutWord (value e (window l (64 * k + p) n)) in
  [OutUnit; at_ 1 1; OutUnit; at_ 5 3; OutUnit; at_ 13 5; OutUnit; at_ 25 7;
   OutUnit; at_ 43 11; at_ 54 10; OutUnit].

(** Reads and skips that do not jump over more than 8 bytes. *)
Definition near_op (op : bit_op) : Prop :=
  match op with OpSkip n => n <= 64 | _ => op_ok op end.

(** The passes of bitstream/benches/bitread.rs and the bits each reads: twice
    0 + .. + 30 and 1; 0 + .. + 30, 1 and 32 + .. + 62; twice 0 + .. + 30 and 31. *)
Definition bench_passes : list (list bit_op * nat) := [(pass32, 931); (pass64, 1923); (pass_mixed, 961)].
