(** The benchmarks of the repository as programs over the models of the code they
    run: benches/bitstream.rs, benches/format.rs and bitstream/benches/bitread.rs.
    Criterion itself (the registration of the benchmarks, the timing, [black_box])
    is left out; [b.iter] runs the program, once here. *)
From Coq Require Import List Arith NArith Bool.
From Verif Require Import Base BitModel AccModel.
Import ListNotations.
Local Open Scope nat_scope.

(** benches/bitstream.rs:11-23, the body of the loop *)
Definition loop_body : list bit_op :=
  [OpSkip 1; OpGet32 1; OpSkip 3; OpGet32 3; OpSkip 5; OpGet32 5; OpSkip 7; OpGet32 7;
   OpSkip 11; OpGet32 11; OpPeek32 10; OpSkip 10].

(** [while reader.available() > 0 { body }]: benches/bitstream.rs:10-24.  At most
    [fuel] passes are made; [None] means that the loop is still running after
    them.  The outputs of the passes are kept. *)
Fixpoint while_available (e : endian) (body : list bit_op) (fuel : nat) (r : reader)
    : outcome (option (reader * list (list bit_out))) :=
  let! a := available r in
  if 0 <? a then
    match fuel with
    | O => Ret None
    | S fuel' =>
        let! (r1, out) := run_ops e r body in
        let! rest := while_available e body fuel' r1 in
        match rest with
        | None => Ret None
        | Some (r2, outs) => Ret (Some (r2, out :: outs))
        end
    end
  else Ret (Some (r, [])).

(** benches/bitstream.rs:6-25; the benchmark has the little-endian reader *)
Definition bitread (e : endian) (fuel : nat) (buf : list N)
    : outcome (option (reader * list (list bit_out))) :=
  let! r := new e buf in while_available e loop_body fuel r.

(** bitstream/benches/bitread.rs:7: [(0..2048).flat_map(|_| 0..128)], with the
    number of repetitions as an argument *)
Definition bench_buffer (k : nat) : list N := concat (repeat (map N.of_nat (seq 0 128)) k).

(** One pass of the three loops, bitstream/benches/bitread.rs:20-26, 36-42 and
    52-56 *)
Definition pass32 : list bit_op :=
  map OpGet32 (seq 0 31) ++ [OpGetBit] ++ map OpGet32 (seq 0 31).
Definition pass64 : list bit_op :=
  map OpGet64 (seq 0 31) ++ [OpGetBit] ++ map OpGet64 (seq 32 31).
Definition pass_mixed : list bit_op :=
  flat_map (fun l => [OpGet64 l; OpGetBit; OpGet32 l]) (seq 0 31).

(** [for _ in 0..k { pass }]: bitstream/benches/bitread.rs:15-60 with [k = 1024] *)
Definition passes (k : nat) (pass : list bit_op) : list bit_op := concat (repeat pass k).

(** [for _ in 0..k { reader.read_exact(&mut read_buffer).unwrap() }] with a buffer
    of one byte: benches/format.rs:14-16.  The inner reader of the benchmark never
    answers [Interrupted], so [read_exact] makes one call at most; a failed
    [unwrap] panics.  The bytes read are kept. *)
Fixpoint read_each {R : Type} (i : io R) (k : nat) (a : acc R) : outcome (acc R * list N) :=
  match k with
  | O => Ret (a, [])
  | S k' =>
      let! (a1, res) := read_exact i 1 a 1 in
      match res with
      | Some (Okay l) => let! (a2, rest) := read_each i k' a1 in Ret (a2, l ++ rest)
      | _ => Panic
      end
  end.

(** benches/format.rs:9-17, with the capacity 5 and the number of reads as
    arguments *)
Definition bench_accreader {R : Type} (i : io R) (cap k : nat) (r : R) : outcome (acc R * list N) :=
  read_each i k (with_capacity cap r).
