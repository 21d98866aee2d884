(** C197: reading codewords until none is found. *)
From Coq Require Import List Arith NArith Bool.
From Verif Require Import Base BitModel BitSpec CodebookModel CodebookSpec CodebookExamples CbQueueSpec CompleteSpec ReleaseCbModel ReleaseCbSpec CbLoopSpec CbLoopProofs CbLoopProofs2.
Import ListNotations.
Local Open Scope nat_scope.

(** C197 is false: with the codewords 0 and 1, and one byte that is never fetched (C13), the loop
    decodes the zeros that reads past the end yield, one symbol after the other, for ever. *)
Theorem C197_loop_ends_refuted : exists ord m (ds : list (desc nat)) cb buf r0,
  permuting ord /\ valid_description m ds /\ new_codebook ord ds m = Ret (Okay cb) /\ bytes buf /\
  new (reader_for m) buf = Ret r0 /\ available r0 = Ret 8 /\ forall fuel, read_all fuel (reader_for m) cb r0 = Ret None.
Proof. exact loop_ends_false. Qed.
Print Assumptions C197_loop_ends_refuted.

(** The loop makes the codeword reads that its result says, up to and including the first that fails. *)
Theorem C197_loop_reads : forall (S : Type) e (cb : codebook S) d fuel r,
  match read_all fuel e cb r with
  | Ret (Some (r', syms)) => exists x, run_mixed e cb r (map Codeword (repeat d (length syms + 1))) = Ret (r', map (fun s => Sym (Okay s)) syms ++ [Sym (Error x)])
  | Ret None => exists r' syms, length syms = fuel /\ run_mixed e cb r (map Codeword (repeat d fuel)) = Ret (r', map (fun s => Sym (Okay s)) syms)
  | _ => True
  end.
Proof. exact loop_reads. Qed.
Print Assumptions C197_loop_reads.

(** If no codeword consists of zeros only, the loop ends, after any history of calls, with at most
    as many symbols as [available] counts bits. *)
Theorem C197_loop_ends_partial : forall (S : Type) ord m (ds : list (desc S)) cb e buf steps r0 r outs a,
  permuting ord -> valid_description m ds -> new_codebook ord ds m = Ret (Okay cb) -> bytes buf -> Forall step_ok steps ->
  new e buf = Ret r0 -> run_mixed e cb r0 steps = Ret (r, outs) -> available r = Ret a ->
  (forall d, In d ds -> used d -> d_code d <> 0%N) ->
  exists r' syms, read_all (a + 1) e cb r = Ret (Some (r', syms)) /\ length syms <= a.
Proof. exact loop_no_zero_word. Qed.
Print Assumptions C197_loop_ends_partial.

(** So it does for a new reader, whatever the codewords, if the buffer is made of whole 8-byte blocks. *)
Theorem C197_whole_blocks_partial : forall (S : Type) ord m (ds : list (desc S)) cb e buf r0,
  permuting ord -> valid_description m ds -> new_codebook ord ds m = Ret (Okay cb) -> bytes buf -> length buf mod 8 = 0 -> new e buf = Ret r0 ->
  exists r' syms, read_all (8 * length buf + 1) e cb r0 = Ret (Some (r', syms)) /\ length syms <= 8 * length buf.
Proof. exact loop_whole_blocks. Qed.
Print Assumptions C197_whole_blocks_partial.

(** With a complete code it ends on no other buffer, except perhaps one byte longer than whole
    blocks when there are codewords of more than 8 bits. *)
Theorem C197_complete_endless : forall (S : Type) ord m (ds : list (desc S)) cb e buf r0 fuel,
  permuting ord -> valid_description m ds -> complete ds -> new_codebook ord ds m = Ret (Okay cb) -> bytes buf -> (N.of_nat (8 * length buf) < 2 ^ 32)%N ->
  Nat.min (longest_word ds) 10 <= 8 * (length buf mod 8) -> new e buf = Ret r0 -> read_all fuel e cb r0 = Ret None.
Proof. exact loop_complete. Qed.
Print Assumptions C197_complete_endless.

(** The same without overflow checks, for as many reads as any counter of bits could bear. *)
Theorem C197_release_endless : forall (S : Type) ord m (ds : list (desc S)) e buf d k,
  permuting ord -> valid_description m ds -> complete ds -> (exists d, In d ds /\ used d) -> bytes buf -> (N.of_nat (8 * length buf) < 2 ^ 32)%N ->
  Nat.min (longest_word ds) 10 <= 8 * (length buf mod 8) -> (N.of_nat k < 2 ^ 51)%N ->
  exists cb r syms, rc_new_codebook ord ds m = Ret (Okay cb) /\ length syms = k /\
    rc_mixed_from_new e cb buf (map Codeword (repeat d k)) = Ret (r, map (fun s => Sym (Okay s)) syms).
Proof. exact release_endless. Qed.
Print Assumptions C197_release_endless.

(** In general, after any history of calls: it ends within that many symbols or never. *)
Theorem C197_soon_or_never : forall (S : Type) ord m (ds : list (desc S)) cb e buf steps r0 r outs a,
  permuting ord -> valid_description m ds -> new_codebook ord ds m = Ret (Okay cb) -> bytes buf -> Forall step_ok steps ->
  new e buf = Ret r0 -> run_mixed e cb r0 steps = Ret (r, outs) -> available r = Ret a ->
  (exists r' syms, read_all (a + 1) e cb r = Ret (Some (r', syms)) /\ length syms <= a) \/ (forall fuel, read_all fuel e cb r = Ret None).
Proof. exact loop_soon_or_never. Qed.
Print Assumptions C197_soon_or_never.

(** A codeword of zeros is enough for an endless loop: over zeros. *)
Theorem C197_zeros_endless : forall (S : Type) ord m (ds : list (desc S)) cb e n d r0 fuel,
  permuting ord -> valid_description m ds -> new_codebook ord ds m = Ret (Okay cb) -> (N.of_nat (8 * n) < 2 ^ 32)%N ->
  In d ds -> used d -> d_code d = 0%N -> Nat.min (d_bits d) 10 <= 8 * (n mod 8) -> new e (repeat 0%N n) = Ret r0 -> read_all fuel e cb r0 = Ret None.
Proof. exact loop_zeros. Qed.
Print Assumptions C197_zeros_endless.

(** Words 0, 10, 11 and nine bytes of ones: 32 symbols, then [7] again and again; with eight bytes the
    loop ends.  Words 10 and 11: it ends with nine bytes as well. *)
Example C197_example : let ds := [mk_desc 0 1 7; mk_desc 2 2 8; mk_desc 3 2 9] in
  exists cb r0 r1 r2 r2' cb3 r3, new_codebook (fun _ cc => cc) ds MSB = Ret (Okay cb) /\
    new BE (repeat 255%N 9) = Ret r0 /\ read_all 1000 BE cb r0 = Ret None /\
    run_mixed BE cb r0 (repeat (Codeword (mk_desc 0 0 0)) 40) = Ret (r1, repeat (Sym (Okay 9)) 32 ++ repeat (Sym (Okay 7)) 8) /\
    new BE (repeat 255%N 8) = Ret r2 /\ read_all 33 BE cb r2 = Ret (Some (r2', repeat 9 32)) /\
    new_codebook (fun _ cc => cc) (tl ds) MSB = Ret (Okay cb3) /\ read_all 73 BE cb3 r0 = Ret (Some (r3, repeat 9 32)).
Proof.
  eexists. eexists. eexists. eexists. eexists. eexists. eexists.
  split; [vm_compute; reflexivity|]. split; [vm_compute; reflexivity|]. split; [vm_compute; reflexivity|]. split; [vm_compute; reflexivity|].
  split; [vm_compute; reflexivity|]. split; [vm_compute; reflexivity|]. split; [vm_compute; reflexivity|]. vm_compute. reflexivity.
Qed.
