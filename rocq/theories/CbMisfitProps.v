(** Properties C163-C165: codebooks of any description, also when codewords do not fit
    their lengths. *)
From Coq Require Import List Arith NArith Bool Permutation.
From Verif Require Import Base BitModel BitSpec CodebookModel CodebookSpec CbMalformedSpec CbMisfitSpec CbMisfitProofs CbMisfitBits.
Import ListNotations.

(** C163: whatever the description, construction ends at a depth of at most 26, has no
    undefined behaviour, and returns an error, [InvalidCodebook], exactly when no entry
    is used. *)
Theorem C163_any_construction : forall (S : Type) ord m (ds : list (desc S)), permuting ord -> (forall d, In d ds -> d_bits d <= 255) ->
  new_codebook ord ds m <> UB /\
  (forall x, new_codebook ord ds m = Ret (Error x) <-> x = InvalidCodebook /\ forall d, In d ds -> ~ used d) /\
  forall depth, 26 <= depth -> new_in depth ord ds m = new_codebook ord ds m.
Proof. exact any_construction. Qed.
Print Assumptions C163_any_construction.

(** All three kinds of results: unused entries only, a word of 40 bits without and with a surplus bit in mode LSB. *)
Example C163_example :
  new_codebook (fun _ cc => cc) [mk_desc 7%N 0 10; mk_desc 8%N 0 20] MSB = Ret (Error InvalidCodebook) /\
  (exists cb, new_in 100 (fun _ cc => cc) [mk_desc 7%N 40 10; mk_desc 8%N 0 20] LSB = Ret (Okay cb)) /\
  new_codebook (fun _ cc => cc) [mk_desc 2047%N 10 10; mk_desc 8%N 40 20] LSB = Panic.
Proof. split; [reflexivity|]. split; [eexists; vm_compute; reflexivity|]. vm_compute. reflexivity. Qed.

(** C164: with a codebook that was built, from whatever description, of at most 2^24 used
    entries and 2^24 table entries, histories of calls and codeword reads do not panic
    anywhere in any buffer, a codeword read follows at most as many tables as the table
    has entries, returns the symbol of some used entry or [InvalidCode], does not move
    backwards and not past the end. *)
Theorem C164_any_reads : forall (S : Type) ord m (ds : list (desc S)) cb e buf r0 steps rounds,
  permuting ord -> new_codebook ord ds m = Ret (Okay cb) ->
  (N.of_nat (length (words m ds)) <= 2 ^ 24)%N -> (N.of_nat (length (cb_table cb)) <= 2 ^ 24)%N ->
  bytes buf -> new e buf = Ret r0 -> length (cb_table cb) < rounds -> ok_in rounds e cb r0 steps ->
  exists r outs r' s c c' a', run_in rounds e cb r0 steps = Ret (r, outs) /\
    (forall k, length (cb_table cb) < k -> read_in k e cb r = Ret (r', s)) /\
    (forall x, s = Okay x -> exists d, In d ds /\ used d /\ d_sym d = x) /\ (forall x, s = Error x -> x = InvalidCode) /\
    consumed r = Ret c /\ consumed r' = Ret c' /\ available r' = Ret a' /\ c <= c' /\ c' + a' = 8 * length buf.
Proof. exact any_reads. Qed.
Print Assumptions C164_any_reads.

(** Words of 11 bits with the values 1, 2049 and 2053. *)
Example C164_example : exists cb r0 r outs,
  chained 2 = [mk_desc 1%N 11 0%N; mk_desc 2049%N 11 1%N; mk_desc 2053%N 11 2%N] /\
  new_codebook (fun _ cc => cc) (chained 2) MSB = Ret (Okay cb) /\ N.of_nat (length (cb_table cb)) = 1030%N /\
  new BE ([0; 32; 2; 0; 8; 128]%N ++ repeat 0%N 10) = Ret r0 /\
  run_in 2000 BE cb r0 [Codeword (mk_desc 0%N 0 0%N); Codeword (mk_desc 0%N 0 0%N); Call (OpSkip 1); Codeword (mk_desc 0%N 0 0%N); Codeword (mk_desc 0%N 0 0%N)] = Ret (r, outs) /\
  outs = [Sym (Okay 0%N); Sym (Okay 1%N); Out OutUnit; Sym (Okay 2%N); Sym (Error InvalidCode)] /\ consumed r = Ret 37.
Proof.
  eexists _, _, _, _. split; [reflexivity|]. split; [vm_compute; reflexivity|]. split; [vm_compute; reflexivity|].
  split; [vm_compute; reflexivity|]. split; [vm_compute; reflexivity|]. split; vm_compute; reflexivity.
Qed.

(** C165: a codeword read moves by no more bits than the longest codeword has, when the
    codewords fit their lengths (prefix-free or not), anywhere in the buffer ... *)
Theorem C165_bits_used_partial : forall (S : Type) ord m (ds : list (desc S)) cb e buf r0 steps r outs r' s c c',
  permuting ord -> codes_fit m ds -> new_codebook ord ds m = Ret (Okay cb) ->
  (N.of_nat (length (words m ds)) <= 2 ^ 24)%N -> (N.of_nat (length (cb_table cb)) <= 2 ^ 24)%N ->
  bytes buf -> new e buf = Ret r0 -> mixed_ok e cb r0 steps -> run_mixed e cb r0 steps = Ret (r, outs) ->
  read_cb e cb r = Ret (r', s) -> consumed r = Ret c -> consumed r' = Ret c' ->
  c' <= c + list_max (map d_bits ds).
Proof. exact fitting_reads. Qed.
Print Assumptions C165_bits_used_partial.

(** The words 0, 10000000001 and 11, of which the second is read after 12 bits of buffer. *)
Example C165_example : exists cb r0 r outs r',
  new_codebook (fun _ cc => cc) [mk_desc 0%N 1 10; mk_desc 1025%N 11 20; mk_desc 3%N 2 30] MSB = Ret (Okay cb) /\
  new BE ([0; 8; 2]%N ++ repeat 0%N 13) = Ret r0 /\
  run_mixed BE cb r0 [Call (OpSkip 12)] = Ret (r, outs) /\ mixed_ok BE cb r0 [Call (OpSkip 12)] /\
  read_cb BE cb r = Ret (r', Okay 20) /\ consumed r = Ret 12 /\ consumed r' = Ret (12 + 11).
Proof.
  eexists _, _, _, _, _. split; [vm_compute; reflexivity|]. split; [vm_compute; reflexivity|]. split; [vm_compute; reflexivity|].
  split.
  { split; [exact I|]. split; [|intros; exact I]. intros n a E H. injection E as <-. vm_compute in H. injection H as <-. repeat constructor. }
  split; [vm_compute; reflexivity|]. split; vm_compute; reflexivity.
Qed.

(** ... but not when they do not: 31 words of 11 bits build a codebook with which 40 zeros
    and a one are read as one symbol, in 32 rounds, more than a codeword of 255 bits takes. *)
Theorem C165_longer_than_codewords_refuted : exists ord (ds : list (desc N)) cb buf r0 r, permuting ord /\ (forall d, In d ds -> d_bits d = 11) /\
  new_codebook ord ds MSB = Ret (Okay cb) /\ bytes buf /\ new BE buf = Ret r0 /\
  (forall rounds, 32 <= rounds -> read_in rounds BE cb r0 = Ret (r, Okay 30%N)) /\ consumed r = Ret 41 /\
  read_in 31 BE cb r0 = Panic.
Proof. exact chain_witness. Qed.
Print Assumptions C165_longer_than_codewords_refuted.

(** Whatever the description, the bits used are at most as many as the table has entries, and 8 more. *)
Theorem C165_any_description_partial : forall (S : Type) ord m (ds : list (desc S)) cb e buf r0 steps rounds r outs r' s c c',
  permuting ord -> new_codebook ord ds m = Ret (Okay cb) ->
  (N.of_nat (length (words m ds)) <= 2 ^ 24)%N -> (N.of_nat (length (cb_table cb)) <= 2 ^ 24)%N ->
  bytes buf -> new e buf = Ret r0 -> length (cb_table cb) < rounds -> ok_in rounds e cb r0 steps -> run_in rounds e cb r0 steps = Ret (r, outs) ->
  read_in rounds e cb r = Ret (r', s) -> consumed r = Ret c -> consumed r' = Ret c' ->
  c' <= c + length (cb_table cb) + 8.
Proof. exact any_bits. Qed.
Print Assumptions C165_any_description_partial.

(** Four words of 11 bits that do not fit: 10 bits, then one per table. *)
Example C165_chain_example : exists cb r0 r,
  new_codebook (fun _ cc => cc) (chained 3) MSB = Ret (Okay cb) /\ N.of_nat (length (cb_table cb)) = 1032%N /\
  new BE ([0; 4]%N ++ repeat 0%N 14) = Ret r0 /\ read_in 2000 BE cb r0 = Ret (r, Okay 3%N) /\ consumed r = Ret 14.
Proof.
  eexists _, _, _. split; [vm_compute; reflexivity|]. split; [vm_compute; reflexivity|].
  split; [vm_compute; reflexivity|]. split; vm_compute; reflexivity.
Qed.
