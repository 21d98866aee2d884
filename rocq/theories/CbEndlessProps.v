(** Property C166: codeword reads with codebooks of any size, and whether they end. *)
From Coq Require Import List Arith NArith Bool Permutation.
From Verif Require Import Base BitModel BitSpec CodebookModel CodebookSpec CbMisfitSpec CbEndlessSpec CbEndlessProofs CbForeverProofs CbWideProofs.
Import ListNotations.

(** C166: with a codebook that was built, from whatever description and whatever the size
    of its table, no call and no round of a codeword read panics; a read that ends returns
    the symbol of some used entry or [InvalidCode], and no read moves backwards or past
    the end. *)
Theorem C166_any_size : forall (S : Type) ord m (ds : list (desc S)) cb e buf r0 steps rounds r outs,
  permuting ord -> new_codebook ord ds m = Ret (Okay cb) -> bytes buf -> new e buf = Ret r0 ->
  ok_in rounds e cb r0 steps -> run_in rounds e cb r0 steps = Ret (r, outs) ->
  (forall k, exists r' o c c' a', read_rounds k e cb r = Ret (r', o) /\
    (forall x, o = Some (Okay x) -> exists d, In d ds /\ used d /\ d_sym d = x) /\ (forall x, o = Some (Error x) -> x = InvalidCode) /\
    consumed r = Ret c /\ consumed r' = Ret c' /\ available r' = Ret a' /\ c <= c' /\ c' + a' = 8 * length buf) /\
  (forall op, op_ok op -> (forall n a, op = OpSkip n -> available r = Ret a -> n <= a) -> exists r' o, run_op e r op = Ret (r', o)).
Proof. exact any_size. Qed.
Print Assumptions C166_any_size.

(** The rounds watched are those of the reads of the other properties. *)
Theorem C166_rounds : forall (S : Type) e (cb : codebook S) k r, read_in k e cb r =
  match read_rounds k e cb r with Ret (r', Some s) => Ret (r', s) | Ret (_, None) => Panic | Panic => Panic | UB => UB end.
Proof. exact watched. Qed.
Print Assumptions C166_rounds.

(** Words of 11 bits with the values 1, 2049 and 2053: the third takes four rounds. *)
Example C166_any_size_example : exists cb r0 r1 r2 r3 r4,
  new_codebook (fun _ cc => cc) (chained 2) MSB = Ret (Okay cb) /\
  new BE ([0; 8]%N ++ repeat 0%N 14) = Ret r0 /\
  run_in 5 BE cb r0 [] = Ret (r0, []) /\
  read_rounds 1 BE cb r0 = Ret (r1, None) /\ read_rounds 2 BE cb r0 = Ret (r2, None) /\ read_rounds 3 BE cb r0 = Ret (r3, None) /\
  read_rounds 4 BE cb r0 = Ret (r4, Some (Okay 2%N)) /\
  consumed r1 = Ret 10 /\ consumed r2 = Ret 11 /\ consumed r3 = Ret 12 /\ consumed r4 = Ret 13.
Proof.
  eexists _, _, _, _, _, _. split; [vm_compute; reflexivity|]. split; [vm_compute; reflexivity|]. split; [vm_compute; reflexivity|].
  split; [vm_compute; reflexivity|]. split; [vm_compute; reflexivity|]. split; [vm_compute; reflexivity|]. split; [vm_compute; reflexivity|].
  split; [vm_compute; reflexivity|]. split; [vm_compute; reflexivity|]. split; vm_compute; reflexivity.
Qed.

(** A read that goes round the loop more than once more than there are bits to read has come to the
    last bytes of the buffer, of which there are less than eight and which the reader
    reports as available but does not load. *)
Theorem C166_ends_before_tail_partial : forall (S : Type) ord m (ds : list (desc S)) cb e buf r0 steps rounds r outs a k r',
  permuting ord -> new_codebook ord ds m = Ret (Okay cb) -> bytes buf -> new e buf = Ret r0 ->
  ok_in rounds e cb r0 steps -> run_in rounds e cb r0 steps = Ret (r, outs) ->
  available r = Ret a -> a + 1 < k -> read_rounds k e cb r = Ret (r', None) ->
  exists a', available r' = Ret a' /\ 0 < a' < 64 /\ a' mod 8 = 0.
Proof. exact ends_before_tail. Qed.
Print Assumptions C166_ends_before_tail_partial.

Example C166_ends_before_tail_example : exists ord (ds : list (desc N)) cb r0 outs,
  permuting ord /\ new_codebook ord ds LSB = Ret (Okay cb) /\
  new LE [255; 255; 255]%N = Ret r0 /\ run_in 27 LE cb r0 [Call OpPeekBit] = Ret (r0, outs) /\ ok_in 27 LE cb r0 [Call OpPeekBit] /\
  available r0 = Ret 24 /\ read_rounds 26 LE cb r0 = Ret (r0, None).
Proof. exact tail_example. Qed.

(** When the buffer is a whole number of 64-bit words and nothing but codewords is read from
    it, every read ends. *)
Theorem C166_whole_words_partial : forall (S : Type) ord m (ds : list (desc S)) cb e buf r0 steps rounds r outs a k,
  permuting ord -> new_codebook ord ds m = Ret (Okay cb) -> bytes buf -> length buf mod 8 = 0 -> new e buf = Ret r0 ->
  (forall s, In s steps -> exists d, s = Codeword d) -> run_in rounds e cb r0 steps = Ret (r, outs) ->
  available r = Ret a -> a + 1 < k -> exists r' s, read_rounds k e cb r = Ret (r', Some s).
Proof. exact whole_words. Qed.
Print Assumptions C166_whole_words_partial.

Example C166_whole_words_example : exists cb r0 r outs r',
  new_codebook (fun _ cc => cc) (chained 2) MSB = Ret (Okay cb) /\
  new BE ([0; 8]%N ++ repeat 0%N 14) = Ret r0 /\
  run_in 20 BE cb r0 [Codeword (mk_desc 0%N 0 0%N)] = Ret (r, outs) /\ available r = Ret 115 /\
  read_rounds 117 BE cb r = Ret (r', Some (Error InvalidCode)) /\ available r' = Ret 103.
Proof.
  eexists _, _, _, _, _. split; [vm_compute; reflexivity|]. split; [vm_compute; reflexivity|]. split; [vm_compute; reflexivity|].
  split; [vm_compute; reflexivity|]. split; vm_compute; reflexivity.
Qed.

(** But a read need not end.  820 words of 210 bits, all different, build a codebook with
    which, for some iteration order of the hash map, a read from any buffer of 2 to 7 bytes
    goes round forever: the table for the word of zeros begins at entry 2^24, so its
    escape leads back to the first table, and the reader does not move. *)
Theorem C166_endless_read_refuted : exists ord (ds : list (desc N)) cb,
  permuting ord /\ codes_fit LSB ds /\ prefix_free LSB ds /\
  length ds = 820 /\ new_codebook ord ds LSB = Ret (Okay cb) /\ N.of_nat (length (cb_table cb)) = (2 ^ 24 + 17408)%N /\
  forall buf, 2 <= length buf < 8 -> exists r0, new LE buf = Ret r0 /\
    forall rounds, read_rounds rounds LE cb r0 = Ret (r0, None).
Proof. exact endless_read. Qed.
Print Assumptions C166_endless_read_refuted.

(** With codewords that do not fit their lengths this happens whatever the iteration order:
    16384 words of 20 bits with values of 24 bits fill the table up to entry 2^24 in the
    order of the description. *)
Theorem C166_misfit_endless_refuted : exists ds : list (desc N),
  N.of_nat (length ds) = 16384%N /\ (forall d, In d ds -> d_bits d = 20 /\ (d_code d < 2 ^ 24)%N) /\
  forall ord, permuting ord -> exists cb, new_codebook ord ds MSB = Ret (Okay cb) /\
    N.of_nat (length (cb_table cb)) = (2 ^ 24 + 1024)%N /\
    forall e buf, 2 <= length buf < 8 -> exists r0, new e buf = Ret r0 /\
      forall rounds, read_rounds rounds e cb r0 = Ret (r0, None).
Proof. exact misfits_endless. Qed.
Print Assumptions C166_misfit_endless_refuted.

(** A read that has gone round the loop that often never ends. *)
Theorem C166_never_ends_exact : forall (S : Type) ord m (ds : list (desc S)) cb e buf r0 steps rounds r outs a k r',
  permuting ord -> new_codebook ord ds m = Ret (Okay cb) -> bytes buf -> new e buf = Ret r0 ->
  ok_in rounds e cb r0 steps -> run_in rounds e cb r0 steps = Ret (r, outs) ->
  available r = Ret a -> a + 10 * length (cb_table cb) + 1 < k -> read_rounds k e cb r = Ret (r', None) ->
  forall j, exists r'', read_rounds j e cb r = Ret (r'', None).
Proof. exact never_ends. Qed.
Print Assumptions C166_never_ends_exact.

Example C166_never_ends_example : exists ord (ds : list (desc N)) cb r0,
  permuting ord /\ new_codebook ord ds LSB = Ret (Okay cb) /\
  new LE [255; 255; 255]%N = Ret r0 /\ available r0 = Ret 24 /\
  read_rounds (24 + 10 * length (cb_table cb) + 2) LE cb r0 = Ret (r0, None).
Proof. exact never_ends_example. Qed.
