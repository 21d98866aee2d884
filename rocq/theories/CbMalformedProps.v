(** Properties C152-C155: codebooks of descriptions that are not prefix-free. *)
From Coq Require Import List Arith NArith Bool Permutation.
From Verif Require Import Base BitModel BitSpec CodebookModel CodebookSpec CbMalformedSpec CbMalformedProofs3.
Import ListNotations.

(** C152: construction succeeds for every description whose codewords fit their lengths and
    that has a used entry, prefix-free or not and however large the tables become, and the
    table has at most 1024 entries for every 10 bits of a codeword. *)
Theorem C152_malformed_construction : forall (S : Type) ord m (ds : list (desc S)), permuting ord -> codes_fit m ds ->
  (N.of_nat (length (words m ds)) < 2 ^ 32)%N -> (exists d, In d ds /\ used d) ->
  exists cb, new_codebook ord ds m = Ret (Okay cb) /\
    length (cb_table cb) <= 1024 * (1 + extra_tables (words m ds)).
Proof. exact malformed_construction. Qed.
Print Assumptions C152_malformed_construction.

(** The words 1, 10000000001 (twice) and 00: the long one gets no table of its own. *)
Example C152_example : exists cb,
  codes_fit MSB [mk_desc 1%N 1 10; mk_desc 1025%N 11 20; mk_desc 1025%N 11 21; mk_desc 0%N 2 30] /\
  extra_tables (words MSB [mk_desc 1%N 1 10; mk_desc 1025%N 11 20; mk_desc 1025%N 11 21; mk_desc 0%N 2 30]) = 2 /\
  new_codebook (fun _ cc => cc) [mk_desc 1%N 1 10; mk_desc 1025%N 11 20; mk_desc 1025%N 11 21; mk_desc 0%N 2 30] MSB = Ret (Okay cb) /\
  N.of_nat (length (cb_table cb)) = 1024%N.
Proof.
  eexists. split; [apply fit_small; reflexivity|]. split; [reflexivity|]. split; vm_compute; reflexivity.
Qed.

(** C153: with a codebook built from such a description, of at most 2^24 used entries and 2^24
    table entries, histories of calls and codeword reads do not panic anywhere in any
    buffer, and a codeword read returns the symbol of some used entry or [InvalidCode],
    does not move backwards and not past the end. *)
Theorem C153_malformed_reads : forall (S : Type) ord m (ds : list (desc S)) cb e buf r0 steps,
  permuting ord -> codes_fit m ds -> new_codebook ord ds m = Ret (Okay cb) ->
  (N.of_nat (length (words m ds)) <= 2 ^ 24)%N -> (N.of_nat (length (cb_table cb)) <= 2 ^ 24)%N ->
  bytes buf -> new e buf = Ret r0 -> mixed_ok e cb r0 steps ->
  exists r outs r' s c c' a', run_mixed e cb r0 steps = Ret (r, outs) /\ read_cb e cb r = Ret (r', s) /\
    (forall x, s = Okay x -> exists d, In d ds /\ used d /\ d_sym d = x) /\ (forall x, s = Error x -> x = InvalidCode) /\
    consumed r = Ret c /\ consumed r' = Ret c' /\ available r' = Ret a' /\ c <= c' /\ c' + a' = 8 * length buf.
Proof. exact malformed_never_panics. Qed.
Print Assumptions C153_malformed_reads.

(** Codeword reads with the words 1, 10000000001 and 00. *)
Example C153_example : exists cb r0 r outs,
  new_codebook (fun _ cc => cc) [mk_desc 1%N 1 10; mk_desc 1025%N 11 20; mk_desc 0%N 2 30] MSB = Ret (Okay cb) /\
  new BE ([0; 64; 0; 16]%N ++ repeat 0%N 12) = Ret r0 /\
  run_mixed BE cb r0 [Codeword (mk_desc 0%N 0 0); Call (OpSkip 8); Codeword (mk_desc 0%N 0 0); Codeword (mk_desc 0%N 0 0)] = Ret (r, outs) /\
  outs = [Sym (Okay 20); Out OutUnit; Sym (Okay 10); Sym (Okay 30)] /\ consumed r = Ret 12.
Proof.
  eexists _, _, _, _. split; [vm_compute; reflexivity|]. split; [vm_compute; reflexivity|].
  split; [vm_compute; reflexivity|]. split; vm_compute; reflexivity.
Qed.

(** C154: when several codewords match, the entry that comes last in the description
    wins.  For codewords of at most 10 bits this holds in every state of the reader, whatever
    its bit order ... *)
Theorem C154_last_match_wins_partial : forall (S : Type) ord m (ds : list (desc S)) cb e buf r0 steps r outs,
  permuting ord -> codes_fit m ds -> (forall d, In d ds -> d_bits d <= 10) ->
  (N.of_nat (length (words m ds)) <= 2 ^ 24)%N -> new_codebook ord ds m = Ret (Okay cb) ->
  bytes buf -> new e buf = Ret r0 -> run_mixed e cb r0 steps = Ret (r, outs) ->
  read_cb e cb r = read_last m ds (list_max (map d_bits ds)) e r.
Proof. exact short_last. Qed.
Print Assumptions C154_last_match_wins_partial.

(** ... so any number of reads follow the bits of the stream. *)
Theorem C154_last_match_stream_partial : forall (S : Type) ord m (ds : list (desc S)) cb buf (steps : list (step S)),
  permuting ord -> codes_fit m ds -> (forall d, In d ds -> d_bits d <= 10) ->
  (N.of_nat (length (words m ds)) <= 2 ^ 24)%N -> new_codebook ord ds m = Ret (Okay cb) ->
  bytes buf -> (forall s, In s steps -> exists d, s = Codeword d) ->
  10 * length steps + 64 <= 8 * length buf -> (N.of_nat (8 * length buf) < 2 ^ 32)%N ->
  exists r0 r, new (reader_for m) buf = Ret r0 /\
    run_mixed (reader_for m) cb r0 steps = Ret (r, fst (last_wins m ds (bits_of (reader_for m) buf) (length steps) 0)) /\
    consumed r = Ret (snd (last_wins m ds (bits_of (reader_for m) buf) (length steps) 0)).
Proof. exact short_stream. Qed.
Print Assumptions C154_last_match_stream_partial.

(** The words 10 and 1: the first is never read when it comes first, and is read when it comes last. *)
Example C154_example :
  last_wins MSB [mk_desc 2%N 2 10; mk_desc 1%N 1 20; mk_desc 0%N 0 5] (bits_of BE [160; 0; 0]%N) 3 0 =
    ([Sym (Okay 20); Sym (Error InvalidCode); Sym (Error InvalidCode)], 1) /\
  last_wins MSB [mk_desc 1%N 1 20; mk_desc 2%N 2 10] (bits_of BE [160; 0; 0]%N) 3 0 =
    ([Sym (Okay 10); Sym (Okay 10); Sym (Error InvalidCode)], 4).
Proof. split; reflexivity. Qed.

(** With longer codewords an entry can lose its codeword although no other one matches: the
    bits begin with the word 00 and no other, but with 1 and 10000000001 in the same
    description another symbol comes, after one bit. *)
Theorem C154_unrelated_word_refuted : exists ord m (ds : list (desc nat)) cb buf r0 r s d,
  permuting ord /\ codes_fit m ds /\ small_enough m ds /\ new_codebook ord ds m = Ret (Okay cb) /\ bytes buf /\
  new (reader_for m) buf = Ret r0 /\ In d ds /\ used d /\
  (forall d', In d' ds -> used d' -> is_prefix (word m d') (bits_of (reader_for m) buf) -> d' = d) /\
  is_prefix (word m d) (bits_of (reader_for m) buf) /\
  read_cb (reader_for m) cb r0 = Ret (r, Okay s) /\ s <> d_sym d /\ consumed r = Ret 1 /\ d_bits d = 2.
Proof. exact unrelated_witness. Qed.
Print Assumptions C154_unrelated_word_refuted.

(** And what is read depends on the iteration order of a hash map, which differs from run to run. *)
Theorem C154_order_refuted : exists ord1 ord2 m (ds : list (desc nat)) cb1 cb2 buf r0 r1 r2,
  permuting ord1 /\ permuting ord2 /\ codes_fit m ds /\ small_enough m ds /\
  new_codebook ord1 ds m = Ret (Okay cb1) /\ new_codebook ord2 ds m = Ret (Okay cb2) /\
  bytes buf /\ new (reader_for m) buf = Ret r0 /\
  read_cb (reader_for m) cb1 r0 = Ret (r1, Okay 30) /\ read_cb (reader_for m) cb2 r0 = Ret (r2, Okay 20).
Proof. exact order_witness. Qed.
Print Assumptions C154_order_refuted.

(** C155: for codewords of at most 10 bits construction panics exactly when one of them
    does not fit: in LSB mode its length, in MSB mode the table after the shift. *)
Theorem C155_misfits_panic : forall (S : Type) ord m (ds : list (desc S)), permuting ord ->
  (forall d, In d ds -> d_bits d <= 10 /\ (d_code d < 2 ^ 32)%N) -> (N.of_nat (length (words m ds)) < 2 ^ 32)%N ->
  (new_codebook ord ds m = Panic <->
    exists d, In d ds /\ used d /\ fits_table m (d_code d) (d_bits d) (list_max (map d_bits ds)) = false) /\
  new_codebook ord ds m <> UB.
Proof. exact short_panics. Qed.
Print Assumptions C155_misfits_panic.

Example C155_example :
  new_codebook (fun _ cc => cc) [mk_desc 0%N 1 10; mk_desc 2%N 1 20] MSB = Panic /\
  new_codebook (fun _ cc => cc) [mk_desc 0%N 1 10; mk_desc 2%N 1 20] LSB = Panic /\
  fits_table MSB 2 1 1 = false /\ fits_table LSB 2 1 1 = false /\ fits_table LSB 1 1 1 = true.
Proof. repeat split; reflexivity. Qed.

(** A codeword that does not fit its length can be accepted: 2^31 in one bit, which stands
    for the codeword 0 when a word of two bits follows. *)
Theorem C155_misfit_accepted_refuted : exists ord (ds : list (desc nat)) d cb buf r0 r, permuting ord /\ new_codebook ord ds MSB = Ret (Okay cb) /\
  In d ds /\ used d /\ (d_code d < 2 ^ 32)%N /\ (2 ^ N.of_nat (d_bits d) <= d_code d)%N /\
  bytes buf /\ new BE buf = Ret r0 /\ read_cb BE cb r0 = Ret (r, Okay (d_sym d)).
Proof. exact misfit_witness. Qed.
Print Assumptions C155_misfit_accepted_refuted.
