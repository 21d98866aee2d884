(** Properties C123, C124 and C125: codebooks in a build without overflow checks. *)
From Coq Require Import List Arith NArith ZArith Bool.
From Verif Require Import Base BitModel BitSpec BitQueueSpec WordBitModel WordSpec ReleaseBitModel ReleaseBitSpec CodebookModel CodebookSpec
  CodebookExamples CbQueueSpec ReleaseCbModel ReleaseCbSpec ReleaseCbProofs ReleaseCbProofs2.
Import ListNotations.
Local Open Scope N_scope.

(** C123: whatever codebook - or error - construction yields with overflow checks, from any
    description, prefix-free or not, it yields without them. *)
Theorem C123_release_construction : forall (S : Type) ord m (ds : list (desc S)) x, permuting ord -> lengths_u8 ds ->
  new_codebook ord ds m = Ret x -> rc_new_codebook ord ds m = Ret x.
Proof. exact release_construction. Qed.
Print Assumptions C123_release_construction.

(** And so do calls and codeword reads in any order, with any table. *)
Theorem C123_release_histories : forall (S : Type) (cb : codebook S) e buf steps r outs, typed_codebook cb ->
  8 * N.of_nat (length buf) + steps_skip steps < 2 ^ 64 -> Forall step_arg_fits steps ->
  mixed_from_new e cb buf steps = Ret (r, outs) -> rc_mixed_from_new e cb buf steps = Ret (word_reader r, outs).
Proof. exact release_histories. Qed.
Print Assumptions C123_release_histories.

Example C123_example : lengths_u8 (demo_desc LSB) /\ exists cb r,
  rc_new_codebook (fun _ cc => cc) (demo_desc LSB) LSB = Ret (Okay cb) /\
  new_codebook (fun _ cc => cc) (demo_desc LSB) LSB = Ret (Okay cb) /\
  rc_mixed_from_new LE cb (demo_stream LSB) (demo_steps LSB) =
    Ret (r, [Sym (Okay 30%nat); Out (OutCount 12); Sym (Okay 50%nat); Sym (Okay 10%nat); Out (OutBit true); Sym (Okay 40%nat); Out OutUnit; Sym (Okay 20%nat)]).
Proof.
  split; [repeat (constructor; [apply Nat.ltb_lt; reflexivity|]); constructor|].
  eexists _, _. split; [vm_compute; reflexivity|]. split; vm_compute; reflexivity.
Qed.

(** C124: a codeword of 42 bits or more in MSB mode.  With overflow checks construction
    panics, whatever else the description contains. *)
Theorem C124_long_code_panics : forall (S : Type) ord (ds : list (desc S)) d,
  In d ds -> (42 <= d_bits d)%nat -> new_codebook ord ds MSB = Panic.
Proof. exact @long_code_panics. Qed.
Print Assumptions C124_long_code_panics.

(** Without them construction succeeds, and the codebook rejects the codeword and accepts
    other bits in its place. *)
Theorem C124_release_long_code_refuted : exists ord (ds : list (desc nat)) d cb buf r, permuting ord /\ lengths_u8 ds /\ prefix_free MSB ds /\ In d ds /\
  rc_new_codebook ord ds MSB = Ret (Okay cb) /\ bytes buf /\ (d_bits d + 64 <= 8 * length buf)%nat /\
  window (bits_of BE buf) 0 (d_bits d) = word MSB d /\ rc_mixed_from_new BE cb buf [Codeword d] = Ret (r, [Sym (Error InvalidCode)]) /\
  exists buf' r', bytes buf' /\ window (bits_of BE buf') 0 (d_bits d) <> word MSB d /\
    rc_mixed_from_new BE cb buf' [Codeword d] = Ret (r', [Sym (Okay (d_sym d))]).
Proof. exact long_witness. Qed.
Print Assumptions C124_release_long_code_refuted.

(** With codewords of at most 41 bits (255 in LSB mode), prefix-free, every message is read back. *)
Theorem C124_release_messages_partial : forall (S : Type) ord m (ds msg : list (desc S)), permuting ord -> valid_description m ds ->
  (exists d, In d ds /\ used d) -> Forall (fun d => In d ds /\ used d) msg -> N.of_nat (8 * length (encode m msg)) < 2 ^ 32 ->
  exists cb r, rc_new_codebook ord ds m = Ret (Okay cb) /\
    rc_mixed_from_new (reader_for m) cb (encode m msg) (map Codeword msg) = Ret (r, map (fun d => Sym (Okay (d_sym d))) msg) /\
    rb_consumed r = N.of_nat (length (message_bits m msg)).
Proof. exact release_message. Qed.
Print Assumptions C124_release_messages_partial.

Example C124_example : exists cb r, rc_new_codebook (fun _ cc => cc) (demo_desc MSB) MSB = Ret (Okay cb) /\
  rc_mixed_from_new BE cb (encode MSB [mk_desc 4294967295 32 50%nat; mk_desc 2 2 20%nat; mk_desc 29360128 25 40%nat])
    [Codeword (mk_desc 0 0 0%nat); Codeword (mk_desc 0 0 0%nat); Codeword (mk_desc 0 0 0%nat)]
    = Ret (r, [Sym (Okay 50%nat); Sym (Okay 20%nat); Sym (Okay 40%nat)]) /\ rb_consumed r = 59.
Proof. eexists _, _. split; [vm_compute; reflexivity|]. split; vm_compute; reflexivity. Qed.

(** C125: a codeword read behind the end of the buffer fails.  Without overflow checks it
    returns a symbol, and leaves the reader as it was: a loop that reads until an error comes
    does not end.  (With overflow checks the first read panics.) *)
Theorem C125_release_beyond_end_refuted : exists ord m (ds : list (desc nat)) cb buf n k r s, permuting ord /\ valid_description m ds /\
  new_codebook ord ds m = Ret (Okay cb) /\ rc_new_codebook ord ds m = Ret (Okay cb) /\ bytes buf /\
  rc_mixed_from_new (reader_for m) cb buf [Call (OpSkip n); Call (OpSkip k)] = Ret (r, [Out OutUnit; Out OutUnit]) /\
  8 * N.of_nat (length buf) < rb_consumed r /\
  (forall d times, rc_run_mixed (reader_for m) cb r (repeat (Codeword d) times) = Ret (r, repeat (Sym (Okay s)) times)) /\
  (forall d, mixed_from_new (reader_for m) cb buf [Call (OpSkip n); Call (OpSkip k); Codeword d] = Panic).
Proof. exact beyond_witness. Qed.
Print Assumptions C125_release_beyond_end_refuted.

(** Exactly what happens, in any history with documented arguments, behind the end included:
    nothing panics, and the tables decode like the bit queue whose count of available bits
    wraps around. *)
Theorem C125_release_codewords_exact : forall (S : Type) ord m (ds : list (desc S)), permuting ord -> valid_description m ds ->
  (exists d, In d ds /\ used d) ->
  exists cb, rc_new_codebook ord ds m = Ret (Okay cb) /\
  forall e buf steps, bytes buf -> Forall step_ok steps -> 8 * N.of_nat (length buf) + steps_skip steps < 2 ^ 64 ->
  exists r, rc_mixed_from_new e cb buf steps = Ret (r, snd (rq_mixed e m ds buf steps)) /\
    w_left r = N.of_nat (length (waiting (fst (rq_mixed e m ds buf steps)))) /\
    rb_consumed r = N.of_nat (fetched (fst (rq_mixed e m ds buf steps)) - length (waiting (fst (rq_mixed e m ds buf steps)))).
Proof. exact release_codewords. Qed.
Print Assumptions C125_release_codewords_exact.

(** A read exactly at the end of a buffer of whole blocks fails and does not move. *)
Theorem C125_release_at_the_end_partial : forall (S : Type) ord m (ds : list (desc S)) cb buf steps d,
  permuting ord -> valid_description m ds -> new_codebook ord ds m = Ret (Okay cb) -> typed_codebook cb ->
  bytes buf -> (length buf mod 8 = 0)%nat -> N.of_nat (8 * length buf) < 2 ^ 32 -> Forall path64_step steps ->
  steps_within m ds (bits_of (reader_for m) buf) (8 * length buf) 0 steps ->
  fst (spec_steps m (bits_of (reader_for m) buf) 0 steps) = (8 * length buf)%nat ->
  8 * N.of_nat (length buf) + steps_skip (steps ++ [Codeword d; Call OpConsumed]) < 2 ^ 64 -> Forall step_arg_fits steps ->
  exists r, rc_mixed_from_new (reader_for m) cb buf (steps ++ [Codeword d; Call OpConsumed])
      = Ret (r, snd (spec_steps m (bits_of (reader_for m) buf) 0 steps) ++ [Sym (Error InvalidCode); Out (OutCount (8 * length buf))]).
Proof. exact end_rejects. Qed.
Print Assumptions C125_release_at_the_end_partial.

(** Behind the end of 8 bytes, where a build with checks panics: a codeword of zeros decodes,
    one of ones does not, and the count is wrong by 2^64. *)
Example C125_example :
  snd (rq_mixed BE MSB (demo_desc MSB) (repeat 255 8) [Call (OpSkip 64); Call (OpSkip 200); Codeword (mk_desc 0 0 0%nat); Call OpConsumed])
    = [Out OutUnit; Out OutUnit; Sym (Okay 10%nat); Out (OutCount 264)] /\
  snd (rq_mixed BE MSB [mk_desc 1 1 7%nat] (repeat 255 8) [Call (OpSkip 64); Call (OpSkip 200); Codeword (mk_desc 0 0 0%nat)])
    = [Out OutUnit; Out OutUnit; Sym (Error InvalidCode)] /\
  snd (rq_mixed BE MSB (demo_desc MSB) (repeat 255 8) [Call (OpSkip 64); Codeword (mk_desc 0 0 0%nat); Call OpConsumed])
    = [Out OutUnit; Sym (Error InvalidCode); Out (OutCount 64)].
Proof. split; [vm_compute; reflexivity|]. split; vm_compute; reflexivity. Qed.
