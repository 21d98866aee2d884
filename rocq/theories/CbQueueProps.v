(** Properties C85 and C86, exact forms of C21 and C22: codeword reads at every
    position. *)
From Coq Require Import List Arith NArith Bool Permutation.
From Verif Require Import Base BitModel BitSpec BitQueueSpec CodebookModel CodebookSpec CodebookExamples CbQueueSpec
  CbQueueProofs CbBlockProofs CbBlockProofs2.
Import ListNotations.

(** C85: in any history of calls with documented arguments and codeword reads, on
    any buffer, with either reader, skips past the end included, the tables decode
    exactly like the bit queue with its set of pending codewords, and panic exactly
    when that does. *)
Theorem C85_codeword_queue_exact : forall (S : Type) ord m (ds : list (desc S)) cb e buf steps,
  permuting ord -> valid_description m ds -> new_codebook ord ds m = Ret (Okay cb) -> bytes buf -> Forall step_ok steps ->
  exists r0, new e buf = Ret r0 /\
  match q_mixed e m ds buf steps with
  | Some (q, outs) => exists r, run_mixed e cb r0 steps = Ret (r, outs) /\
      left r = length (waiting q) /\ consumed r = Ret (fetched q - length (waiting q))
  | None => run_mixed e cb r0 steps = Panic
  end.
Proof. exact codeword_queue_exact. Qed.
Print Assumptions C85_codeword_queue_exact.

(** A codeword cut off by the end (C21), a rejected one that moves (C22), the reader
    of the other bit order, and a skip so far that the read panics. *)
Example C85_example :
  q_mixed BE MSB trunc_desc trunc_buf [Call (OpGet64 56); Codeword (mk_desc 0 0 0); Call OpConsumed]
    = Some (mk_queue [false; true] 64, [Out (OutWord 0); Sym (Okay 7); Out (OutCount 62)]) /\
  q_mixed BE MSB trunc_desc ([165; 15] ++ repeat 0 14)%N [Codeword (mk_desc 0 0 0); Call OpConsumed]
    = Some (mk_queue (window (bits_of BE ([165; 15] ++ repeat 0 14)%N) 10 54) 64, [Sym (Error InvalidCode); Out (OutCount 10)]) /\
  q_mixed LE MSB (demo_desc MSB) [2; 1; 5; 7; 11; 13; 17; 19]%N [Codeword (mk_desc 0 0 0); Call OpConsumed]
    = Some (mk_queue (window (bits_of LE [2; 1; 5; 7; 11; 13; 17; 19]%N) 1 63) 64, [Sym (Okay 10); Out (OutCount 1)]) /\
  q_mixed BE MSB (demo_desc MSB) [2; 3; 5; 7; 11; 13; 17; 19]%N [Call (OpSkip 200); Codeword (mk_desc 0 0 0)] = None.
Proof. vm_compute. repeat split. Qed.

(** C86: on a buffer whose length is a multiple of 8 bytes no margin at the end is
    needed: codeword reads mixed with calls of the 64-bit path and peeks are exact
    up to the last bit. *)
Theorem C86_exact_to_the_end : forall (S : Type) ord m (ds : list (desc S)) cb buf steps,
  permuting ord -> valid_description m ds -> new_codebook ord ds m = Ret (Okay cb) ->
  bytes buf -> length buf mod 8 = 0 -> (N.of_nat (8 * length buf) < 2 ^ 32)%N ->
  Forall path64_step steps ->
  steps_within m ds (bits_of (reader_for m) buf) (8 * length buf) 0 steps ->
  exists r0 r, new (reader_for m) buf = Ret r0 /\
    run_mixed (reader_for m) cb r0 steps = Ret (r, snd (spec_steps m (bits_of (reader_for m) buf) 0 steps)) /\
    consumed r = Ret (fst (spec_steps m (bits_of (reader_for m) buf) 0 steps)).
Proof. exact blocks_histories. Qed.
Print Assumptions C86_exact_to_the_end.

(** At the end of such a buffer a codeword read fails and does not move; with words
    of at most 10 bits it does so wherever no codeword stands. *)
Theorem C86_rejects_at_the_end : forall (S : Type) ord m (ds : list (desc S)) cb buf steps r0 r outs p,
  permuting ord -> valid_description m ds -> new_codebook ord ds m = Ret (Okay cb) ->
  bytes buf -> length buf mod 8 = 0 -> (N.of_nat (8 * length buf) < 2 ^ 32)%N ->
  Forall path64_step steps ->
  steps_within m ds (bits_of (reader_for m) buf) (8 * length buf) 0 steps ->
  new (reader_for m) buf = Ret r0 -> run_mixed (reader_for m) cb r0 steps = Ret (r, outs) ->
  p = fst (spec_steps m (bits_of (reader_for m) buf) 0 steps) ->
  p = 8 * length buf \/
  ((forall d, In d ds -> d_bits d <= 10) /\
   (forall d, In d ds -> used d -> p + d_bits d <= 8 * length buf ->
      window (bits_of (reader_for m) buf) p (d_bits d) <> word m d)) ->
  exists r', read_cb (reader_for m) cb r = Ret (r', Error InvalidCode) /\ consumed r' = Ret p.
Proof. exact block_rejects. Qed.
Print Assumptions C86_rejects_at_the_end.

(** A message packed into whole blocks of 8 bytes, without padding, is read back. *)
Theorem C86_unpadded_messages : forall (S : Type) ord m (ds msg : list (desc S)) cb,
  permuting ord -> valid_description m ds -> new_codebook ord ds m = Ret (Okay cb) ->
  Forall (fun d => In d ds /\ used d) msg ->
  (N.of_nat (8 * length (encode_blocks m msg)) < 2 ^ 32)%N ->
  exists r0 r, new (reader_for m) (encode_blocks m msg) = Ret r0 /\
    run_mixed (reader_for m) cb r0 (map Codeword msg) = Ret (r, map (fun d => Sym (Okay (d_sym d))) msg) /\
    consumed r = Ret (length (message_bits m msg)).
Proof. exact block_message. Qed.
Print Assumptions C86_unpadded_messages.

(** 64 bits of codewords: the message ends with the buffer, a further read fails. *)
Example C86_example :
  let msg := [mk_desc 3072 12 30; mk_desc 2 2 20; mk_desc 0 1 10; mk_desc 0 1 10; mk_desc 2 2 20; mk_desc 2 2 20;
              mk_desc 3072 12 30; mk_desc 4294967295 32 50] in
  length (encode_blocks MSB msg) = 8 /\ length (message_bits MSB msg) = 64 /\
  exists cb r0 r outs r', new_codebook (fun _ cc => cc) (demo_desc MSB) MSB = Ret (Okay cb) /\
    new BE (encode_blocks MSB msg) = Ret r0 /\
    run_mixed BE cb r0 (map Codeword msg) = Ret (r, outs) /\
    outs = map (fun s => Sym (Okay s)) [30; 20; 10; 10; 20; 20; 30; 50] /\
    read_cb BE cb r = Ret (r', Error InvalidCode) /\ consumed r' = Ret 64.
Proof.
  split; [vm_compute; reflexivity|]. split; [vm_compute; reflexivity|]. eexists _, _, _, _, _.
  split; [vm_compute; reflexivity|]. split; [vm_compute; reflexivity|]. split; [vm_compute; reflexivity|].
  split; [reflexivity|]. split; vm_compute; reflexivity.
Qed.

(** C21, what holds of any codebook: a symbol is returned only after the reader has
    skipped its codeword, in steps of 10 bits and a rest of at most 10; the rest is
    available when it is skipped, and for a longer codeword at least [min 10 (bits - 10)]
    bits were available at the start. *)
Theorem C21_symbol_exact : forall (S : Type) ord m (ds : list (desc S)) cb e buf r0 steps r outs r' s,
  permuting ord -> valid_description m ds -> new_codebook ord ds m = Ret (Okay cb) -> bytes buf -> new e buf = Ret r0 ->
  run_mixed e cb r0 steps = Ret (r, outs) -> read_cb e cb r = Ret (r', Okay s) ->
  exists d r1 a, In d ds /\ used d /\ s = d_sym d /\
    skip_tens e ((d_bits d - 1) / 10) r = Ret r1 /\ available r1 = Ret a /\
    d_bits d - 10 * ((d_bits d - 1) / 10) <= a /\
    skip_bits e r1 (d_bits d - 10 * ((d_bits d - 1) / 10)) = Ret r' /\
    (10 < d_bits d -> exists a0, available r = Ret a0 /\ Nat.min 10 (d_bits d - 10) <= a0).
Proof.
  exact (fun S ord m ds cb e buf r0 steps r outs r' s H1 H2 H3 H4 H5 H6 =>
    read_moves S ord m ds cb e buf r0 steps r outs r' (Okay s) H1 H2 H3 H4 H5 H6).
Qed.
Print Assumptions C21_symbol_exact.

(** The 12-bit word cut off after 8 bits. *)
Example C21_exact_example : exists cb r0 r outs r1 r', new_codebook (fun _ cc => cc) trunc_desc MSB = Ret (Okay cb) /\
  new BE trunc_buf = Ret r0 /\ run_mixed BE cb r0 [Call (OpGet64 56)] = Ret (r, outs) /\ available r = Ret 8 /\
  skip_tens BE 1 r = Ret r1 /\ available r1 = Ret 4 /\ skip_bits BE r1 2 = Ret r' /\ read_cb BE cb r = Ret (r', Okay 7).
Proof.
  eexists _, _, _, _, _, _. split; [vm_compute; reflexivity|]. split; [vm_compute; reflexivity|].
  split; [vm_compute; reflexivity|]. split; [vm_compute; reflexivity|]. split; [vm_compute; reflexivity|].
  split; [vm_compute; reflexivity|]. split; vm_compute; reflexivity.
Qed.

(** C22, what holds of any codebook: a failed read has skipped 10 bits some [k]
    times and nothing else, and only if some codeword is longer than [10 * k]. *)
Theorem C22_failed_read_exact : forall (S : Type) ord m (ds : list (desc S)) cb e buf r0 steps r outs r' err,
  permuting ord -> valid_description m ds -> new_codebook ord ds m = Ret (Okay cb) -> bytes buf -> new e buf = Ret r0 ->
  run_mixed e cb r0 steps = Ret (r, outs) -> read_cb e cb r = Ret (r', Error err) ->
  err = InvalidCode /\ exists k, skip_tens e k r = Ret r' /\ (0 < k -> exists d, In d ds /\ 10 * k < d_bits d).
Proof.
  exact (fun S ord m ds cb e buf r0 steps r outs r' err H1 H2 H3 H4 H5 H6 =>
    read_moves S ord m ds cb e buf r0 steps r outs r' (Error err) H1 H2 H3 H4 H5 H6).
Qed.
Print Assumptions C22_failed_read_exact.

(** 22 ones are the beginning of a 32-bit word only: the read fails after two steps. *)
Example C22_exact_example : exists cb r0 r', new_codebook (fun _ cc => cc) (demo_desc MSB) MSB = Ret (Okay cb) /\
  new BE ([255; 255; 252] ++ repeat 0 13)%N = Ret r0 /\ read_cb BE cb r0 = Ret (r', Error InvalidCode) /\
  skip_tens BE 2 r0 = Ret r' /\ consumed r' = Ret 20.
Proof.
  eexists _, _, _. split; [vm_compute; reflexivity|]. split; [vm_compute; reflexivity|].
  split; [vm_compute; reflexivity|]. split; vm_compute; reflexivity.
Qed.
