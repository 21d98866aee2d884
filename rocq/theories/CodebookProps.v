(** Properties C15-C22 and C67: prefix-code decoding. *)
From Coq Require Import List Arith NArith Bool Permutation.
From Verif Require Import Base BitModel BitSpec CodebookModel CodebookSpec CodebookProofs5 CodebookProofs6 CodebookExamples.
Import ListNotations.

(** C15: in any history of plain calls and codeword reads that stays 8 bytes away
    from the end of a buffer of less than 2^32 bits, every codeword read returns
    the symbol of the codeword that stands there and moves by exactly its length,
    for every valid description and every iteration order of the hash maps. *)
Theorem C15_codebook_decodes : forall (S : Type) ord m (ds : list (desc S)) cb buf steps,
  permuting ord -> valid_description m ds -> new_codebook ord ds m = Ret (Okay cb) ->
  bytes buf -> 8 <= length buf -> (N.of_nat (8 * length buf) < 2 ^ 32)%N ->
  steps_within m ds (bits_of (reader_for m) buf) (8 * length buf - 64) 0 steps ->
  exists r0 r, new (reader_for m) buf = Ret r0 /\
    run_mixed (reader_for m) cb r0 steps = Ret (r, snd (spec_steps m (bits_of (reader_for m) buf) 0 steps)) /\
    consumed r = Ret (fst (spec_steps m (bits_of (reader_for m) buf) 0 steps)).
Proof. exact codebook_histories. Qed.
Print Assumptions C15_codebook_decodes.

(** A description with words of 1 to 32 bits (two and three levels of escapes),
    an unused entry, and a history over it, in both modes. *)
Example C15_example : forall m,
  valid_description m (demo_desc m) /\ bytes (demo_stream m) /\ 8 <= length (demo_stream m) /\
  (N.of_nat (8 * length (demo_stream m)) < 2 ^ 32)%N /\
  steps_within m (demo_desc m) (bits_of (reader_for m) (demo_stream m)) (8 * length (demo_stream m) - 64) 0
    (demo_steps m) /\
  snd (spec_steps m (bits_of (reader_for m) (demo_stream m)) 0 (demo_steps m)) =
    [Sym (Okay 30); Out (OutCount 12); Sym (Okay 50); Sym (Okay 10); Out (OutBit true);
     Sym (Okay 40); Out OutUnit; Sym (Okay 20)].
Proof. exact demo_history. Qed.

(** Without the bound on the buffer the property is false: [available() as u32]
    is 0 at the start of any buffer of 2^29 bytes. *)
Theorem C15_huge_buffer_refuted : exists ord m (ds : list (desc nat)) cb buf r0 d,
  permuting ord /\ valid_description m ds /\ new_codebook ord ds m = Ret (Okay cb) /\ bytes buf /\
  new (reader_for m) buf = Ret r0 /\ In d ds /\ used d /\
  window (bits_of (reader_for m) buf) 0 (d_bits d) = word m d /\ d_bits d + 64 <= 8 * length buf /\
  read_cb (reader_for m) cb r0 = Ret (r0, Error InvalidCode).
Proof. exact huge_buffer_witness. Qed.
Print Assumptions C15_huge_buffer_refuted.

(** C16: if no codeword comes next, the read fails with [InvalidCode]. *)
Theorem C16_unknown_codewords_rejected : forall (S : Type) ord m (ds : list (desc S)) cb buf steps r0 r outs p,
  permuting ord -> valid_description m ds -> new_codebook ord ds m = Ret (Okay cb) ->
  bytes buf -> 8 <= length buf -> (N.of_nat (8 * length buf) < 2 ^ 32)%N ->
  steps_within m ds (bits_of (reader_for m) buf) (8 * length buf - 64) 0 steps ->
  new (reader_for m) buf = Ret r0 -> run_mixed (reader_for m) cb r0 steps = Ret (r, outs) ->
  p = fst (spec_steps m (bits_of (reader_for m) buf) 0 steps) ->
  (forall d, In d ds -> used d -> p + d_bits d + 64 <= 8 * length buf) ->
  (forall d, In d ds -> used d -> ~ is_prefix (word m d) (skipn p (bits_of (reader_for m) buf))) ->
  exists r', read_cb (reader_for m) cb r = Ret (r', Error InvalidCode).
Proof. exact unknown_rejected. Qed.
Print Assumptions C16_unknown_codewords_rejected.

(** After a first codeword, 11 of the 12 bits of the second one, then a wrong bit. *)
Example C16_example :
  steps_within MSB (demo_desc MSB) (bits_of BE reject_stream) (8 * length reject_stream - 64) 0 [Codeword (mk_desc 2 2 20)] /\
  (forall d, In d (demo_desc MSB) -> used d -> 2 + d_bits d + 64 <= 8 * length reject_stream) /\
  (forall d, In d (demo_desc MSB) -> used d -> ~ is_prefix (word MSB d) (skipn 2 (bits_of BE reject_stream))).
Proof. exact reject_history. Qed.

(** C17: decoding the codewords of a message, packed one after the other, gives the
    message back. *)
Theorem C17_message_round_trip : forall (S : Type) ord m (ds msg : list (desc S)) cb,
  permuting ord -> valid_description m ds -> new_codebook ord ds m = Ret (Okay cb) ->
  Forall (fun d => In d ds /\ used d) msg ->
  (N.of_nat (8 * length (encode m msg)) < 2 ^ 32)%N ->
  exists r0 r, new (reader_for m) (encode m msg) = Ret r0 /\
    run_mixed (reader_for m) cb r0 (map Codeword msg) = Ret (r, map (fun d => Sym (Okay (d_sym d))) msg) /\
    consumed r = Ret (length (message_bits m msg)).
Proof. exact message_round_trip. Qed.
Print Assumptions C17_message_round_trip.

Example C17_example : encode MSB [mk_desc 2 2 20; mk_desc 3072 12 30; mk_desc 4294967295 32 50; mk_desc 0 1 10]
  = [176; 3; 255; 255; 255; 252; 0; 0; 0; 0; 0; 0; 0; 0]%N.
Proof. vm_compute. reflexivity. Qed.

(** Words of 41 and, in LSB mode, of 255 bits. *)
Example C17_example_long : forall m, valid_description m (long_words m) /\
  (let! res := new_codebook (fun _ cc => cc) (long_words m) m in
   match res with
   | Error _ => Panic
   | Okay cb =>
       let! r0 := new (reader_for m) (encode m (long_words m)) in
       let! (r, out) := run_mixed (reader_for m) cb r0 (map Codeword (long_words m)) in
       let! n := consumed r in Ret (out, n)
   end) = Ret ([Sym (Okay 1); Sym (Okay 2); Sym (Okay 3); Sym (Okay 4)], match m with MSB => 95 | LSB => 523 end).
Proof. exact long_words_read. Qed.

(** C18: the construction never panics on a valid description; it fails, with
    [InvalidCodebook], exactly when no entry is used. *)
Theorem C18_construction : forall (S : Type) ord m (ds : list (desc S)), permuting ord -> valid_description m ds ->
  ((exists d, In d ds /\ used d) -> exists cb, new_codebook ord ds m = Ret (Okay cb)) /\
  ((forall d, In d ds -> ~ used d) -> new_codebook ord ds m = Ret (Error InvalidCodebook)).
Proof. exact construction_total. Qed.
Print Assumptions C18_construction.

Example C18_example : forall m, exists cb, new_codebook (fun _ cc => cc) (demo_desc m) m = Ret (Okay cb) /\
  length (cb_table cb) = 1024 + 4 + 1024 + 32 + 1024 + 1024 + 4.
Proof. exact demo_table. Qed.
Example C18_example_empty : new_codebook (fun _ cc => cc) [mk_desc 7 0 1; mk_desc 0 0 2] MSB = Ret (Error InvalidCodebook).
Proof. reflexivity. Qed.

(** C19: two codebooks built with different iteration orders behave alike, in any
    history, on any buffer, with either reader. *)
Theorem C19_order_independent : forall (S : Type) ord1 ord2 m (ds : list (desc S)) cb1 cb2 e buf r0 steps,
  permuting ord1 -> permuting ord2 -> valid_description m ds ->
  new_codebook ord1 ds m = Ret (Okay cb1) -> new_codebook ord2 ds m = Ret (Okay cb2) ->
  bytes buf -> new e buf = Ret r0 ->
  run_mixed e cb1 r0 steps = run_mixed e cb2 r0 steps.
Proof. exact order_independent. Qed.
Print Assumptions C19_order_independent.

(** The tables themselves do depend on the order. *)
Example C19_example : permuting (fun _ cc => cc) /\ permuting (fun _ cc => rev cc) /\
  exists cb1 cb2, new_codebook (fun _ cc => cc) order_desc MSB = Ret (Okay cb1) /\
    new_codebook (fun _ cc => rev cc) order_desc MSB = Ret (Okay cb2) /\ cb_table cb1 <> cb_table cb2.
Proof. exact orders_differ. Qed.

(** C20: [reverse_bits] reverses its 32 bits and is its own inverse. *)
Theorem C20_reverse_bits : forall x, (x < 2 ^ 32)%N ->
  exists y, reverse_bits x = Ret y /\ (y < 2 ^ 32)%N /\
    (forall i, (i < 32)%N -> N.testbit y i = N.testbit x (31 - i)) /\ reverse_bits y = Ret x.
Proof. exact reverse_bits_spec. Qed.
Print Assumptions C20_reverse_bits.

Example C20_example : reverse_bits 0x12345678 = Ret 0x1e6a2c48%N.
Proof. vm_compute. reflexivity. Qed.

(** C21 is false: with 8 bits left, a 12-bit codeword whose first bits match is
    decoded all the same (the escape skips 10 bits and stale bits follow). *)
Theorem C21_truncated_codeword_refuted : exists ord m (ds : list (desc nat)) cb buf r0 r outs r' s,
  permuting ord /\ valid_description m ds /\ new_codebook ord ds m = Ret (Okay cb) /\ bytes buf /\
  new (reader_for m) buf = Ret r0 /\ run_mixed (reader_for m) cb r0 [Call (OpGet64 56)] = Ret (r, outs) /\
  available r = Ret 8 /\ (forall d, In d ds -> used d -> 12 <= d_bits d) /\
  read_cb (reader_for m) cb r = Ret (r', Okay s).
Proof. exact truncated_witness. Qed.
Print Assumptions C21_truncated_codeword_refuted.

(** It holds when no codeword is longer than 10 bits: in any history, with either
    reader, a symbol is returned only if its codeword fits what is available. *)
Theorem C21_truncated_codeword_partial : forall (S : Type) ord m (ds : list (desc S)) cb e buf r0 steps r outs r' s,
  permuting ord -> valid_description m ds -> new_codebook ord ds m = Ret (Okay cb) ->
  (forall d, In d ds -> d_bits d <= 10) -> bytes buf -> new e buf = Ret r0 ->
  run_mixed e cb r0 steps = Ret (r, outs) -> read_cb e cb r = Ret (r', Okay s) ->
  exists d a, In d ds /\ used d /\ s = d_sym d /\ available r = Ret a /\ d_bits d <= a.
Proof.
  exact (fun S ord m ds cb e buf r0 steps r outs r' s H1 H2 H3 H4 H5 H6 H7 =>
    short_read_history S ord m ds cb e buf r0 steps r outs r' (Okay s) H1 H2 H3 H4 H5 H6 H7).
Qed.
Print Assumptions C21_truncated_codeword_partial.

(** C22 is false: a code rejected in an escape table has already consumed the
    10 bits that led there. *)
Theorem C22_failed_read_position_refuted : exists ord m (ds : list (desc nat)) cb buf r0 r',
  permuting ord /\ valid_description m ds /\ new_codebook ord ds m = Ret (Okay cb) /\ bytes buf /\
  new (reader_for m) buf = Ret r0 /\ read_cb (reader_for m) cb r0 = Ret (r', Error InvalidCode) /\
  consumed r0 = Ret 0 /\ consumed r' = Ret 10.
Proof. exact moved_witness. Qed.
Print Assumptions C22_failed_read_position_refuted.

Theorem C22_failed_read_position_partial : forall (S : Type) ord m (ds : list (desc S)) cb e buf r0 steps r outs r' err,
  permuting ord -> valid_description m ds -> new_codebook ord ds m = Ret (Okay cb) ->
  (forall d, In d ds -> d_bits d <= 10) -> bytes buf -> new e buf = Ret r0 ->
  run_mixed e cb r0 steps = Ret (r, outs) -> read_cb e cb r = Ret (r', Error err) ->
  err = InvalidCode /\ r' = r.
Proof.
  exact (fun S ord m ds cb e buf r0 steps r outs r' err H1 H2 H3 H4 H5 H6 H7 =>
    short_read_history S ord m ds cb e buf r0 steps r outs r' (Error err) H1 H2 H3 H4 H5 H6 H7).
Qed.
Print Assumptions C22_failed_read_position_partial.

Example C21_C22_example : exists cb r, new_codebook (fun _ cc => cc) short_desc MSB = Ret (Okay cb) /\
  valid_description MSB short_desc /\ (forall d, In d short_desc -> d_bits d <= 10) /\
  new BE (repeat 255%N 8) = Ret r /\
  exists r1 outs, run_mixed BE cb r [Call (OpGet64 62)] = Ret (r1, outs) /\ available r1 = Ret 2 /\
    read_cb BE cb r1 = Ret (r1, Error InvalidCode).
Proof. exact short_example. Qed.

(** C67: after any legal history, anywhere in the buffer and with either reader,
    a codeword read does not panic; it returns a symbol of the description or an
    error, never moves backwards and never past the end of the buffer. *)
Theorem C67_read_never_panics : forall (S : Type) ord m (ds : list (desc S)) cb e buf r0 steps,
  permuting ord -> valid_description m ds -> new_codebook ord ds m = Ret (Okay cb) ->
  bytes buf -> new e buf = Ret r0 -> mixed_ok e cb r0 steps ->
  exists r outs r' s c c' a', run_mixed e cb r0 steps = Ret (r, outs) /\ read_cb e cb r = Ret (r', s) /\
    (forall x, s = Okay x -> In x (map d_sym ds)) /\
    consumed r = Ret c /\ consumed r' = Ret c' /\ available r' = Ret a' /\ c <= c' /\ c' + a' = 8 * length buf.
Proof. exact read_never_panics. Qed.
Print Assumptions C67_read_never_panics.

(** On 8 zero bytes with the reader of the other mode, up to and past the end. *)
Example C67_example : exists cb r0, new_codebook (fun _ cc => cc) (demo_desc LSB) LSB = Ret (Okay cb) /\
  new BE (repeat 0%N 8) = Ret r0 /\
  mixed_ok BE cb r0 [Call (OpGet32 32); Codeword (mk_desc 0 1 10); Call (OpSkip 29); Codeword (mk_desc 0 1 10);
                     Codeword (mk_desc 0 1 10); Codeword (mk_desc 0 1 10)].
Proof. exact never_panics_example. Qed.
