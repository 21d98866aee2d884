(** Property C149: large codebooks. *)
From Coq Require Import List Arith NArith Bool.
From Verif Require Import Base BitModel BitSpec CodebookModel CodebookSpec CodebookExamples CodebookLargeSpec
  CodebookLargeProofs.
Import ListNotations.

(** C149: the table of a codebook has exactly the entries needed to read its
    codewords 10 bits at a time. *)
Theorem C149_table_size : forall (S : Type) ord m (ds : list (desc S)) cb,
  permuting ord -> valid_description m ds -> new_codebook ord ds m = Ret (Okay cb) ->
  N.of_nat (length (cb_table cb)) = table_entries (words m ds).
Proof. exact table_length. Qed.
Print Assumptions C149_table_size.

(** 1024 entries for the first 10 bits; below them 4 for the words of 12 bits, 1024
    and 32 for the word of 25 bits, 1024, 1024 and 4 for the word of 32 bits. *)
Example C149_table_size_example : forall m,
  valid_description m (demo_desc m) /\ table_entries (words m (demo_desc m)) = 4136%N.
Proof. intros m. split; [apply demo_valid|]. destruct m; vm_compute; reflexivity. Qed.

(** A prefix-free description of words of at most [L] bits is small enough when it
    has not too many entries: at most 5461 when [L] is 32, at most 655 when it is 255. *)
Theorem C149_few_codes : forall (S : Type) m (ds : list (desc S)) L,
  codes_fit m ds -> prefix_free m ds -> (forall d, In d ds -> d_bits d <= L) ->
  (N.of_nat (length ds) <= 2 ^ 24)%N -> (N.of_nat (length ds * ((L - 1) / 10)) < 2 ^ 14)%N -> valid_description m ds.
Proof. exact few_codes. Qed.
Print Assumptions C149_few_codes.

Example C149_few_codes_example : exists (ds : list (desc N)),
  codes_fit MSB ds /\ prefix_free MSB ds /\ N.of_nat (length ds) = 5461%N /\ (forall d, In d ds -> d_bits d = 32).
Proof. exact many_long_codes. Qed.

(** 820 words of 210 bits are too many: a table of the last one begins at entry
    2^24, an offset for which its escape entry has no room, and another symbol is
    read instead. *)
Theorem C149_large_table_refuted : exists ord m (ds : list (desc N)) cb buf r0 d r s,
  permuting ord /\ codes_fit m ds /\ prefix_free m ds /\ (N.of_nat (length ds) < 2 ^ 24)%N /\
  new_codebook ord ds m = Ret (Okay cb) /\ N.of_nat (length (cb_table cb)) = (2 ^ 24 + 17408)%N /\
  bytes buf /\ (N.of_nat (8 * length buf) < 2 ^ 32)%N /\
  new (reader_for m) buf = Ret r0 /\ In d ds /\ used d /\
  window (bits_of (reader_for m) buf) 0 (d_bits d) = word m d /\ d_bits d + 64 <= 8 * length buf /\
  read_cb (reader_for m) cb r0 = Ret (r, Okay s) /\ s <> d_sym d.
Proof. exact one_table_too_many. Qed.
Print Assumptions C149_large_table_refuted.

(** Whatever the description, only its first 2^24 used symbols are ever read, however often
    the loop of [read_cb] goes round. *)
Theorem C149_first_symbols : forall (S : Type) ord m (ds : list (desc S)) cb e rounds r r' s,
  new_codebook ord ds m = Ret (Okay cb) -> read_loop rounds e cb r 0 (cb_lut_bits cb) = Ret (r', Okay s) ->
  exists i, (i < 2 ^ 24)%N /\ nth_error (map d_sym (filter (fun d => 0 <? d_bits d) ds)) (N.to_nat i) = Some s.
Proof. exact first_symbols. Qed.
Print Assumptions C149_first_symbols.

Example C149_first_symbols_example : exists cb r r',
  new_codebook (fun _ cc => cc) [mk_desc 0%N 1 7; mk_desc 3%N 2 9] MSB = Ret (Okay cb) /\
  new BE (repeat 255%N 16) = Ret r /\ read_cb BE cb r = Ret (r', Okay 9).
Proof. eexists _, _, _. split; [vm_compute; reflexivity|]. split; vm_compute; reflexivity. Qed.

(** With more symbols than that some codeword is never decoded. *)
Theorem C149_many_symbols_refuted : exists (ds : list (desc N)) d,
  codes_fit MSB ds /\ prefix_free MSB ds /\ In d ds /\ used d /\
  forall ord cb e rounds r r', new_codebook ord ds MSB = Ret (Okay cb) ->
    read_loop rounds e cb r 0 (cb_lut_bits cb) <> Ret (r', Okay (d_sym d)).
Proof. exact many_symbols. Qed.
Print Assumptions C149_many_symbols_refuted.
