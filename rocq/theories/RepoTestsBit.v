(** The unit tests of bitstream/src, run on the models.  The code cannot be run here, so
    these evaluations are the only comparison with behaviour its authors have observed.
    Each test of the bit reader is run on the unbounded model, on the model with checked
    words and on the one without overflow checks. *)
From Coq Require Import List Arith NArith ZArith Bool.
From Verif Require Import Base ByteModel BitModel WordBitModel ReleaseBitModel CodebookModel CodebookSpec DescModel ReleaseCbModel.
Import ListNotations.
Local Open Scope nat_scope.

(** ** bitread.rs:324-580 *)

Definition results {A : Type} (o : outcome (A * list bit_out)) : outcome (list bit_out) := let! (_, outs) := o in Ret outs.
Definition passes (e : endian) (buf : list N) (ops : list bit_op) (outs : list bit_out) : Prop :=
  results (run_from_new e buf ops) = Ret outs /\ results (w_run_from_new e buf ops) = Ret outs /\ results (rb_run_from_new e buf ops) = Ret outs.
(** The same for a reader given by its fields [buffer], and 0 for the others. *)
Definition passes_raw (e : endian) (buf : list N) (ops : list bit_op) (outs : list bit_out) : Prop :=
  results (run_ops e (mk_reader buf 0 0 0) ops) = Ret outs /\ results (w_run_ops e (mk_wreader buf 0 0 0) ops) = Ret outs /\
  results (rb_run_ops e (mk_wreader buf 0 0 0) ops) = Ret outs.
Definition CHECKBOARD0101 : list N := repeat 85%N 128.
Definition CHECKBOARD0011 : list N := repeat 51%N 128.
Definition words (l : list N) : list bit_out := map OutWord l.
Ltac run := repeat split; vm_compute; reflexivity.

(** bitread.rs:333-340 *)
Example le_get_bit : passes LE CHECKBOARD0101 [OpGetBit; OpGetBit] [OutBit true; OutBit false].
Proof. run. Qed.
(** bitread.rs:342-354 *)
Example le_get_bits_64 : passes LE CHECKBOARD0101 (map OpGet64 [1; 2; 4; 1; 8; 32; 64]) (words [1; 2; 10; 0; 85; 1431655765; 6148914691236517205]%N).
Proof. run. Qed.
(** bitread.rs:356-371 *)
Example le_get_bits_64_double :
  passes LE CHECKBOARD0101 [OpGet64 64; OpGet64 64] (words [6148914691236517205; 6148914691236517205]%N) /\
  passes LE CHECKBOARD0101 (map OpGet64 [32; 32; 32; 32]) (words [1431655765; 1431655765; 1431655765; 1431655765]%N).
Proof. run. Qed.
(** bitread.rs:373-388: a reader whose cache has not been filled *)
Example le_peek_bits_64 : passes_raw LE CHECKBOARD0101 (map OpPeek64 [1; 1; 2; 2; 32; 64]) (words [1; 1; 1; 1; 1431655765; 6148914691236517205]%N).
Proof. run. Qed.
(** bitread.rs:390-409 *)
Example le_get_bits_32 : passes_raw LE CHECKBOARD0101 (map OpGet32 ([1; 2; 4; 1; 8; 1] ++ repeat 8 8)) (words ([1; 2; 10; 0; 85; 1] ++ repeat 170 8)%N).
Proof. run. Qed.
(** bitread.rs:411-420 *)
Example le_peek_bits_32 : passes LE CHECKBOARD0101 (map OpPeek32 [1; 1; 2; 2]) (words [1; 1; 1; 1]%N).
Proof. run. Qed.
(** bitread.rs:422-433 *)
Example le_skip_bits : passes LE CHECKBOARD0101 [OpSkip 0; OpPeek32 1; OpSkip 2; OpPeek32 1; OpSkip 2; OpPeek32 1]
  [OutUnit; OutWord 1%N; OutUnit; OutWord 1%N; OutUnit; OutWord 1%N].
Proof. run. Qed.
(** bitread.rs:435-447 *)
Example le_align_bits : passes LE CHECKBOARD0011 [OpAlign; OpGet64 3; OpAlign; OpGet64 4; OpSkip 1; OpAlign; OpGet64 4]
  [OutUnit; OutWord 3%N; OutUnit; OutWord 3%N; OutUnit; OutUnit; OutWord 3%N].
Proof. run. Qed.
(** bitread.rs:449-456: reading past the end does not panic; the test ignores the value, which is left
    over from before (C14) *)
Example le_overread : passes LE CHECKBOARD0011 [OpSkip (128 * 8 + 2); OpGet64 6] [OutUnit; OutWord 51%N].
Proof. run. Qed.

(** bitread.rs:462-469 *)
Example be_get_bit : passes BE CHECKBOARD0101 [OpGetBit; OpGetBit] [OutBit false; OutBit true].
Proof. run. Qed.
(** bitread.rs:471-483 *)
Example be_get_bits_64 : passes BE CHECKBOARD0101 (map OpGet64 [1; 2; 4; 1; 8; 32; 64]) (words [0; 2; 10; 1; 85; 1431655765; 6148914691236517205]%N).
Proof. run. Qed.
(** bitread.rs:485-500 *)
Example be_get_bits_64_double :
  passes BE CHECKBOARD0101 [OpGet64 64; OpGet64 64] (words [6148914691236517205; 6148914691236517205]%N) /\
  passes BE CHECKBOARD0101 (map OpGet64 [32; 32; 32; 32]) (words [1431655765; 1431655765; 1431655765; 1431655765]%N).
Proof. run. Qed.
(** bitread.rs:502-513 *)
Example be_peek_bits_64 : passes BE CHECKBOARD0101 (map OpPeek64 [1; 1; 2; 2; 32; 64]) (words [0; 0; 1; 1; 1431655765; 6148914691236517205]%N).
Proof. run. Qed.
(** bitread.rs:515-530 *)
Example be_get_bits_32 : passes BE CHECKBOARD0101 (map OpGet32 ([1; 2; 4; 1; 8; 1] ++ repeat 8 8)) (words ([0; 2; 10; 1; 85; 0] ++ repeat 170 8)%N).
Proof. run. Qed.
(** bitread.rs:532-541 *)
Example be_peek_bits_32 : passes BE CHECKBOARD0101 (map OpPeek32 [1; 1; 2; 2]) (words [0; 0; 1; 1]%N).
Proof. run. Qed.
(** bitread.rs:543-554 *)
Example be_skip_bits : passes BE CHECKBOARD0101 [OpSkip 0; OpPeek32 1; OpSkip 2; OpPeek32 1; OpSkip 2; OpPeek32 1]
  [OutUnit; OutWord 0%N; OutUnit; OutWord 0%N; OutUnit; OutWord 0%N].
Proof. run. Qed.
(** bitread.rs:556-568 *)
Example be_align_bits : passes BE CHECKBOARD0011 [OpAlign; OpGet64 3; OpAlign; OpGet64 4; OpSkip 1; OpAlign; OpGet64 4]
  [OutUnit; OutWord 1%N; OutUnit; OutWord 3%N; OutUnit; OutUnit; OutWord 3%N].
Proof. run. Qed.
(** bitread.rs:570-577 *)
Example be_overread : passes BE CHECKBOARD0011 [OpSkip (128 * 8 + 2); OpGet64 6] [OutUnit; OutWord 12%N].
Proof. run. Qed.

(** ** codebook.rs:511-720 *)

(** Reading [n] codewords from the start of a buffer with the codebook of a description. *)
Fixpoint read_symbols {S : Type} (n : nat) (e : endian) (cb : codebook S) (r : reader) : outcome (list (result S codebook_error)) :=
  match n with
  | O => Ret []
  | Datatypes.S n' => let! (r', s) := read_cb e cb r in let! l := read_symbols n' e cb r' in Ret (s :: l)
  end.
Definition decode {S : Type} (e : endian) (m : mode) (rd : desc_reader S) (buf : list N) (n : nat) : outcome (list (result S codebook_error)) :=
  let! c := new_codebook_from (fun _ l => l) rd m in
  match c with
  | Error _ => Panic
  | Okay cb => let! r := new e buf in read_symbols n e cb r
  end.
Fixpoint rc_read_symbols {S : Type} (n : nat) (e : endian) (cb : codebook S) (r : wreader) : outcome (list (result S codebook_error)) :=
  match n with
  | O => Ret []
  | Datatypes.S n' => let! (r', s) := rc_read_cb e cb r in let! l := rc_read_symbols n' e cb r' in Ret (s :: l)
  end.
Definition rc_decode {S : Type} (e : endian) (m : mode) (ds : list (desc S)) (buf : list N) (n : nat) : outcome (list (result S codebook_error)) :=
  let! c := rc_new_codebook (fun _ l => l) ds m in
  match c with
  | Error _ => Panic
  | Okay cb => let! r := rb_new e buf in rc_read_symbols n e cb r
  end.
Definition decodes_short (e : endian) (m : mode) (ds : list short_desc) (buf : list N) (syms : list N) : Prop :=
  decode e m (short_reader ds) buf (length syms) = Ret (map Okay syms) /\
  rc_decode e m (map (fun '(i, d) => mk_desc (sh_code d) (sh_bits d) (N.of_nat i)) (combine (seq 0 (length ds)) ds)) buf (length syms) = Ret (map Okay syms).

Definition BITS : list N := [91; 188; 255; 0; 0; 0; 0; 0]%N.

(** codebook.rs:517-567 *)
Example test_refill_codebook_msb :
  decodes_short BE MSB [mk_short 31 5; mk_short 0 5]
    [248; 62; 15; 131; 224; 248; 62; 15; 128; 0; 0; 0; 0; 0; 0; 0]%N [0; 1; 0; 1; 0; 1; 0; 1; 0; 1; 0; 1; 0; 1]%N.
Proof. run. Qed.
(** codebook.rs:569-607 *)
Example test_full_codebook_msb :
  let ds := [mk_desc 0 1 16; mk_desc 2 2 (-3); mk_desc 6 3 42; mk_desc 14 4 (-42)]%Z in
  decode BE MSB (full_reader ds) BITS 5 = Ret [Okay 16; Okay (-3); Okay 42; Okay (-42); Error InvalidCode]%Z /\
  rc_decode BE MSB ds BITS 5 = Ret [Okay 16; Okay (-3); Okay 42; Okay (-42); Error InvalidCode]%Z.
Proof. run. Qed.
(** codebook.rs:609-662 *)
Example test_short_codebook_msb :
  decodes_short BE MSB [mk_short 0 1; mk_short 0 0; mk_short 2 2; mk_short 0 0; mk_short 0 0; mk_short 6 3; mk_short 0 0; mk_short 28 5;
    mk_short 29 5; mk_short 122 7; mk_short 123 7; mk_short 126 7; mk_short 255 8] BITS [0; 2; 5; 8]%N /\
  reverse_bits 96198527 = Ret 4277919136%N.
Proof. run. Qed.
(** codebook.rs:664-718 *)
Example test_short_codebook_lsb :
  decodes_short LE LSB [mk_short 0 2; mk_short 0 0; mk_short 1 2; mk_short 0 0; mk_short 0 0; mk_short 3 3; mk_short 0 0; mk_short 23 5;
    mk_short 7 5; mk_short 47 7; mk_short 63 7; mk_short 751 10] [239; 114; 1; 0; 0; 0; 0; 0]%N [11; 0; 7; 0]%N.
Proof. run. Qed.

(** ** bytewrite.rs:143-258 *)

(** Writing 1, 2 and a third value at consecutive places and reading each back. *)
Definition put_at {V : Type} (put : list N -> V -> outcome (list N)) (k : nat) (buf : list N) (i : nat) (v : V) : outcome (list N) :=
  let! rest := slice buf (i * k) (length buf) in
  let! rest' := put rest v in
  Ret (firstn (i * k) buf ++ rest').
Definition get_at {V : Type} (get : list N -> outcome V) (k : nat) (buf : list N) (i : nat) : outcome V :=
  let! rest := slice buf (i * k) (length buf) in get rest.
Definition put_and_get {V : Type} (k : nat) (put : list N -> V -> outcome (list N)) (get : list N -> outcome V) (a b c : V) : outcome (V * V * V) :=
  let! buf := put_at put k (repeat 0%N (3 * k)) 0 a in
  let! x := get_at get k buf 0 in
  let! buf := put_at put k buf 1 b in
  let! y := get_at get k buf 1 in
  let! buf := put_at put k buf 2 c in
  let! z := get_at get k buf 2 in
  Ret (x, y, z).

(** bytewrite.rs:143-168 *)
Example put_and_get_8 : put_and_get 1 put_u8 get_u8 1%N 2%N 255%N = Ret (1, 2, 255)%N /\ put_and_get 1 put_i8 get_i8 1%Z 2%Z (-128)%Z = Ret (1, 2, -128)%Z.
Proof. run. Qed.
(** bytewrite.rs:170-206, 257 *)
Example put_and_get_endian :
  put_and_get 2 put_u16b get_u16b 1%N 2%N 255%N = Ret (1, 2, 255)%N /\ put_and_get 2 put_u16l get_u16l 1%N 2%N 255%N = Ret (1, 2, 255)%N /\
  put_and_get 2 put_i16b get_i16b 1%Z 2%Z 255%Z = Ret (1, 2, 255)%Z /\ put_and_get 2 put_i16l get_i16l 1%Z 2%Z 255%Z = Ret (1, 2, 255)%Z /\
  put_and_get 4 put_u32b get_u32b 1%N 2%N 255%N = Ret (1, 2, 255)%N /\ put_and_get 4 put_u32l get_u32l 1%N 2%N 255%N = Ret (1, 2, 255)%N /\
  put_and_get 4 put_i32b get_i32b 1%Z 2%Z 255%Z = Ret (1, 2, 255)%Z /\ put_and_get 4 put_i32l get_i32l 1%Z 2%Z 255%Z = Ret (1, 2, 255)%Z /\
  put_and_get 8 put_u64b get_u64b 1%N 2%N 255%N = Ret (1, 2, 255)%N /\ put_and_get 8 put_u64l get_u64l 1%N 2%N 255%N = Ret (1, 2, 255)%N /\
  put_and_get 8 put_i64b get_i64b 1%Z 2%Z 255%Z = Ret (1, 2, 255)%Z /\ put_and_get 8 put_i64l get_i64l 1%Z 2%Z 255%Z = Ret (1, 2, 255)%Z.
Proof. run. Qed.
(** bytewrite.rs:208-255, 258: floats are their bit patterns, here those of 1, 2 and 255 *)
Example put_and_get_float :
  put_and_get 4 put_f32b get_f32b 1065353216%N 1073741824%N 1132396544%N = Ret (1065353216, 1073741824, 1132396544)%N /\
  put_and_get 4 put_f32l get_f32l 1065353216%N 1073741824%N 1132396544%N = Ret (1065353216, 1073741824, 1132396544)%N /\
  put_and_get 8 put_f64b get_f64b 4607182418800017408%N 4611686018427387904%N 4643176031446892544%N =
    Ret (4607182418800017408, 4611686018427387904, 4643176031446892544)%N /\
  put_and_get 8 put_f64l get_f64l 4607182418800017408%N 4611686018427387904%N 4643176031446892544%N =
    Ret (4607182418800017408, 4611686018427387904, 4643176031446892544)%N.
Proof. run. Qed.
