(** Properties C158 and C159: codebooks for any width of [usize]. *)
From Coq Require Import List Arith NArith Bool.
From Verif Require Import Base BitModel BitSpec WordBitModel CodebookModel CodebookSpec CodebookExamples ReleaseCbModel ReleaseCbSpec.
From Verif Require Import MachineModel MachineBitModel MachineBitSpec MachineCbModel MachineCbSpec MachineCbExamples MachineCbProofs3 MachineCbProofs4.
Import ListNotations.
Local Open Scope N_scope.

(** C158: from any description, prefix-free or not, construction gives on every width of
    [usize] from 32 bits on what it gives on unlimited counters - codebook, error or panic -
    unless that is a codebook that cannot be allocated; then it panics. *)
Theorem C158_construction_any_width : forall (S : Type) mc grants sym_grants ord m (ds : list (desc S)), 32 <= bits mc -> honest mc grants ->
  permuting ord -> lengths_u8 ds -> codes_u32 ds -> N.of_nat (length ds) < 2 ^ bits mc ->
  let y := if checked mc then new_codebook ord ds m else rc_new_codebook ord ds m in
  mk_new_codebook mc grants sym_grants ord ds m = y \/
  (mk_new_codebook mc grants sym_grants ord ds m = Panic /\ exists cb, y = Ret (Okay cb) /\ too_big grants sym_grants cb).
Proof. exact @construct_any. Qed.
Print Assumptions C158_construction_any_width.

(** On 32 bits: 4136 entries and six symbols; one less of either is not enough.  The last
    description is no code, and construction panics. *)
Example C158_example : exists cb, new_codebook (fun _ cc => cc) (demo_desc LSB) LSB = Ret (Okay cb) /\ length (cb_table cb) = 4136%nat /\
  honest wasm32 (upto 4136) /\ codes_u32 (demo_desc LSB) /\
  mk_new_codebook wasm32 (upto 4136) (upto 6) (fun _ cc => cc) (demo_desc LSB) LSB = Ret (Okay cb) /\
  mk_new_codebook wasm32 (upto 4135) (upto 6) (fun _ cc => cc) (demo_desc LSB) LSB = Panic /\
  mk_new_codebook wasm32 (upto 4136) (upto 5) (fun _ cc => cc) (demo_desc LSB) LSB = Panic /\
  (let ds := [mk_desc 0 1 10%nat; mk_desc 2047 11 20%nat; mk_desc 1 1 30%nat; mk_desc 4095 11 40%nat] in
   mk_new_codebook wasm32 (upto 5000) (upto 5) (fun _ cc => cc) ds MSB = Panic /\ new_codebook (fun _ cc => cc) ds MSB = Panic /\
   mk_new_codebook wasm32_release (upto 5000) (upto 5) (fun _ cc => cc) ds MSB = Panic /\ rc_new_codebook (fun _ cc => cc) ds MSB = Panic).
Proof. exact machine_cb_example. Qed.

(** C159: a codebook built on such a machine, given the memory for its table and symbols,
    decodes there every legal history over buffers of less than 2^32 - 6912 bits. *)
Theorem C159_build_and_decode : forall (S : Type) mc grants sym_grants ord m (ds : list (desc S)), 32 <= bits mc -> checked mc = true \/ bits mc <= 64 ->
  honest mc grants -> permuting ord -> valid_description m ds -> codes_u32 ds -> N.of_nat (length ds) < 2 ^ bits mc -> (exists d, In d ds /\ used d) ->
  (forall n, n <= table_entries (words m ds) -> grants n = true) -> sym_grants (N.of_nat (length (words m ds))) = true ->
  exists cb, mk_new_codebook mc grants sym_grants ord ds m = Ret (Okay cb) /\
  forall buf steps, bytes buf -> (8 <= length buf)%nat -> 8 * N.of_nat (length buf) + 6912 < 2 ^ 32 ->
  steps_within m ds (bits_of (reader_for m) buf) (8 * length buf - 64) 0 steps ->
  exists r, mb_mixed_from_new mc (reader_for m) cb buf steps = Ret (r, snd (spec_steps m (bits_of (reader_for m) buf) 0 steps)).
Proof. exact build_and_decode. Qed.
Print Assumptions C159_build_and_decode.

(** The history of C15 on 32 bits, with and without overflow checks. *)
Example C159_example : forall c m, valid_description m (demo_desc m) /\ table_entries (words m (demo_desc m)) = 4136 /\
  exists cb r, mk_new_codebook (mk_machine 32 c) (upto 4136) (upto 6) (fun _ cc => cc) (demo_desc m) m = Ret (Okay cb) /\
  mb_mixed_from_new (mk_machine 32 c) (reader_for m) cb (demo_stream m) (demo_steps m) =
    Ret (r, [Sym (Okay 30%nat); Out (OutCount 12); Sym (Okay 50%nat); Sym (Okay 10%nat); Out (OutBit true); Sym (Okay 40%nat); Out OutUnit; Sym (Okay 20%nat)]).
Proof. exact machine_decode_example. Qed.
