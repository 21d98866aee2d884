(** C196. *)
From Coq Require Import List Arith NArith Bool.
From Verif Require Import Base BitModel BitSpec CodebookModel CodebookSpec ShiftSpec ShiftProofs.
Import ListNotations.
Local Open Scope nat_scope.

(** C196: a reader that has come to a byte boundary, in whichever way, reads on like a new reader
    of the bytes from there, codewords included; only [consumed] counts from elsewhere. *)
Theorem C196_start_later : forall (S : Type) ord m (ds : list (desc S)) cb buf o before steps,
  permuting ord -> valid_description m ds -> new_codebook ord ds m = Ret (Okay cb) ->
  bytes buf -> o + 8 <= length buf -> (N.of_nat (8 * length buf) < 2 ^ 32)%N ->
  steps_within m ds (bits_of (reader_for m) buf) (8 * length buf - 64) 0 before -> fst (spec_steps m (bits_of (reader_for m) buf) 0 before) = 8 * o ->
  steps_within m ds (bits_of (reader_for m) (skipn o buf)) (8 * length (skipn o buf) - 64) 0 steps ->
  exists r0 r1 r2 q0 q1 earlier outs,
    new (reader_for m) (skipn o buf) = Ret q0 /\ run_mixed (reader_for m) cb q0 steps = Ret (q1, outs) /\
    new (reader_for m) buf = Ret r0 /\ run_mixed (reader_for m) cb r0 before = Ret (r1, earlier) /\
    run_mixed (reader_for m) cb r1 steps = Ret (r2, shift_outs (8 * o) steps outs) /\
    exists c, consumed q1 = Ret c /\ consumed r2 = Ret (8 * o + c).
Proof. exact start_later. Qed.
Print Assumptions C196_start_later.

(** Up to the end of the buffer it is false: the reader of all 13 bytes has 0 for the ninth, the
    reader of the last 12 has its value. *)
Theorem C196_near_the_end_refuted : exists e buf o before after r r1 q before_outs outs outs', bytes buf /\ o < length buf /\
  run_from_new e buf before = Ret (r, before_outs) /\ consumed r = Ret (8 * o) /\
  run_from_new e buf (before ++ after) = Ret (r1, before_outs ++ outs) /\
  run_from_new e (skipn o buf) after = Ret (q, outs') /\
  fst (spec_ops e (bits_of e buf) 0 (before ++ after)) <= 8 * length buf /\ ~ In OpConsumed after /\ outs <> outs'.
Proof. exact start_later_end. Qed.
Print Assumptions C196_near_the_end_refuted.

Example C196_example : let ds := [mk_desc 0 1 7; mk_desc 2 2 8; mk_desc 3 2 9] in
  let buf := ([1; 2; 3; 0xb5; 0x6c; 9; 200] ++ repeat 85 10)%N in
  let c := Codeword (mk_desc 0 1 7) in let before : list (step nat) := [Call (OpGet32 5); Call (OpSkip 12); Call OpAlign] in
  let steps := [c; Call OpConsumed; c; Call (OpGet32 6); Call OpAvailable; c; Call OpAlign; Call OpConsumed] in
  exists cb r0 r1 r2 q0 q1 earlier, new_codebook (fun _ cc => cc) ds MSB = Ret (Okay cb) /\
    new BE (skipn 3 buf) = Ret q0 /\
    run_mixed BE cb q0 steps = Ret (q1, [Sym (Okay 8); Out (OutCount 2); Sym (Okay 9); Out (OutWord 21); Out (OutCount 102); Sym (Okay 8); Out OutUnit; Out (OutCount 16)]) /\
    new BE buf = Ret r0 /\ run_mixed BE cb r0 before = Ret (r1, earlier) /\
    run_mixed BE cb r1 steps = Ret (r2, [Sym (Okay 8); Out (OutCount 26); Sym (Okay 9); Out (OutWord 21); Out (OutCount 102); Sym (Okay 8); Out OutUnit; Out (OutCount 40)]).
Proof.
  eexists. eexists. eexists. eexists. eexists. eexists. eexists.
  split; [vm_compute; reflexivity|]. split; [vm_compute; reflexivity|]. split; [vm_compute; reflexivity|].
  split; [vm_compute; reflexivity|]. split; [vm_compute; reflexivity|]. vm_compute. reflexivity.
Qed.
