(** Properties C138, C139 and C140: the bit reader and codeword reads for any width of [usize]. *)
From Coq Require Import List Arith NArith ZArith Bool.
From Verif Require Import Base BitModel BitSpec BitQueueSpec BitMain WordBitModel WordSpec ReleaseBitModel ReleaseBitSpec.
From Verif Require Import CodebookModel CodebookSpec CodebookExamples ReleaseCbModel ReleaseCbSpec.
From Verif Require Import MachineModel MachineBitModel MachineBitSpec MachineBitProofs MachineBitProofs2 MachineBitProofs3 MachineBitProofs4.
Import ListNotations.
Local Open Scope N_scope.

(** C138: with overflow checks, on every width of [usize] from 8 bits on, reading does what
    the reader on unlimited counters does, panics included: for any buffer and any arguments
    that leave 64 bytes of the address space.  [consumed] and [available] may take part if
    the bits themselves can be counted. *)
Theorem C138_checked_any_width : forall m, checked m = true -> 8 <= bits m ->
  forall e buf ops, N.of_nat (length buf) + total_skip ops / 8 + 64 < 2 ^ bits m -> Forall (arg_on m) ops ->
  Forall reads ops \/ 8 * N.of_nat (length buf) + total_skip ops < 2 ^ bits m ->
  mb_run_from_new m e buf ops = (let! (r, outs) := run_from_new e buf ops in Ret (word_reader r, outs)).
Proof. exact run_any. Qed.
Print Assumptions C138_checked_any_width.

(** Without them it does what it does on 64 bits, and counts are those on 64 bits modulo
    the width. *)
Theorem C138_unchecked_any_width : forall m, checked m = false -> 8 <= bits m -> bits m <= 64 ->
  forall e buf ops, N.of_nat (length buf) + total_skip ops / 8 + 64 < 2 ^ bits m -> Forall (arg_on m) ops ->
  mb_run_from_new m e buf ops = (let! (r, outs) := rb_run_from_new e buf ops in Ret (r, map (narrow m) outs)).
Proof. exact run_off. Qed.
Print Assumptions C138_unchecked_any_width.

(** So with documented arguments it is the bit queue and never panics. *)
Theorem C138_unchecked_queue : forall m e buf ops, checked m = false -> 8 <= bits m -> bits m <= 64 ->
  bytes buf -> Forall op_ok ops -> Forall (arg_on m) ops ->
  N.of_nat (length buf) + total_skip ops / 8 + 64 < 2 ^ bits m -> 8 * N.of_nat (length buf) + total_skip ops < 2 ^ 64 ->
  exists r, mb_run_from_new m e buf ops = Ret (r, map (narrow m) (snd (rq_run e buf ops))) /\
    w_left r = N.of_nat (length (waiting (fst (rq_run e buf ops)))).
Proof. exact queue_any. Qed.
Print Assumptions C138_unchecked_queue.

(** The machine with 64 bits and overflow checks is that of C95. *)
Theorem C138_on_64_bits : forall e buf ops, mb_run_from_new x86_64 e buf ops = w_run_from_new e buf ops.
Proof. exact run_64. Qed.
Print Assumptions C138_on_64_bits.

(** Nine bits of [usize] are enough for the 40 bytes of the other examples; a skip too far
    gives a count modulo 2^9 in a build without overflow checks. *)
Example C138_example :
  Forall (arg_on (mk_machine 9 true)) [OpGet32 32; OpGet64 60; OpSkip 9; OpGet64 3; OpAvailable] /\
  (exists r, mb_run_from_new (mk_machine 9 true) BE demo_buf [OpGet32 32; OpGet64 60; OpSkip 9; OpGet64 3; OpAvailable]
    = Ret (r, [OutWord 625635220; OutWord 837071613342460283; OutUnit; OutWord 1; OutCount 216])) /\
  (exists r, mb_run_from_new (mk_machine 9 false) BE demo_buf [OpSkip 400; OpAvailable] = Ret (r, [OutUnit; OutCount 496])) /\
  (exists r, rb_run_from_new BE demo_buf [OpSkip 400; OpAvailable] = Ret (r, [OutUnit; OutCount (N.to_nat (2 ^ 64 - 16))])).
Proof.
  split; [repeat constructor|]. split; [eexists; vm_compute; reflexivity|]. split; [eexists; vm_compute; reflexivity|].
  eexists. unfold rb_run_from_new. destruct (rb_new BE demo_buf) as [r| |] eqn:E; [|discriminate E..]. vm_compute in E. injection E as <-.
  cbn [obind rb_run_ops rb_run_op]. match goal with |- context [rb_skip_bits ?a ?b ?c] => let x := eval vm_compute in (rb_skip_bits a b c) in change (rb_skip_bits a b c) with x end.
  cbn [obind]. match goal with |- context [rb_available ?a] => let x := eval vm_compute in (rb_available a) in change (rb_available a) with x end. reflexivity.
Qed.

(** C139: [available] counts the bits of a new reader.  With 32 bits of [usize] it does not
    from 2^29 bytes on: with overflow checks it panics, without them 2^32 bits are none. *)
Theorem C139_available_refuted : exists e buf, bytes buf /\ N.of_nat (length buf) < 2 ^ 31 /\
  (exists r, run_from_new e buf [OpAvailable] = Ret (r, [OutCount (8 * length buf)])) /\
  mb_run_from_new wasm32 e buf [OpAvailable] = Panic /\
  (exists r, mb_run_from_new wasm32_release e buf [OpAvailable] = Ret (r, [OutCount 0])).
Proof. exact available_refuted. Qed.
Print Assumptions C139_available_refuted.

(** Exactly when they count, at the end of any history, with overflow checks: [available]
    when the count fits, [consumed] when the bits fetched so far - up to 64 more - fit.
    (Without overflow checks the counts are those of C138.) *)
Theorem C139_checked_counts_partial : forall m e buf ops r outs, checked m = true -> 8 <= bits m ->
  N.of_nat (length buf) + total_skip ops / 8 + 64 < 2 ^ bits m -> Forall (arg_on m) ops -> Forall reads ops ->
  run_from_new e buf ops = Ret (r, outs) ->
  mb_run_from_new m e buf (ops ++ [OpConsumed]) =
    (if 8 * N.of_nat (index r) <? 2 ^ bits m then let! c := consumed r in Ret (word_reader r, outs ++ [OutCount c]) else Panic) /\
  mb_run_from_new m e buf (ops ++ [OpAvailable]) =
    (let! a := available r in if N.of_nat a <? 2 ^ bits m then Ret (word_reader r, outs ++ [OutCount a]) else Panic).
Proof. exact counts_any. Qed.
Print Assumptions C139_checked_counts_partial.

(** With 8 bits, 40 bytes: 320 bits cannot be counted, but after 100 bits the other 220 can. *)
Example C139_example :
  mb_run_from_new (mk_machine 8 true) LE demo_buf [OpAvailable] = Panic /\
  (exists r, mb_run_from_new (mk_machine 8 true) LE demo_buf [OpSkip 100; OpAvailable] = Ret (r, [OutUnit; OutCount 220])) /\
  (exists r, mb_run_from_new (mk_machine 8 false) LE demo_buf [OpAvailable] = Ret (r, [OutCount 64])).
Proof. split; [vm_compute; reflexivity|]. split; eexists; vm_compute; reflexivity. Qed.

(** C140: a codeword that stands at the start of a stream is read.  With 32 bits of [usize]
    and overflow checks a read from 2^29 bytes panics, as [available] does. *)
Theorem C140_codeword_refuted : exists ord (ds : list (desc nat)) cb buf d, permuting ord /\ valid_description MSB ds /\ new_codebook ord ds MSB = Ret (Okay cb) /\
  bytes buf /\ N.of_nat (length buf) < 2 ^ 31 /\ In d ds /\ window (bits_of BE buf) 0 (d_bits d) = word MSB d /\
  mb_mixed_from_new wasm32 BE cb buf [Codeword d] = Panic /\
  exists r, mb_mixed_from_new wasm32_release BE cb buf [Codeword d] = Ret (r, [Sym (Error InvalidCode)]).
Proof. exact codeword_refuted. Qed.
Print Assumptions C140_codeword_refuted.

(** When the bits can be counted, calls and codeword reads in any order, with any table, do
    what they do on unlimited counters. *)
Theorem C140_checked_histories_partial : forall m, checked m = true -> 32 <= bits m ->
  forall (S : Type) (cb : codebook S), N.of_nat (length (cb_table cb)) < 2 ^ bits m -> (cb_lut_bits cb < 256)%nat ->
  forall e buf steps, 8 * N.of_nat (length buf) + steps_skip steps < 2 ^ bits m -> Forall (step_arg_on m) steps ->
  mb_mixed_from_new m e cb buf steps = (let! (r, outs) := mixed_from_new e cb buf steps in Ret (word_reader r, outs)).
Proof. exact histories_any. Qed.
Print Assumptions C140_checked_histories_partial.

(** Without overflow checks whatever a build for 64 bits delivers is delivered on any width
    from 32 bits on, from buffers of any length the machine has. *)
Theorem C140_unchecked_histories_partial : forall m, checked m = false -> 32 <= bits m -> bits m <= 64 ->
  forall (S : Type) (cb : codebook S), N.of_nat (length (cb_table cb)) < 2 ^ bits m -> (cb_lut_bits cb < 256)%nat ->
  forall e buf steps r outs, N.of_nat (length buf) + steps_skip steps / 8 + 64 < 2 ^ bits m -> Forall (step_arg_on m) steps ->
  rc_mixed_from_new e cb buf steps = Ret (r, outs) -> mb_mixed_from_new m e cb buf steps = Ret (r, map (narrow_step m) outs).
Proof. exact histories_off. Qed.
Print Assumptions C140_unchecked_histories_partial.

Example C140_example : exists cb r, new_codebook (fun _ cc => cc) (demo_desc MSB) MSB = Ret (Okay cb) /\
  mb_mixed_from_new wasm32 BE cb (demo_stream MSB) (demo_steps MSB) = Ret (r, snd (spec_steps MSB (bits_of BE (demo_stream MSB)) 0 (demo_steps MSB))) /\
  mb_mixed_from_new wasm32_release BE cb (demo_stream MSB) (demo_steps MSB) = Ret (r, snd (spec_steps MSB (bits_of BE (demo_stream MSB)) 0 (demo_steps MSB))).
Proof. eexists _, _. split; [vm_compute; reflexivity|]. split; vm_compute; reflexivity. Qed.
