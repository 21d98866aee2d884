(** Property C171: clashing codewords that end in the same ten bits. *)
From Coq Require Import List Arith NArith Bool Permutation.
From Verif Require Import Base BitModel BitSpec BitQueueSpec CodebookModel CodebookSpec CbQueueSpec CbMalformedSpec CbLevelSpec
  CodebookProofs5 CbLevelProofs.
Import ListNotations.

(** C171: let a codeword be a prefix of, or equal to, another one only if both end in the same ten
    bits.  Prefix-free descriptions are such, and descriptions with codewords of at most ten bits. *)
Theorem C171_covers : forall (S : Type) m (ds : list (desc S)),
  prefix_free m ds \/ (forall d, In d ds -> d_bits d <= 10) -> same_level m ds.
Proof. exact level_covers. Qed.
Print Assumptions C171_covers.

(** In any history of calls with documented arguments and codeword reads, on any buffer, with either
    reader, the tables decode exactly like the bit queue with its set of pending codewords, of which the
    last one that is complete counts, and panic exactly when that does. *)
Theorem C171_last_match_queue_exact : forall (S : Type) ord m (ds : list (desc S)) cb e buf steps,
  permuting ord -> codes_fit m ds -> same_level m ds -> small_enough m ds -> new_codebook ord ds m = Ret (Okay cb) ->
  bytes buf -> Forall step_ok steps ->
  exists r0, new e buf = Ret r0 /\
  match q_mixed_last e m ds buf steps with
  | Some (q, outs) => exists r, run_mixed e cb r0 steps = Ret (r, outs) /\
      left r = length (waiting q) /\ consumed r = Ret (fetched q - length (waiting q))
  | None => run_mixed e cb r0 steps = Panic
  end.
Proof. exact last_queue_exact. Qed.
Print Assumptions C171_last_match_queue_exact.

(** 9 bytes away from the end of the buffer this means: each read returns the symbol of the last entry
    of the description whose codeword comes next, and skips that codeword ... *)
Theorem C171_last_match_histories : forall (S : Type) ord m (ds : list (desc S)) cb buf steps,
  permuting ord -> codes_fit m ds -> same_level m ds -> small_enough m ds -> new_codebook ord ds m = Ret (Okay cb) ->
  bytes buf -> 9 <= length buf -> (N.of_nat (8 * length buf) < 2 ^ 32)%N ->
  steps_last m ds (bits_of (reader_for m) buf) (8 * length buf - 72) 0 steps ->
  exists r0 r, new (reader_for m) buf = Ret r0 /\
    run_mixed (reader_for m) cb r0 steps = Ret (r, snd (spec_steps m (bits_of (reader_for m) buf) 0 steps)) /\
    consumed r = Ret (fst (spec_steps m (bits_of (reader_for m) buf) 0 steps)).
Proof. exact last_histories. Qed.
Print Assumptions C171_last_match_histories.

(** ... and fails if none comes next. *)
Theorem C171_unmatched_rejected : forall (S : Type) ord m (ds : list (desc S)) cb buf steps r0 r outs p,
  permuting ord -> codes_fit m ds -> same_level m ds -> small_enough m ds -> new_codebook ord ds m = Ret (Okay cb) ->
  bytes buf -> 9 <= length buf -> (N.of_nat (8 * length buf) < 2 ^ 32)%N ->
  steps_last m ds (bits_of (reader_for m) buf) (8 * length buf - 72) 0 steps ->
  new (reader_for m) buf = Ret r0 -> run_mixed (reader_for m) cb r0 steps = Ret (r, outs) ->
  p = fst (spec_steps m (bits_of (reader_for m) buf) 0 steps) ->
  (forall d, In d ds -> used d -> p + d_bits d + 64 <= 8 * length buf) ->
  last_match m ds (skipn p (bits_of (reader_for m) buf)) = None ->
  exists r', read_cb (reader_for m) cb r = Ret (r', Error InvalidCode).
Proof. exact last_unmatched. Qed.
Print Assumptions C171_unmatched_rejected.

(** What is read does not depend on the iteration order of the hash maps, whatever the calls. *)
Theorem C171_order_independent : forall (S : Type) ord1 ord2 m (ds : list (desc S)) cb1 cb2 e buf r0 steps,
  permuting ord1 -> permuting ord2 -> codes_fit m ds -> same_level m ds -> small_enough m ds ->
  new_codebook ord1 ds m = Ret (Okay cb1) -> new_codebook ord2 ds m = Ret (Okay cb2) ->
  bytes buf -> new e buf = Ret r0 ->
  run_mixed e cb1 r0 steps = run_mixed e cb2 r0 steps.
Proof. exact order_levels. Qed.
Print Assumptions C171_order_independent.

(** Two descriptions with the words 0, 01, 10000000001 and 100000000010. *)
Example C171_same_level_example : forall b, same_level MSB (clash b) /\ codes_fit MSB (clash b) /\ ~ prefix_free MSB (clash b).
Proof.
  intros b. split; [|split].
  - intros d d' Hd Hd' _ _ [x Hx]. destruct b; cbn in Hd, Hd';
      (destruct Hd as [<-|[<-|[<-|[<-|[]]]]]; destruct Hd' as [<-|[<-|[<-|[<-|[]]]]]; (reflexivity || (exfalso; discriminate Hx))).
  - intros d Hd _. destruct b; cbn in Hd; (destruct Hd as [<-|[<-|[<-|[<-|[]]]]]; (split; [apply Nat.leb_le; reflexivity|split; reflexivity])).
  - intros H. destruct b.
    + apply (H 0 1 _ _ eq_refl eq_refl); [discriminate|repeat constructor|repeat constructor|]. exists [true]. reflexivity.
    + apply (H 1 0 _ _ eq_refl eq_refl); [discriminate|repeat constructor|repeat constructor|]. exists [true]. reflexivity.
Qed.

(** 100000000010 01 0...: in the one order the symbols 40 and 20 follow, in the other 30, 10
    and 10. *)
Example C171_example : exists cb cb' r0 r r' outs,
  new_codebook (fun _ cc => cc) (clash true) MSB = Ret (Okay cb) /\
  new_codebook (fun _ cc => cc) (clash false) MSB = Ret (Okay cb') /\
  new BE ([128; 36]%N ++ repeat 255%N 14) = Ret r0 /\
  run_mixed BE cb r0 [Codeword (mk_desc 0%N 0 0); Codeword (mk_desc 0%N 0 0)] = Ret (r, [Sym (Okay 40); Sym (Okay 20)]) /\
  consumed r = Ret 14 /\
  run_mixed BE cb' r0 [Codeword (mk_desc 0%N 0 0); Codeword (mk_desc 0%N 0 0); Codeword (mk_desc 0%N 0 0)] = Ret (r', outs) /\
  outs = [Sym (Okay 30); Sym (Okay 10); Sym (Okay 10)] /\
  last_match MSB (clash true) (bits_of BE [128; 36]%N) = Some (mk_desc 2050%N 12 40) /\
  last_match MSB (clash false) (bits_of BE [128; 36]%N) = Some (mk_desc 1025%N 11 30) /\
  option_map snd (q_mixed_last BE MSB (clash false) ([128; 36]%N ++ repeat 255%N 14)
    [Codeword (mk_desc 0%N 0 0); Call OpConsumed; Codeword (mk_desc 0%N 0 0)])
    = Some [Sym (Okay 30); Out (OutCount 11); Sym (Okay 10)].
Proof.
  eexists _, _, _, _, _, _. split; [vm_compute; reflexivity|]. split; [vm_compute; reflexivity|].
  split; [vm_compute; reflexivity|]. split; [vm_compute; reflexivity|]. split; [vm_compute; reflexivity|].
  split; [vm_compute; reflexivity|]. split; [reflexivity|]. split; [vm_compute; reflexivity|]. split; vm_compute; reflexivity.
Qed.
