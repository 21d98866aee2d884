(** Property C172: codewords that are prefixes of others. *)
From Coq Require Import List Arith NArith Bool Permutation.
From Verif Require Import Base BitModel BitSpec BitQueueSpec CodebookModel CodebookSpec CbQueueSpec CbLevelSpec CbShadowSpec
  CbShadowProofs.
Import ListNotations.

(** C172: let codewords be prefixes of others, except that where one of at most ten bits is a prefix of
    a longer one, a longer one with these first ten bits must come before it.  This covers the
    descriptions of C171, and all those that list the codewords of more than ten bits first. *)
Theorem C172_covers : forall (S : Type) m (ds : list (desc S)), same_level m ds \/ long_first ds -> unblocked m ds.
Proof. exact shadow_covers. Qed.
Print Assumptions C172_covers.

(** Such a codebook is constructed, with as many table entries as one of distinct codewords. *)
Theorem C172_constructed : forall (S : Type) ord m (ds : list (desc S)), permuting ord -> codes_fit m ds -> unblocked m ds ->
  small_enough m ds -> (exists d, In d ds /\ used d) ->
  exists cb, new_codebook ord ds m = Ret (Okay cb) /\ N.of_nat (length (cb_table cb)) = table_entries (words m ds).
Proof. exact any_constructed. Qed.
Print Assumptions C172_constructed.

(** In any history of calls with documented arguments and codeword reads, on any buffer, with either
    reader, the tables decode exactly like the bit queue with its set of pending codewords: in the first
    ten bits a complete codeword counts, in all others the longer ones do, and of several complete ones
    the last.  They panic exactly when that does. *)
Theorem C172_any_queue_exact : forall (S : Type) ord m (ds : list (desc S)) cb e buf steps,
  permuting ord -> codes_fit m ds -> unblocked m ds -> small_enough m ds -> new_codebook ord ds m = Ret (Okay cb) ->
  bytes buf -> Forall step_ok steps ->
  exists r0, new e buf = Ret r0 /\
  match q_mixed_any e m ds buf steps with
  | Some (q, outs) => exists r, run_mixed e cb r0 steps = Ret (r, outs) /\
      left r = length (waiting q) /\ consumed r = Ret (fetched q - length (waiting q))
  | None => run_mixed e cb r0 steps = Panic
  end.
Proof. exact any_queue_exact. Qed.
Print Assumptions C172_any_queue_exact.

(** What is read does not depend on the iteration order of the hash maps, whatever the calls. *)
Theorem C172_order_independent : forall (S : Type) ord1 ord2 m (ds : list (desc S)) cb1 cb2 e buf r0 steps,
  permuting ord1 -> permuting ord2 -> codes_fit m ds -> unblocked m ds -> small_enough m ds ->
  new_codebook ord1 ds m = Ret (Okay cb1) -> new_codebook ord2 ds m = Ret (Okay cb2) ->
  bytes buf -> new e buf = Ret r0 ->
  run_mixed e cb1 r0 steps = run_mixed e cb2 r0 steps.
Proof. exact order_any. Qed.
Print Assumptions C172_order_independent.

(** The words 1^22, 000000000011, 00000 and 1^15: not a description of C171. *)
Example C172_nested_example : unblocked MSB nested /\ codes_fit MSB nested /\ ~ same_level MSB nested.
Proof.
  split; [|split].
  - intros i j a b Ha Hb Hu Hs Hl [x Hx].
    destruct i as [|[|[|[|i]]]]; [| | | |destruct i; discriminate Ha]; injection Ha as <-;
      try (apply Nat.leb_le in Hs; discriminate Hs).
    destruct j as [|[|[|[|j]]]]; [| | | |destruct j; discriminate Hb]; injection Hb as <-; try discriminate Hx.
    + exists 1, (mk_desc 3%N 12 2). split; [repeat constructor|]. split; [reflexivity|]. split; [apply Nat.leb_le; reflexivity|reflexivity].
    + apply Nat.leb_le in Hl. discriminate Hl.
  - intros d Hd _. cbn in Hd.
    destruct Hd as [<-|[<-|[<-|[<-|[]]]]]; (split; [apply Nat.leb_le; reflexivity|split; reflexivity]).
  - intros H. specialize (H (mk_desc 0%N 5 3) (mk_desc 3%N 12 2)).
    discriminate H.
    + right. right. left. reflexivity.
    + right. left. reflexivity.
    + apply Nat.leb_le. reflexivity.
    + apply Nat.leb_le. reflexivity.
    + exists [false; false; false; false; false; true; true]. reflexivity.
Qed.

(** 1^15 0 and 1^22 are read; the 12-bit word never is, the 5-bit word comes first; and 1^20 00 is
    rejected although the 15-bit word comes next. *)
Example C172_example : exists cb r1 r2 r3 s1 s2 s3,
  new_codebook (fun _ cc => cc) nested MSB = Ret (Okay cb) /\
  new BE ([255; 254; 0; 48]%N ++ repeat 0%N 14) = Ret r1 /\
  run_mixed BE cb r1 [word_step; Call (OpSkip 1); word_step; Call OpConsumed]
    = Ret (s1, [Sym (Okay 4); Out OutUnit; Sym (Okay 3); Out (OutCount 21)]) /\
  new BE ([255; 255; 252]%N ++ repeat 0%N 14) = Ret r2 /\
  run_mixed BE cb r2 [word_step; Call OpConsumed] = Ret (s2, [Sym (Okay 1); Out (OutCount 22)]) /\
  new BE ([255; 255; 240]%N ++ repeat 0%N 14) = Ret r3 /\
  run_mixed BE cb r3 [word_step] = Ret (s3, [Sym (Error InvalidCode)]) /\
  option_map snd (q_mixed_any BE MSB nested ([255; 255; 240]%N ++ repeat 0%N 14) [word_step]) = Some [Sym (Error InvalidCode)].
Proof.
  eexists _, _, _, _, _, _, _. split; [vm_compute; reflexivity|]. split; [vm_compute; reflexivity|].
  split; [vm_compute; reflexivity|]. split; [vm_compute; reflexivity|]. split; [vm_compute; reflexivity|].
  split; [vm_compute; reflexivity|]. split; vm_compute; reflexivity.
Qed.
