(** Property C173: any codewords at all. *)
From Coq Require Import List Arith NArith Bool Permutation.
From Verif Require Import Base BitModel BitSpec BitQueueSpec CodebookModel CodebookSpec CbQueueSpec CbLevelSpec CbShadowSpec
  CbFullSpec CbFullProofs.
Import ListNotations.

(** C173: whichever codewords are prefixes of others, a codebook is constructed, with at most as many
    table entries as one of distinct codewords.  It decodes exactly like the bit queue with its set of
    pending codewords, except that the codewords that begin with a blocked string (ten bits that a
    codeword of at most ten bits is the first one to match) are looked for in the wrong place, in some
    order of these strings. *)
Theorem C173_exact : forall (S : Type) ord m (ds : list (desc S)), permuting ord -> codes_fit m ds -> small_enough m ds ->
  (exists d, In d ds /\ used d) ->
  exists cb ks, new_codebook ord ds m = Ret (Okay cb) /\ (N.of_nat (length (cb_table cb)) <= table_entries (words m ds))%N /\
    Permutation ks (blocked_keys m ds) /\ reads_like m ds ks cb.
Proof. exact full_exact. Qed.
Print Assumptions C173_exact.

(** Each order of these strings is that of some iteration order of the hash maps. *)
Theorem C173_every_order : forall (S : Type) m (ds : list (desc S)) ks, codes_fit m ds -> small_enough m ds ->
  (exists d, In d ds /\ used d) -> Permutation ks (blocked_keys m ds) ->
  exists ord cb, permuting ord /\ new_codebook ord ds m = Ret (Okay cb) /\ reads_like m ds ks cb.
Proof. exact full_every_order. Qed.
Print Assumptions C173_every_order.

(** With at most one blocked string the order does not matter. *)
Theorem C173_one_blocked : forall (S : Type) ord m (ds : list (desc S)) cb, permuting ord -> codes_fit m ds -> small_enough m ds ->
  length (blocked_keys m ds) <= 1 -> new_codebook ord ds m = Ret (Okay cb) -> reads_like m ds (blocked_keys m ds) cb.
Proof. exact one_blocked. Qed.
Print Assumptions C173_one_blocked.

(** The descriptions of C172 are those without blocked strings ... *)
Theorem C173_unblocked : forall (S : Type) m (ds : list (desc S)), unblocked m ds <-> blocked_keys m ds = [].
Proof. exact unblocked_keys. Qed.
Print Assumptions C173_unblocked.

(** ... and for these it is the same search. *)
Theorem C173_same_search : forall (S : Type) e m (ds : list (desc S)) buf steps,
  q_mixed_full [] e m ds buf steps = q_mixed_any e m ds buf steps.
Proof. exact full_any. Qed.
Print Assumptions C173_same_search.

(** The words 1, 10000000001, 11000000001 and 00: the last bits of both long words are looked for where
    the ten bits 0000000001 come next, and which of the two is found depends on the order. *)
Example C173_example : exists cb1 cb2 r s1 s2 s3,
  codes_fit MSB crossed /\ small_enough MSB crossed /\
  blocked_keys MSB crossed = [true :: repeat false 9; true :: true :: repeat false 8] /\
  new_codebook (fun _ cc => cc) crossed MSB = Ret (Okay cb1) /\
  new_codebook (fun _ cc => rev cc) crossed MSB = Ret (Okay cb2) /\
  new BE ([0; 64]%N ++ repeat 0%N 14) = Ret r /\
  run_mixed BE cb1 r [word_step; Call OpConsumed] = Ret (s1, [Sym (Okay 30); Out (OutCount 1)]) /\
  run_mixed BE cb2 r [word_step; Call OpConsumed] = Ret (s2, [Sym (Okay 20); Out (OutCount 1)]) /\
  option_map snd (q_mixed_full (rev (blocked_keys MSB crossed)) BE MSB crossed ([0; 64]%N ++ repeat 0%N 14) [word_step]) = Some [Sym (Okay 30)] /\
  option_map snd (q_mixed_full (blocked_keys MSB crossed) BE MSB crossed ([0; 64]%N ++ repeat 0%N 14) [word_step]) = Some [Sym (Okay 20)] /\
  run_mixed BE cb1 r [Call (OpSkip 1); word_step; Call OpConsumed] = Ret (s3, [Out OutUnit; Sym (Okay 40); Out (OutCount 3)]).
Proof.
  eexists _, _, _, _, _, _. split; [|split].
  - intros d Hd _. cbn in Hd.
    destruct Hd as [<-|[<-|[<-|[<-|[]]]]]; (split; [apply Nat.leb_le; reflexivity|split; reflexivity]).
  - split; vm_compute; discriminate.
  - split; [vm_compute; reflexivity|]. split; [vm_compute; reflexivity|]. split; [vm_compute; reflexivity|].
    split; [vm_compute; reflexivity|]. split; [vm_compute; reflexivity|]. split; [vm_compute; reflexivity|].
    split; [vm_compute; reflexivity|]. split; vm_compute; reflexivity.
Qed.
