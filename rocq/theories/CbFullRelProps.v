(** Property C174: any codewords at all, in a build without overflow checks. *)
From Coq Require Import List Arith NArith Bool Permutation.
From Verif Require Import Base BitModel BitSpec BitQueueSpec ReleaseBitModel CodebookModel CodebookSpec CbQueueSpec ReleaseCbModel
  ReleaseCbSpec CbShadowSpec CbFullSpec CbFullRelSpec CbFullRelProofs.
Import ListNotations.

(** C174: whichever codewords are prefixes of others, a build without overflow checks constructs a
    codebook, and no history of calls and codeword reads panics, behind the end of the buffer included.
    It decodes exactly like the search of C173 in the bit queue whose count of available bits wraps
    around. *)
Theorem C174_exact : forall (S : Type) ord m (ds : list (desc S)), permuting ord -> codes_fit m ds -> small_enough m ds ->
  (exists d, In d ds /\ used d) ->
  exists cb ks, rc_new_codebook ord ds m = Ret (Okay cb) /\ Permutation ks (blocked_keys m ds) /\ release_reads_like m ds ks cb.
Proof. exact release_full_exact. Qed.
Print Assumptions C174_exact.

(** Each order of the blocked strings is that of some iteration order of the hash maps. *)
Theorem C174_every_order : forall (S : Type) m (ds : list (desc S)) ks, codes_fit m ds -> small_enough m ds ->
  (exists d, In d ds /\ used d) -> Permutation ks (blocked_keys m ds) ->
  exists ord cb, permuting ord /\ rc_new_codebook ord ds m = Ret (Okay cb) /\ release_reads_like m ds ks cb.
Proof. exact release_full_order. Qed.
Print Assumptions C174_every_order.

(** Codewords that the search of C173 reads without a panic are the same here. *)
Theorem C174_same_codewords : forall (S : Type) ks e m (ds : list (desc S)) buf msg x,
  q_mixed_full ks e m ds buf (map Codeword msg) = Some x -> rq_mixed_full ks e m ds buf (map Codeword msg) = x.
Proof. exact codewords_full_agree. Qed.
Print Assumptions C174_same_codewords.

(** The words 1, 10000000001, 11000000001 and 00, as in C173; behind the end of 8 bytes of ones, where
    a build with checks panics, the word 00 is read. *)
Example C174_example : exists cb r1 r2 r3,
  rc_new_codebook (fun _ cc => cc) crossed MSB = Ret (Okay cb) /\
  rc_mixed_from_new BE cb ([0; 64]%N ++ repeat 0%N 14) [word_step; Call OpConsumed] = Ret (r1, [Sym (Okay 30); Out (OutCount 1)]) /\
  snd (rq_mixed_full (rev (blocked_keys MSB crossed)) BE MSB crossed ([0; 64]%N ++ repeat 0%N 14) [word_step; Call OpConsumed])
    = [Sym (Okay 30); Out (OutCount 1)] /\
  snd (rq_mixed_full (blocked_keys MSB crossed) BE MSB crossed ([0; 64]%N ++ repeat 0%N 14) [word_step]) = [Sym (Okay 20)] /\
  rc_mixed_from_new BE cb (repeat 255%N 8) [word_step; Call (OpSkip 63); word_step; Call OpConsumed]
    = Ret (r2, [Sym (Okay 10); Out OutUnit; Sym (Error InvalidCode); Out (OutCount 64)]) /\
  rc_mixed_from_new BE cb (repeat 255%N 8) [Call (OpSkip 64); Call (OpSkip 200); word_step; Call OpConsumed]
    = Ret (r3, [Out OutUnit; Out OutUnit; Sym (Okay 40); Out (OutCount 264)]) /\
  snd (rq_mixed_full (rev (blocked_keys MSB crossed)) BE MSB crossed (repeat 255%N 8) [Call (OpSkip 64); Call (OpSkip 200); word_step; Call OpConsumed])
    = [Out OutUnit; Out OutUnit; Sym (Okay 40); Out (OutCount 264)] /\
  q_mixed_full (rev (blocked_keys MSB crossed)) BE MSB crossed (repeat 255%N 8) [Call (OpSkip 64); Call (OpSkip 200); word_step] = None.
Proof.
  eexists _, _, _, _. split; [vm_compute; reflexivity|]. split; [vm_compute; reflexivity|]. split; [vm_compute; reflexivity|].
  split; [vm_compute; reflexivity|]. split; [vm_compute; reflexivity|]. split; [vm_compute; reflexivity|].
  split; vm_compute; reflexivity.
Qed.
