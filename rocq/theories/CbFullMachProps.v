(** Property C175: any codewords at all, for any width of [usize]. *)
From Coq Require Import List Arith NArith Bool Permutation.
From Verif Require Import Base BitModel BitSpec BitQueueSpec CodebookModel CodebookSpec CbQueueSpec ReleaseCbSpec CbShadowSpec CbFullSpec CbFullRelSpec
  MachineModel MachineBitModel MachineBitSpec MachineCbModel MachineCbSpec MachineCbExamples CbFullMachSpec CbFullMachProofs.
Import ListNotations.
Local Open Scope N_scope.

(** C175: whichever codewords are prefixes of others, a codebook is constructed on every width of
    [usize] from 32 bits on, given the memory for its symbols and for as many table entries as distinct
    codewords need.  It decodes like the search of C173 with overflow checks and like that of C174
    without them, in any history and wherever the reads are. *)
Theorem C175_exact : forall (S : Type) mc grants sym_grants ord m (ds : list (desc S)), 32 <= bits mc -> checked mc = true \/ bits mc <= 64 ->
  honest mc grants -> permuting ord -> codes_fit m ds -> small_enough m ds -> codes_u32 ds -> N.of_nat (length ds) < 2 ^ bits mc ->
  (exists d, In d ds /\ used d) ->
  (forall n, n <= table_entries (words m ds) -> grants n = true) -> sym_grants (N.of_nat (length (words m ds))) = true ->
  exists cb ks, mk_new_codebook mc grants sym_grants ord ds m = Ret (Okay cb) /\ Permutation ks (blocked_keys m ds) /\ machine_reads_like mc m ds ks cb.
Proof. exact machine_full_exact. Qed.
Print Assumptions C175_exact.

(** Each order of the blocked strings is that of some iteration order of the hash maps. *)
Theorem C175_every_order : forall (S : Type) mc grants sym_grants m (ds : list (desc S)) ks, 32 <= bits mc -> checked mc = true \/ bits mc <= 64 ->
  honest mc grants -> codes_fit m ds -> small_enough m ds -> codes_u32 ds -> N.of_nat (length ds) < 2 ^ bits mc ->
  (exists d, In d ds /\ used d) ->
  (forall n, n <= table_entries (words m ds) -> grants n = true) -> sym_grants (N.of_nat (length (words m ds))) = true ->
  Permutation ks (blocked_keys m ds) ->
  exists ord cb, permuting ord /\ mk_new_codebook mc grants sym_grants ord ds m = Ret (Okay cb) /\ machine_reads_like mc m ds ks cb.
Proof. exact machine_full_order. Qed.
Print Assumptions C175_every_order.

(** The words of C173 on 32 bits, with and without overflow checks; behind the end of the buffer the
    former panic. *)
Example C175_example : table_entries (words MSB crossed) = 1028 /\ honest wasm32 (upto 1028) /\ codes_u32 crossed /\
  (forall c, exists cb r, mk_new_codebook (mk_machine 32 c) (upto 1028) (upto 4) (fun _ cc => cc) crossed MSB = Ret (Okay cb) /\
    mb_mixed_from_new (mk_machine 32 c) BE cb ([0; 64] ++ repeat 0 14) [word_step; Call OpConsumed] = Ret (r, [Sym (Okay 30%nat); Out (OutCount 1)])) /\
  exists cb r, mk_new_codebook wasm32 (upto 1028) (upto 4) (fun _ cc => cc) crossed MSB = Ret (Okay cb) /\
    mb_mixed_from_new wasm32 BE cb (repeat 255 8) [Call (OpSkip 64); Call (OpSkip 200); word_step] = Panic /\
    mb_mixed_from_new wasm32_release BE cb (repeat 255 8) [Call (OpSkip 64); Call (OpSkip 200); word_step]
      = Ret (r, [Out OutUnit; Out OutUnit; Sym (Okay 40%nat)]).
Proof.
  split; [vm_compute; reflexivity|]. split; [|split; [|split]].
  - intros n H. unfold upto in H. apply N.leb_le in H. apply N.le_lt_trans with (4 * 1028); [apply N.mul_le_mono_l; exact H|reflexivity].
  - repeat constructor.
  - intros c. destruct c; (eexists _, _; split; [vm_compute; reflexivity|]; vm_compute; reflexivity).
  - eexists _, _. split; [vm_compute; reflexivity|]. split; vm_compute; reflexivity.
Qed.
