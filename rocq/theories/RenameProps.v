(** C194. *)
From Coq Require Import List Arith NArith Bool Permutation.
From Verif Require Import Base BitModel BitSpec CodebookModel CodebookSpec CodebookExamples CbQueueSpec RenameSpec RenameProofs.
Import ListNotations.
Local Open Scope nat_scope.

(** C194: codebooks made from descriptions with the same words, in whatever order and with
    whatever unused entries in between, read the same symbols, up to their names, and leave the
    reader at the same positions, in every history of calls. *)
Theorem C194_only_the_words_matter : forall (S T : Type) (f : S -> T) ord ord' m (ds : list (desc S)) (ds' : list (desc T)) cb e buf steps r0,
  permuting ord -> permuting ord' -> valid_description m ds -> valid_description m ds' -> renamed f m ds ds' ->
  new_codebook ord ds m = Ret (Okay cb) -> bytes buf -> Forall step_ok steps -> new e buf = Ret r0 ->
  exists cb', new_codebook ord' ds' m = Ret (Okay cb') /\
    match run_mixed e cb r0 steps with
    | Ret (r, outs) => exists r', run_mixed e cb' r0 (map (rename_step f) steps) = Ret (r', map (rename_out f) outs) /\
                         left r' = left r /\ consumed r' = consumed r
    | Panic => run_mixed e cb' r0 (map (rename_step f) steps) = Panic
    | UB => False
    end.
Proof. exact only_meaning. Qed.
Print Assumptions C194_only_the_words_matter.

(** The order is turned around, unused entries go and come, and symbols 5 and 7 become one. *)
Definition C194_code : list (desc nat) := [mk_desc 0 2 7; mk_desc 6 3 8; mk_desc 3969 12 9; mk_desc 9 0 1; mk_desc 2 2 5].
Definition C194_other : list (desc bool) := [mk_desc 7 0 true; mk_desc 2 2 true; mk_desc 3969 12 false; mk_desc 6 3 false; mk_desc 8 0 false; mk_desc 0 2 true].
Definition C194_buf : list N := [128; 95; 3; 255; 1; 2; 68; 240; 77; 9]%N.
Example C194_example : let c := Codeword (mk_desc 0 0 0) in let steps := [c; Call (OpGet32 5); c; c; c; c; Call OpConsumed] in
  let f s := s <? 8 in
  valid_description MSB C194_code /\ valid_description MSB C194_other /\ renamed f MSB C194_code C194_other /\
  exists cb cb' r0 r r', new_codebook (fun _ cc => cc) C194_code MSB = Ret (Okay cb) /\ new_codebook (fun _ cc => cc) C194_other MSB = Ret (Okay cb') /\
    new BE C194_buf = Ret r0 /\
    run_mixed BE cb r0 steps =
      Ret (r, [Sym (Okay 5); Out (OutWord 0); Sym (Okay 7); Sym (Okay 5); Sym (Okay 9); Sym (Error InvalidCode); Out (OutCount 23)]) /\
    run_mixed BE cb' r0 (map (rename_step f) steps) =
      Ret (r', [Sym (Okay true); Out (OutWord 0); Sym (Okay true); Sym (Okay true); Sym (Okay false); Sym (Error InvalidCode); Out (OutCount 23)]).
Proof.
  split; [apply validb_sound; vm_compute; reflexivity|]. split; [apply validb_sound; vm_compute; reflexivity|]. split.
  - unfold renamed. match goal with |- Permutation ?a ?b => let x := eval vm_compute in a in let y := eval vm_compute in b in change (Permutation x y) end.
    apply (Permutation_rev [_; _; _; _]).
  - eexists. eexists. eexists. eexists. eexists.
    split; [vm_compute; reflexivity|]. split; [vm_compute; reflexivity|]. split; [vm_compute; reflexivity|]. split; [vm_compute; reflexivity|].
    vm_compute. reflexivity.
Qed.
