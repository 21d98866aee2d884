(** Histories on the bit reader for any width of [usize]. *)
From Coq Require Import List Arith NArith ZArith Bool.
From Verif Require Import Base BitModel WordBitModel WordSpec CodebookModel CodebookSpec ReleaseCbSpec MachineModel MachineBitModel.
Import ListNotations.
Local Open Scope N_scope.

(** Arguments are [usize]. *)
Definition arg_on (m : machine) (op : bit_op) : Prop :=
  match op with OpGet64 n | OpGet32 n | OpPeek64 n | OpPeek32 n | OpSkip n => N.of_nat n < 2 ^ bits m | _ => True end.

(** Calls other than [consumed] and [available]. *)
Definition reads (op : bit_op) : Prop := match op with OpConsumed | OpAvailable => False | _ => True end.

(** A count as [usize] shows it. *)
Definition narrow (m : machine) (o : bit_out) : bit_out :=
  match o with OutCount c => OutCount (N.to_nat (N.of_nat c mod 2 ^ bits m)) | _ => o end.
Definition narrow_step {S : Type} (m : machine) (o : step_out S) : step_out S := match o with Out o => Out (narrow m o) | Sym s => Sym s end.

Definition step_arg_on {S : Type} (m : machine) (st : step S) : Prop := match st with Call op => arg_on m op | Codeword _ => True end.

(** Calls and codeword reads in any order. *)
Fixpoint mb_run_mixed {S : Type} (m : machine) (e : endian) (cb : codebook S) (r : wreader) (steps : list (step S))
    : outcome (wreader * list (step_out S)) :=
  match steps with
  | [] => Ret (r, [])
  | Call op :: steps' =>
      let! (r1, o) := mb_run_op m e r op in
      let! (r2, os) := mb_run_mixed m e cb r1 steps' in
      Ret (r2, Out o :: os)
  | Codeword _ :: steps' =>
      let! (r1, s) := mb_read_cb m e cb r in
      let! (r2, os) := mb_run_mixed m e cb r1 steps' in
      Ret (r2, Sym s :: os)
  end.
Definition mb_mixed_from_new {S : Type} (m : machine) (e : endian) (cb : codebook S) (buf : list N) (steps : list (step S))
    : outcome (wreader * list (step_out S)) :=
  let! r := mb_new m e buf in mb_run_mixed m e cb r steps.
