(** Specification of codeword reads with any description for any width of [usize]. *)
From Coq Require Import List Arith NArith Bool.
From Verif Require Import Base BitModel BitSpec BitQueueSpec WordBitModel CodebookModel CodebookSpec CbQueueSpec ReleaseCbSpec CbFullSpec CbFullRelSpec
  MachineModel MachineBitModel MachineBitSpec.
Import ListNotations.
Local Open Scope N_scope.

(** With overflow checks [cb] decodes on the machine like the search of [CbFullSpec], and panics exactly
    when that does, as long as the bits can be counted; without them like that of [CbFullRelSpec], with
    counts modulo the width. *)
Definition machine_reads_like {S : Type} (mc : machine) (m : mode) (ds : list (desc S)) (ks : list (list bool)) (cb : codebook S) : Prop :=
  forall e buf steps, bytes buf -> Forall step_ok steps -> Forall (step_arg_on mc) steps ->
  if checked mc then
    8 * N.of_nat (length buf) + steps_skip steps < 2 ^ bits mc ->
    match q_mixed_full ks e m ds buf steps with
    | Some (q, outs) => exists r, mb_mixed_from_new mc e cb buf steps = Ret (r, outs) /\ w_left r = N.of_nat (length (waiting q))
    | None => mb_mixed_from_new mc e cb buf steps = Panic
    end
  else
    N.of_nat (length buf) + steps_skip steps / 8 + 64 < 2 ^ bits mc -> 8 * N.of_nat (length buf) + steps_skip steps < 2 ^ 64 ->
    exists r, mb_mixed_from_new mc e cb buf steps = Ret (r, map (narrow_step mc) (snd (rq_mixed_full ks e m ds buf steps))) /\
      w_left r = N.of_nat (length (waiting (fst (rq_mixed_full ks e m ds buf steps)))).
