(** Properties C150 and C151: panics of [AccReader] for any width of [usize]. *)
From Coq Require Import List Arith NArith ZArith Bool.
From Verif Require Import Base AccModel AccSpec AccExamples WordAccModel ReleaseAccSpec.
From Verif Require Import MachineModel MachineAccModel MachinePanicSpec MachinePanicProofs.
Import ListNotations.
Local Open Scope N_scope.

(** C150: without overflow checks no sequence of calls panics, for any width, whatever is read,
    consumed and sought, over any source that keeps the contract of [read]; only the buffer has
    to stay shorter than half the address space. *)
Theorem C150_acc_never_panics_unchecked : forall m, 1 <= bits m -> checked m = false -> forall (R : Type) (i : io R) cap r ops,
  honest_io i -> cap + N.of_nat (grown ops) < 2 ^ (bits m - 1) ->
  exists a outs, m_acc_run m i (w_with_capacity cap r) ops = Ret (a, outs).
Proof. exact run_never. Qed.
Print Assumptions C150_acc_never_panics_unchecked.

(** With checks a history panics exactly if a call of it takes a counter too far, and answers
    the same otherwise. *)
Theorem C150_acc_panics_exactly : forall m, 1 <= bits m <= 64 -> forall (R : Type) (i : io R) cap r ops, honest_io i ->
  Forall (call_typed m) ops -> cap + N.of_nat (grown ops) < 2 ^ (bits m - 1) ->
  m_acc_run m i (w_with_capacity cap r) ops =
  (if checked m && ever_too_far m i (w_with_capacity cap r) ops then Panic else m_acc_run (unchecked m) i (w_with_capacity cap r) ops).
Proof. exact run_panics. Qed.
Print Assumptions C150_acc_panics_exactly.

(** The same for one call, from any state whose window lies in its buffer. *)
Theorem C150_acc_call_panics_exactly : forall m, 1 <= bits m <= 64 -> forall (R : Type) (i : io R) (a : wacc R) op, honest_io i ->
  window m a -> call_typed m op -> (forall n, op = AGrow n -> N.of_nat (length (wa_buf a)) + N.of_nat n < 2 ^ (bits m - 1)) ->
  exists a' o, m_acc_step (unchecked m) i a op = Ret (a', o) /\ window m a' /\
    m_acc_step m i a op = (if checked m && too_far m a op o then Panic else Ret (a', o)).
Proof. exact step_panics. Qed.
Print Assumptions C150_acc_call_panics_exactly.

(** With four bits and overflow checks a seek from position 12 to position 13 panics although
    both are buffered, since the buffer ends at position 16. *)
Example C150_example :
  let c := mk_cursor ex_src 0 [] in
  let ops := [ARead (ex_slice 6); ARead (ex_slice 6); AFill; ASeek (Start 13%nat)] in
  Forall (call_typed (mk_machine 4 true)) ops /\
  ever_too_far (mk_machine 4 true) cursor_io (w_with_capacity 4 c) ops = true /\
  m_acc_run (mk_machine 4 true) cursor_io (w_with_capacity 4 c) ops = Panic /\
  ever_too_far (mk_machine 4 true) cursor_io (w_with_capacity 4 c) (firstn 3 ops) = false /\
  (exists a outs, m_acc_run (mk_machine 4 true) cursor_io (w_with_capacity 4 c) (firstn 3 ops) = Ret (a, outs) /\ wa_index a = 12) /\
  exists a outs, m_acc_run (mk_machine 4 false) cursor_io (w_with_capacity 4 c)
      (ops ++ [AConsume 15; ASeek (Current (2 ^ 40)); ARead (ex_slice 2)]) = Ret (a, outs) /\ length outs = 7%nat.
Proof.
  cbv zeta. split; [repeat (constructor; [first [exact I | reflexivity]|]); constructor|].
  split; [vm_compute; reflexivity|]. split; [vm_compute; reflexivity|]. split; [vm_compute; reflexivity|].
  split; (eexists _, _; split; vm_compute; reflexivity).
Qed.

(** C151: when growing fails, for any width: with checks if the buffer would reach half the
    address space; without them only if the sum is not cut off, and if it is the buffer may
    lose what it holds. *)
Theorem C151_acc_grow_any_width : forall m, 1 <= bits m -> forall (R : Type) (a : wacc R) n, n < 2 ^ bits m -> window m a ->
  let l := N.of_nat (length (wa_buf a)) + n in
  (m_grow m a n = Panic <-> (if checked m then 2 ^ (bits m - 1) <= l else 2 ^ (bits m - 1) <= l < 2 ^ bits m)) /\
  (l < 2 ^ (bits m - 1) -> exists a', m_grow m a n = Ret a' /\ m_data a' = m_data a) /\
  (checked m = false -> 2 ^ bits m <= l -> exists a', m_grow m a n = Ret a' /\
     (wa_end a <= l - 2 ^ bits m -> m_data a' = m_data a) /\ (l - 2 ^ bits m < wa_end a -> m_data a' = Panic)).
Proof. exact grow_any. Qed.
Print Assumptions C151_acc_grow_any_width.

Example C151_example :
  let a := mk_wacc tt [1; 2; 3] 1 3 9 in
  window (mk_machine 4 true) a /\ window (mk_machine 4 false) a /\
  m_grow (mk_machine 4 true) a 4 = Ret (mk_wacc tt [1; 2; 3; 0; 0; 0; 0] 1 3 9) /\
  m_grow (mk_machine 4 true) a 5 = Panic /\ m_grow (mk_machine 4 false) a 12 = Panic /\ m_grow (mk_machine 4 true) a 15 = Panic /\
  m_grow (mk_machine 4 false) a 15 = Ret (mk_wacc tt [1; 2] 1 3 9) /\ m_data (mk_wacc tt [1; 2] 1 3 9) = Panic.
Proof. cbv zeta. repeat split; discriminate. Qed.
