(** C190: [read_exact] of an [AccReader] over a source that may fail. *)
From Coq Require Import List Arith NArith ZArith Bool.
From Verif Require Import Base AccModel AccSpec StreamModel StreamSpec ExactProofs.
Import ListNotations.
Local Open Scope nat_scope.

(** [None]: [fuel] calls of [read] were not enough, which takes an interruption if [fuel] is at
    least [n]. *)
Theorem C190_read_exact_failing : forall (R : Type) (i : io R) src good tell cap r0 ops a outs, source_ok i src good tell -> good r0 -> tell r0 = 0 ->
  acc_legal i (with_capacity cap r0) ops -> acc_run i (with_capacity cap r0) ops = Ret (a, outs) ->
  exists p, history_spec src 0 ops outs p /\ forall fuel n,
  exists a' res p', read_exact i fuel a n = Ret (a', res) /\ seek i a' (Current 0) = Ret (a', Okay p') /\ p <= p' <= p + n /\
    match res with
    | Some (Okay l) => n <= length src - p /\ l = firstn n (skipn p src) /\ p' = p + n
    | Some (Error e) => p' < p + n /\
        ((e = UnexpectedEof /\ length src - p < n /\ length src <= p') \/ (e <> Interrupted /\ fails_with (io_reader i) good e))
    | None => p' < p + n /\ (fuel < n \/ fails_with (io_reader i) good Interrupted)
    end.
Proof. exact exact_failing. Qed.
Print Assumptions C190_read_exact_failing.

(** Bytes that were read before an error are not read again. *)
Example C190_example : exists a outs a1 a2 a3,
  acc_run cursor_io (with_capacity 2 (mk_cursor [1; 2; 3; 4; 5; 6; 7; 8; 9]%N 0 [Deliver 2; Fail Interrupted; Deliver 2; Fail (OtherError 5); Deliver 1])) [ARead [0]%N] = Ret (a, outs) /\
  read_exact cursor_io 9 a 3 = Ret (a1, Some (Okay [2; 3; 4]%N)) /\
  read_exact cursor_io 9 a 4 = Ret (a2, Some (Error (OtherError 5))) /\
  read_exact cursor_io 9 a2 2 = Ret (a3, Some (Okay [5; 6]%N)).
Proof. eexists _, _, _, _, _. split; [vm_compute; reflexivity|]. split; [vm_compute; reflexivity|]. split; vm_compute; reflexivity. Qed.
