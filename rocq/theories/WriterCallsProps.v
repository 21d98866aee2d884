(** C184. *)
From Coq Require Import List Arith NArith ZArith Bool.
From Verif Require Import Base AccModel MuxModel MuxSpec WriterCallsSpec.
From Verif Require Import WriterCallsProofs.
Import ListNotations.
Local Open Scope nat_scope.

(** C184: whatever the output is, calls made on [Writer] return what the same calls return when
    made on the output itself, and leave the output as these do. *)
Theorem C184_transparent : forall (W : Type) (s : sink W) (ops : list writer_op) (w : writer W),
  (let! (w', outs) := writer_run s w ops in Ret (w_inner w', outs)) = direct_run s (w_inner w) ops.
Proof. exact @run_direct. Qed.
Print Assumptions C184_transparent.

(** C184: every call reaches the output once, as it was made and in the order made, with nothing in
    between; and the position is the one those calls lead to. *)
Theorem C184_calls : forall (W : Type) (s : sink W) (ops : list writer_op) (w0 : W) (w' : writer W) (outs : list writer_out),
  writer_run s (writer_new w0) ops = Ret (w', outs) ->
  exists calls,
    writer_run (noting s) (writer_new (w0, [])) ops = Ret (mk_writer (w_inner w', calls) (writer_position w'), outs) /\
    passes_all ops outs calls /\
    writer_position w' = position_after 0 calls.
Proof. exact writer_calls. Qed.
Print Assumptions C184_calls.

(** A short write, a failing write, an interrupted [write_all], a seek back and a flush. *)
Definition C184_calls_made : list writer_op :=
  [WWrite [1; 2; 3]%N; WWrite [4]%N; WAll 4 [5; 6; 7]%N; WSeek (Start 1); WWrite [9]%N; WSeek (Current (-9)); WFlush].
Definition C184_output : file := mk_file [] 0 0 [Okay 2; Error (OtherError 5); Okay 1; Error Interrupted].
Example C184_example : exists w',
  writer_run (noting file_sink) (writer_new (C184_output, [])) C184_calls_made =
    Ret (w', [WWrote (Okay 2); WWrote (Error (OtherError 5)); WWroteAll (Some (Okay tt)); WSought (Okay 1); WWrote (Okay 1);
              WSought (Error (OtherError 22)); WFlushed (Okay tt)]) /\
  snd (w_inner w') =
    [OWrite [1; 2; 3]%N (Okay 2); OWrite [4]%N (Error (OtherError 5)); OWrite [5; 6; 7]%N (Okay 1); OWrite [6; 7]%N (Error Interrupted);
     OWrite [6; 7]%N (Okay 2); OSeek (Start 1) (Okay 1); OWrite [9]%N (Okay 1); OSeek (Current (-9)) (Error (OtherError 22)); OFlush (Okay tt)] /\
  f_data (fst (w_inner w')) = [1; 9; 5; 6; 7]%N /\ writer_position w' = 2.
Proof. eexists. split; [vm_compute; reflexivity|]. split; [reflexivity|]. split; reflexivity. Qed.
