(** Files written through [Writer]: C102 and C103. *)
From Coq Require Import List Arith NArith ZArith.
From Verif Require Import Base AccModel MuxModel MuxSpec PatchSpec PatchProofs.
Import ListNotations.
Local Open Scope nat_scope.

(** C102: for every file, whatever pieces it accepts and whenever it fails, and every
    sequence of writes, seeks and flushes: the contents change by exactly the bytes of the
    calls at the positions reached by them; a [write_all] that fails has written an initial
    part. *)
Theorem C102_contents : forall (W : Type) (s : sink W) good contents tell ops w w' outs,
  file_like s good contents tell -> good (w_inner w) -> writer_run s w ops = Ret (w', outs) ->
  file_history (contents (w_inner w)) (tell (w_inner w)) ops outs (contents (w_inner w')) (tell (w_inner w')).
Proof. intros W s good contents tell ops w w' outs F G E. exact (proj2 (run_file s good contents tell F ops w w' outs G E)). Qed.
Print Assumptions C102_contents.

(** A header patched after the body was written, with short writes and an interruption. *)
Example C102_example :
  file_like disk_sink (fun _ => True) f_data f_pos /\
  exists w outs, writer_run disk_sink (writer_new (mk_file [] 0 0 [Okay 1; Error Interrupted; Okay 2; Okay 1]))
    [WAll 9 [0; 0]%N; WAll 9 [7; 8; 9]%N; WSeek (Start 0); WAll 9 [3]%N; WSeek (End 1); WAll 9 [5]%N; WFlush] = Ret (w, outs) /\
    f_data (w_inner w) = [3; 0; 7; 8; 9; 0; 5]%N /\ writer_position w = 7.
Proof. split; [exact disk_ok|]. eexists _, _. split; [vm_compute; reflexivity|]. split; vm_compute; reflexivity. Qed.

(** C103: repeating a [write_all] that failed leaves bytes twice. *)
Theorem C103_repeat_refuted : exists (w w' : writer file) buf e out,
  writer_position w = f_pos (w_inner w) /\
  writer_run disk_sink w [WAll 9 buf; WAll 9 buf] = Ret (w', [WWroteAll (Some (Error e)); out]) /\ out = WWroteAll (Some (Okay tt)) /\
  f_data (w_inner w') <> written (f_data (w_inner w)) (f_pos (w_inner w)) buf.
Proof. exact repeat_duplicates. Qed.
Print Assumptions C103_repeat_refuted.

(** C103: seeking back to the position [Writer] reported before, and then repeating, repairs
    the file. *)
Theorem C103_seek_back_partial : forall (W : Type) (s : sink W) good contents tell w buf f1 f2 w' e q r,
  file_like s good contents tell -> good (w_inner w) -> writer_position w = tell (w_inner w) ->
  writer_run s w [WAll f1 buf; WSeek (Start (writer_position w)); WAll f2 buf] =
    Ret (w', [WWroteAll (Some (Error e)); WSought (Okay q); WWroteAll (Some (Okay r))]) ->
  contents (w_inner w') = written (contents (w_inner w)) (tell (w_inner w)) buf /\
  tell (w_inner w') = tell (w_inner w) + length buf.
Proof. exact (fun W s good contents tell w buf f1 f2 w' e q r F => retry_file s good contents tell F w buf f1 f2 w' e q r). Qed.
Print Assumptions C103_seek_back_partial.

Example C103_example :
  exists w, writer_run disk_sink (mk_writer (mk_file [9; 9; 9]%N 1 0 [Okay 2; Error (OtherError 28)]) 1)
    [WAll 9 [1; 2; 3]%N; WSeek (Start 1); WAll 9 [1; 2; 3]%N] =
    Ret (w, [WWroteAll (Some (Error (OtherError 28))); WSought (Okay 1); WWroteAll (Some (Okay tt))]) /\
    f_data (w_inner w) = [9; 1; 2; 3]%N.
Proof. eexists. split; vm_compute; reflexivity. Qed.
