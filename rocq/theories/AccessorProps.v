(** C183: what the accessors of [AccReader], [Writer] and the muxing context report. *)
From Coq Require Import List Arith NArith ZArith Bool.
From Verif Require Import Base AccModel AccSpec AccProofs AccProofs2 AccExamples AccAnySpec FormatModel MuxModel MuxSpec MuxProofs MuxMain AccessModel AccessorSpec AccessorProofs.
Import ListNotations.
Local Open Scope nat_scope.

(** C183: [current_slice] and [data] are the same bytes of the source, as many as [capacity] says, from the position of the
    reader to that of the reader below. *)
Theorem C183_reader_views : forall (R : Type) (i : io R) src good tell cap r0 ops a outs,
  source_ok i src good tell -> good r0 -> tell r0 = 0 ->
  acc_legal i (with_capacity cap r0) ops -> acc_run i (with_capacity cap r0) ops = Ret (a, outs) ->
  exists p n, seek i a (Current 0) = Ret (a, Okay p) /\ capacity a = Ret n /\ tell (get_ref a) = p + n /\
    current_slice a = Ret (firstn n (skipn p src)) /\ data a = Ret (firstn n (skipn p src)) /\ length (firstn n (skipn p src)) = n.
Proof. exact reader_views. Qed.
Print Assumptions C183_reader_views.

Example C183_reader_example :
  acc_legal cursor_io (with_capacity 4 (mk_cursor (map N.of_nat (seq 40 12)) 0 [])) [AFill; AConsume 1] /\ exists a outs,
  acc_run cursor_io (with_capacity 4 (mk_cursor (map N.of_nat (seq 40 12)) 0 [])) [AFill; AConsume 1] = Ret (a, outs) /\
  current_slice a = Ret [41; 42; 43]%N /\ capacity a = Ret 3 /\ cur_pos (get_ref a) = 4.
Proof.
  split; [apply acc_legalb_sound; vm_compute; reflexivity|].
  eexists _, _. split; [vm_compute; reflexivity|]. split; [vm_compute; reflexivity|]. split; vm_compute; reflexivity.
Qed.

(** C183: a reader made by [new] holds nothing, and when it is filled it asks the reader below for 4096 bytes. *)
Theorem C183_new_reader : forall (R : Type) (i : io R) (r : R) r' buf res, io_read i r (repeat 0%N 4096) = (r', buf, res) -> length buf = 4096 ->
  let a := acc_new r in
  current_slice a = Ret [] /\ data a = Ret [] /\ capacity a = Ret 0 /\ get_ref a = r /\ into_inner a = r /\
  match res with
  | Okay n => n <= 4096 -> exists a', fill_buf i a = Ret (a', Okay (firstn n buf)) /\ get_ref a' = r'
  | Error e => exists a', fill_buf i a = Ret (a', Error e) /\ get_ref a' = r' /\ data a' = Ret []
  end.
Proof. exact new_reader. Qed.
Print Assumptions C183_new_reader.

Example C183_new_example : exists a,
  fill_buf cursor_io (acc_new (mk_cursor [7; 8; 9]%N 0 [Deliver 2])) = Ret (a, Okay [7; 8]%N) /\ cur_pos (get_ref a) = 2.
Proof. eexists. split; vm_compute; reflexivity. Qed.

(** C183: after any calls on a muxing context, failed ones included, [as_ref] on its writer gives the output and the number of
    bytes that have reached it, the number [position] gives too; [into_writer] gives the same writer. *)
Theorem C183_muxed_bytes : forall (P V M W : Type) (em : emitter P V M) (s : sink W) good tape fuel ops m w0 c' res,
  keeps s good tape -> good w0 ->
  mux_run (emitter_muxer em s fuel) s (mctx_new m (writer_new w0)) ops = Ret (c', res) ->
  exists out n, writer_as_ref (mctx_writer c') = (out, n) /\ bytes_in (tape out) = bytes_in (tape w0) + n /\
    writer_position (mctx_writer c') = n /\ mctx_into_writer c' = mctx_writer c'.
Proof. exact muxed_bytes. Qed.
Print Assumptions C183_muxed_bytes.

(** A header of which one byte of two is written, and a trailer of one byte. *)
Example C183_muxed_example : keeps pipe_sink (fun _ => True) pp_marks /\ exists c' out,
  mux_run (emitter_muxer ex_emitter pipe_sink 9) pipe_sink (mctx_new 0%N (writer_new (mk_pipe [] [Okay 1; Error (OtherError 28)])))
    [MHeader; MTrailer] = Ret (c', Some [Error (Io (OtherError 28)); Okay tt]) /\
  writer_as_ref (mctx_writer c') = (out, 2) /\ pp_marks out = [Byte 68%N; Byte 84%N; Flushed].
Proof.
  split; [exact pipe_keeps|]. eexists _, _. split; [vm_compute; reflexivity|]. split; vm_compute; reflexivity.
Qed.
