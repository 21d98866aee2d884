(** C133, C134: [Writer] and [get_buffer] for any width of [usize]. *)
From Coq Require Import List Arith NArith ZArith Bool.
From Verif Require Import Base AccModel AccSpec MuxModel MuxSpec StreamModel StreamSpec WordCountModel WordCountSpec WordCountProofs PatchSpec ReleaseMiscModel.
From Verif Require Import MachineModel MachineCountModel MachineCountSpec MachineCountProofs.
Import ListNotations.
Local Open Scope N_scope.

(** C133: the position is the position in the output.  With 32 bits it is not after a seek
    beyond 4 GiB, with and without overflow checks. *)
Theorem C133_writer_far_position_refuted : forall c, exists p, N.of_nat p = 2 ^ 32 + 5 /\
  mw_run (mk_machine 32 c) (end_sink p) (ww_new 0%nat) [WSeek (End 0); WWrite [7; 7]] =
  Ret (mk_wwriter (p + 2)%nat 7, [WSought (Okay p); WWrote (Okay 2%nat)]).
Proof. exact far_writer_exists. Qed.
Print Assumptions C133_writer_far_position_refuted.

(** C133, exactly: over any output, whatever the width, everything but the position is as
    with an unbounded position and the position is that one modulo 2^bits; with overflow
    checks a history panics exactly if a write crosses a multiple of 2^bits. *)
Theorem C133_writer_any_width_partial : forall m, 1 <= bits m -> forall (W : Type) (s : sink W) ops w,
  (checked m = false \/ stays m s w ops ->
   mw_run m s (writer_on m w) ops = (let! (w', outs) := writer_run s w ops in Ret (writer_on m w', outs))) /\
  (checked m = true /\ ~ stays m s w ops -> mw_run m s (writer_on m w) ops = Panic).
Proof. intros m H W. exact (@run_on m H W). Qed.
Print Assumptions C133_writer_any_width_partial.

(** With 64 bits it is the [Writer] of C107, and without overflow checks that of C128. *)
Theorem C133_writer_on_64_bits : forall (W : Type) (s : sink W), seeks_words s -> forall ops w,
  mw_run x86_64 s w ops = ww_run s w ops /\ mw_run x86_64_release s w ops = rww_run s w ops.
Proof. exact (fun W s H ops w => conj (run_wide s H ops w) (run_wider s H ops w)). Qed.
Print Assumptions C133_writer_on_64_bits.

(** With three bits: a write to position 9 panics or leaves the position 1; a seek to
    position 9 leaves 1. *)
Example C133_example :
  let f := mk_file [] 0 0 [] in
  mw_run (mk_machine 3 true) disk_sink (ww_new f) [WAll 9 [1; 2; 3; 4; 5; 6; 7; 8; 9]] = Panic /\
  mw_run (mk_machine 3 false) disk_sink (ww_new f) [WAll 9 [1; 2; 3; 4; 5; 6; 7; 8; 9]] =
    Ret (mk_wwriter (mk_file [1; 2; 3; 4; 5; 6; 7; 8; 9] 9 0 []) 1, [WWroteAll (Some (Okay tt))]) /\
  mw_run (mk_machine 3 true) disk_sink (ww_new f) [WAll 9 [1; 2; 3; 4; 5; 6; 7]; WSeek (Start 9); WWrite [5]] =
    Ret (mk_wwriter (mk_file [1; 2; 3; 4; 5; 6; 7; 0; 0; 5] 10 0 []) 2, [WWroteAll (Some (Okay tt)); WSought (Okay 9%nat); WWrote (Okay 1%nat)]).
Proof. cbv zeta. split; [vm_compute; reflexivity|]. split; vm_compute; reflexivity. Qed.

(** C134: over a reader that keeps the contract of [Read::read], [get_buffer] fills a slice of
    any length the machine has; its count does not overflow. *)
Theorem C134_get_buffer_any_width : forall m, 1 <= bits m -> forall (R : Type) (rd : reader R), honest_reader rd ->
  forall fuel r buf, N.of_nat (length buf) < 2 ^ bits m -> mget_buffer m rd fuel r buf 0 = get_buffer rd fuel r buf 0.
Proof. exact (fun m H R rd Hr fuel r buf L => buffer_on m H R rd Hr fuel r buf 0 L (Nat.le_0_l _)). Qed.
Print Assumptions C134_get_buffer_any_width.

Example C134_example :
  honest_reader (io_reader cursor_io) /\
  mget_buffer (mk_machine 3 true) (io_reader cursor_io) 9 (mk_cursor [1; 2; 3; 4; 5; 6; 7; 8] 0 [Deliver 3; Deliver 2]) [0; 0; 0; 0; 0; 0; 0] 0 =
  Ret (mk_cursor [1; 2; 3; 4; 5; 6; 7; 8] 7 [], [1; 2; 3; 4; 5; 6; 7], Some (Okay tt)).
Proof. split; [exact cursor_honest|vm_compute; reflexivity]. Qed.
