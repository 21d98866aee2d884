(** C107, C108: the remaining counters as machine words. *)
From Coq Require Import List Arith NArith ZArith.
From Verif Require Import Base AccModel AccSpec MuxModel MuxSpec StreamModel StreamSpec WordCountModel WordCountSpec WordCountProofs PatchSpec.
Import ListNotations.
Local Open Scope nat_scope.

(** C107: with a 64-bit count, [Writer] does what the unbounded model does as long as the
    position stays below 2^64 after every call, and panics otherwise. *)
Theorem C107_writer_words : forall (W : Type) (s : sink W), seeks_words s ->
  forall ops w, (N.of_nat (w_written w) < W64)%N ->
  (position_fits s w ops ->
   ww_run s (word_writer w) ops =
   match writer_run s w ops with Ret (w', outs) => Ret (word_writer w', outs) | _ => Panic end) /\
  (~ position_fits s w ops -> ww_run s (word_writer w) ops = Panic).
Proof. exact (@run_word). Qed.
Print Assumptions C107_writer_words.

(** A new [Writer] starts at 0. *)
Theorem C107_writer_starts : forall (W : Type) (w : W), ww_new w = word_writer (writer_new w) /\ ww_written (ww_new w) = 0%N.
Proof. exact (fun W w => conj eq_refl eq_refl). Qed.
Print Assumptions C107_writer_starts.

(** Both cases occur. *)
Example C107_example :
  ww_run disk_sink (ww_new (mk_file [] 0 0 [Okay 1; Error Interrupted; Okay 2]))
    [WAll 9 [1; 2; 3; 4]%N; WSeek (Start 1); WWrite [9]%N; WFlush] =
    Ret (mk_wwriter (mk_file [1; 9; 3; 4]%N 2 1 []) 2%N,
      [WWroteAll (Some (Okay tt)); WSought (Okay 1); WWrote (Okay 1); WFlushed (Okay tt)]) /\
  exists p, seeks_words (end_sink p) /\ ww_run (end_sink p) (ww_new 0) [WSeek (End 0); WWrite [7%N]] = Panic.
Proof. split; [vm_compute; reflexivity|]. destruct end_exists as [p Hp]. exists p. exact (end_panics p Hp). Qed.

(** C108: over a reader that keeps the contract of [Read::read], the count of [get_buffer] does
    not overflow, and the loop is that of the unbounded model. *)
Theorem C108_get_buffer_words : forall (R : Type) (rd : reader R), honest_reader rd ->
  forall fuel r buf, (N.of_nat (length buf) < W64)%N -> wget_buffer rd fuel r buf 0 = get_buffer rd fuel r buf 0.
Proof. exact (fun R rd H fuel r buf L => buffer_word R rd H fuel r buf 0 L (Nat.le_0_l _)). Qed.
Print Assumptions C108_get_buffer_words.

Example C108_example :
  honest_reader (io_reader cursor_io) /\
  wget_buffer (io_reader cursor_io) 9 (mk_cursor [1; 2; 3; 4; 5]%N 0 [Deliver 3]) [0; 0; 0; 0]%N 0 =
  Ret (mk_cursor [1; 2; 3; 4; 5]%N 4 [], [1; 2; 3; 4]%N, Some (Okay tt)).
Proof. split; [exact cursor_honest|vm_compute; reflexivity]. Qed.
