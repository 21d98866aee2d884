(** C126 to C128: texts, total depths and counters without overflow checks. *)
From Coq Require Import Ascii String.
From Coq Require Import List Arith NArith ZArith Bool.
From Verif Require Import Base AccModel AccSpec PixelModel FormatModel FrameModel MuxModel MuxSpec StreamModel StreamSpec DisplayModel TextSpec ReleaseModel.
From Verif Require Import WordCountModel WordCountSpec WordCountProofs PatchSpec ReleaseMiscModel ReleaseMiscSpec ReleaseMiscProofs.
Import ListNotations.
Local Open Scope N_scope.

(** C126 is false: of a packed component of 32 bits the mask 0 is printed. *)
Theorem C126_release_mask_refuted : exists c, depth c < 256 /\ shift c < 256 /\ ~ component_text c (r_show_chromaton c).
Proof. exact (ex_intro _ (mk_chromaton 0 0 true 32 0 0 4) (conj eq_refl (conj eq_refl (proj2 mask_lost)))). Qed.
Print Assumptions C126_release_mask_refuted.

(** C126: depth and shift are taken modulo 32, so below 32 the text is right; that includes
    the depth 31, where the build with overflow checks panics. *)
Theorem C126_release_mask_partial : forall c,
  component_text (wrapped c) (r_show_chromaton c) /\
  (ch_packed c = false \/ depth c < 32 /\ shift c < 32 -> component_text c (r_show_chromaton c)).
Proof. exact (fun c => conj (r_chromaton_text c) (r_chromaton_right c)). Qed.
Print Assumptions C126_release_mask_partial.

Theorem C126_release_format : forall f, format_text (wrapped_format f) (r_show_formaton f).
Proof. exact r_formaton_text. Qed.
Print Assumptions C126_release_format.

(** C126: where the build with overflow checks prints a text, this one prints the same. *)
Theorem C126_release_texts_agree :
  (forall c s, show_chromaton c = Ret s -> r_show_chromaton c = s) /\ (forall f s, show_formaton f = Ret s -> r_show_formaton f = s).
Proof. exact (conj chromaton_release formaton_release). Qed.
Print Assumptions C126_release_texts_agree.

Example C126_example :
  show_chromaton (mk_chromaton 0 0 true 31 0 0 4) = Panic /\
  r_show_chromaton (mk_chromaton 0 0 true 31 0 0 4) = "(0x0, packed(+0,7FFFFFFF, step 4))"%string /\
  r_show_chromaton (mk_chromaton 0 0 true 32 0 0 4) = "(0x0, packed(+0,0, step 4))"%string /\
  r_show_chromaton (mk_chromaton 0 0 true 5 43 0 4) = "(0x0, packed(+0,F800, step 4))"%string /\
  show_formaton fmt_RGB565 = Ret (r_show_formaton fmt_RGB565).
Proof. repeat apply conj; vm_compute; reflexivity. Qed.

(** C127: the total depth is the sum of the depths modulo 256. *)
Theorem C127_release_total_depth : forall f, r_get_total_depth f = fold_right (fun c n => depth c + n) 0 (present f) mod 256.
Proof. exact total_depth_release. Qed.
Print Assumptions C127_release_total_depth.

Example C127_example :
  exists f, formaton_new (Trichromatic RGB) (repeat (mk_chromaton 0 0 true 64 0 0 32) 4) 32 false true false = Ret f /\
    r_get_total_depth f = 0 /\ get_total_depth f = Panic /\ r_get_total_depth fmt_RGBA64 = 64.
Proof. eexists. split; [vm_compute; reflexivity|]. split; [vm_compute; reflexivity|]. split; vm_compute; reflexivity. Qed.

(** C128: [Writer] does what the unbounded model does, with the position modulo 2^64. *)
Theorem C128_release_writer : forall (W : Type) (s : sink W), seeks_words s -> forall ops w,
  rww_run s (wrapped_writer w) ops = match writer_run s w ops with Ret (w', outs) => Ret (wrapped_writer w', outs) | Panic => Panic | UB => UB end.
Proof. exact (@run_wrapped). Qed.
Print Assumptions C128_release_writer.

(** C128: over a reader that keeps the contract of [Read::read], [get_buffer] is the loop of the
    unbounded model. *)
Theorem C128_release_get_buffer : forall (R : Type) (rd : reader R), honest_reader rd ->
  forall fuel r buf, (N.of_nat (List.length buf) < W64)%N -> rget_buffer rd fuel r buf 0 = get_buffer rd fuel r buf 0.
Proof. exact (fun R rd H fuel r buf L => buffer_release R rd H fuel r buf 0 L (Nat.le_0_l _)). Qed.
Print Assumptions C128_release_get_buffer.

(** At the end of the range the position starts again from 0. *)
Example C128_example :
  rww_run disk_sink (ww_new (mk_file [] 0 0 [Okay 1%nat; Error Interrupted; Okay 2%nat]))
    [WAll 9 [1; 2; 3; 4]%N; WSeek (Start 1); WWrite [9]%N; WFlush] =
    Ret (mk_wwriter (mk_file [1; 9; 3; 4]%N 2 1 []) 2%N,
      [WWroteAll (Some (Okay tt)); WSought (Okay 1%nat); WWrote (Okay 1%nat); WFlushed (Okay tt)]) /\
  (exists p, seeks_words (end_sink p) /\
    exists w outs, rww_run (end_sink p) (ww_new 0%nat) [WSeek (End 0); WWrite [7]] = Ret (w, outs) /\ ww_written w = 0) /\
  rget_buffer (io_reader cursor_io) 9 (mk_cursor [1; 2; 3; 4; 5]%N 0 [Deliver 3]) [0; 0; 0; 0]%N 0 =
  Ret (mk_cursor [1; 2; 3; 4; 5]%N 4 [], [1; 2; 3; 4]%N, Some (Okay tt)).
Proof.
  split; [vm_compute; reflexivity|]. split; [|vm_compute; reflexivity]. destruct end_exists as [p Hp]. exists p. exact (end_wraps p Hp).
Qed.
