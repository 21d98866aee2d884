(** [AccReader::get_mut]: C156 and C157. *)
From Coq Require Import List Arith NArith ZArith.
From Verif Require Import Base AccModel AccSpec AccAnySpec AccMutSpec AccMutProofs AccExamples.
Import ListNotations.
Local Open Scope nat_scope.

(** C156: whatever the client does to the inner reader through [get_mut] between the calls:
    no call panics; the bytes delivered are the buffered ones, as they were when they were
    read, and then those of the source as it is, from wherever the inner reader is; the
    position reported counts the bytes delivered and knows nothing of the moves. *)
Theorem C156_inner_touched : forall (R : Type) (i : io R) good tell cap r s ops,
  (forall s', source_ok i s' (good s') tell) -> good s r -> Forall (touches good tell) ops ->
  exists a outs m, mut_run i (with_capacity cap r) ops = Ret (a, outs) /\
    history_mixed (mk_mixed s [] (tell r) 0) ops outs m /\
    good (x_src m) (into_inner a) /\ tell (into_inner a) = x_at m /\ data a = Ret (x_buf m) /\ seek i a (Current 0) = Ret (a, Okay (x_told m)).
Proof. exact c156_inner_touched. Qed.
Print Assumptions C156_inner_touched.

(** Three bytes are read and ten more are buffered, bytes 5 and 20 are overwritten and the
    inner reader is moved to 19: byte 5 is still the old one, byte 20 is the new one, and
    what comes after the buffer is at 19.  The reader takes itself to be at 15. *)
Example C156_example :
  let ops := [Call (ARead (ex_slice 3)); Call AFill; overwrite 5 7; overwrite 20 8; move_to 19; Call AData; Call (ARead (ex_slice 12))] in
  Forall (touches cur_good cur_pos) ops /\
  exists a, mut_run cursor_io (with_capacity 10 ex_cursor) ops =
    Ret (a, [ORead [100; 101; 102]%N (Okay 3); OFill (Okay (map N.of_nat (seq 103 10))); OData (map N.of_nat (seq 103 10));
             ORead (map N.of_nat (seq 103 10) ++ [119; 8]%N) (Okay 12)]) /\
    seek cursor_io a (Current 0) = Ret (a, Okay 15) /\ cur_pos (get_ref a) = 21.
Proof.
  cbv zeta. split.
  - repeat (apply Forall_cons; [first [exact I | apply overwrite_touches | apply move_touches]|]). apply Forall_nil.
  - eexists. split; [vm_compute; reflexivity|]. split; vm_compute; reflexivity.
Qed.

(** C157: seeking to an absolute position is wrong if the inner reader was moved. *)
Theorem C157_moved_under_refuted : exists (good : list N -> cursor -> Prop) (src : list N) (r0 : cursor) (cap : nat) (ops : list (mut_op cursor)) a outs q a',
  (forall s, source_ok cursor_io s (good s) cur_pos) /\ (forall s, never_fails cursor_io s (good s) cur_pos) /\ good src r0 /\ cur_pos r0 = 0 /\
  Forall (touches good cur_pos) ops /\
  mut_run cursor_io (with_capacity cap r0) ops = Ret (a, outs) /\ good src (into_inner a) /\
  seek cursor_io a (Start q) = Ret (a', Okay q) /\ q < length src /\ ~ delivers cursor_io src a' q.
Proof. exact moved_under_refuted. Qed.
Print Assumptions C157_moved_under_refuted.

(** C157: it is right if the position is outside the ones the reader takes to be buffered,
    and so is a seek relative to the end; everything is right from then on. *)
Theorem C157_outside_seek_partial : forall (R : Type) (i : io R) good tell cap r s0 ops a outs,
  (forall s, source_ok i s (good s) tell) -> (forall s, never_fails i s (good s) tell) ->
  good s0 r -> Forall (touches good tell) ops -> mut_run i (with_capacity cap r) ops = Ret (a, outs) ->
  exists s buf told, good s (into_inner a) /\ data a = Ret buf /\ seek i a (Current 0) = Ret (a, Okay told) /\
    forall w q,
      (w = Start q /\ (q < told \/ told + length buf <= q)) \/ (exists d, w = End d /\ Z.of_nat q = (Z.of_nat (length s) + d)%Z) ->
      exists a', seek i a w = Ret (a', Okay q) /\ delivers i s a' q /\
        forall ops2, acc_legal i a' ops2 ->
          exists a2 outs2 p2, acc_run i a' ops2 = Ret (a2, outs2) /\ history_spec s q ops2 outs2 p2.
Proof. exact outside_seek_repairs. Qed.
Print Assumptions C157_outside_seek_partial.

(** After the same moves: 5 is buffered, and the bytes from there are wrong after 8 of them;
    2 and 13 are not. *)
Example C157_example :
  let a0 := match mut_run cursor_io (with_capacity 10 ex_cursor) [Call (ARead (ex_slice 3)); Call AFill; move_to 19] with Ret (a, _) => a | _ => with_capacity 0 ex_cursor end in
  exists a1 a2 a3 b1 b2 b3,
    seek cursor_io a0 (Start 5) = Ret (a1, Okay 5) /\ read_exact cursor_io 9 a1 9 = Ret (b1, Some (Okay (map N.of_nat (seq 105 8) ++ [119]%N))) /\
    seek cursor_io a0 (Start 2) = Ret (a2, Okay 2) /\ read_exact cursor_io 9 a2 9 = Ret (b2, Some (Okay (map N.of_nat (seq 102 9)))) /\
    seek cursor_io a0 (Start 13) = Ret (a3, Okay 13) /\ read_exact cursor_io 9 a3 9 = Ret (b3, Some (Okay (map N.of_nat (seq 113 9)))).
Proof. eexists _, _, _, _, _, _. repeat split; vm_compute; reflexivity. Qed.
