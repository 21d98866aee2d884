(** Properties C129 to C132: [AccReader] for any width of [usize]. *)
From Coq Require Import List Arith NArith ZArith Bool.
From Verif Require Import Base AccModel AccSpec AccExamples WordAccModel WordSpec WordAccProofs ReleaseAccModel ReleaseAccSpec ReleaseAccProofs.
From Verif Require Import MachineModel MachineAccModel MachineAccSpec MachineAccProofs MachineAccProofs2.
Import ListNotations.
Local Open Scope N_scope.

(** C129: with 64 bits it is the reader of C96, and without overflow checks that of C112. *)
Theorem C129_acc_on_64_bits : forall (R : Type) (i : io R) cap r ops, reports_u64 i -> honest_io i ->
  Forall call_fits ops -> cap + N.of_nat (grown ops) < 2 ^ 63 ->
  m_acc_run x86_64 i (w_with_capacity cap r) ops = w_acc_run i (w_with_capacity cap r) ops /\
  m_acc_run x86_64_release i (w_with_capacity cap r) ops = ra_run i (w_with_capacity cap r) ops.
Proof. intros R i cap r ops Hs Hh. exact (acc_64 i Hs Hh cap r ops). Qed.
Print Assumptions C129_acc_on_64_bits.

Example C129_example : exists a outs, honest_io word_cursor_io /\ reports_u64 word_cursor_io /\
  m_acc_run x86_64 word_cursor_io (w_with_capacity 10 ex_cursor) ex_ops = Ret (a, outs) /\ wa_index a = 30.
Proof.
  eexists _, _. split; [exact word_cursor_honest|]. split; [exact word_cursor_u64|]. split; vm_compute; reflexivity.
Qed.

(** C130: for any width up to 64 bits, with and without overflow checks, it does what the
    reader with unbounded counters does, for every source that behaves like a file and every
    legal history, as long as source and buffer are shorter than half the address space and
    positions fit [usize]. *)
Theorem C130_acc_any_width : forall m, 1 <= bits m -> forall (R : Type) (i : io R) src good tell r cap ops, bits m <= 64 ->
  source_ok i src good tell -> good r -> tell r = 0%nat -> reports_within m i ->
  acc_legal i (with_capacity cap r) ops -> Forall (call_within m) ops ->
  N.of_nat (length src) < 2 ^ (bits m - 1) -> N.of_nat cap + N.of_nat (grown ops) < 2 ^ (bits m - 1) ->
  m_acc_run m i (w_with_capacity (N.of_nat cap) r) ops =
  (let! (a, outs) := acc_run i (with_capacity cap r) ops in Ret (word_acc a, outs)).
Proof. exact acc_within. Qed.
Print Assumptions C130_acc_any_width.

Example C130_example :
  source_ok (narrow_cursor_io wasm32) ex_src (fun c => cur_src c = ex_src) cur_pos /\ reports_within wasm32 (narrow_cursor_io wasm32) /\
  acc_legal (narrow_cursor_io wasm32) (with_capacity 10 ex_cursor) ex_ops /\ Forall (call_within wasm32) ex_ops /\
  exists a outs, m_acc_run wasm32 (narrow_cursor_io wasm32) (w_with_capacity 10 ex_cursor) ex_ops = Ret (a, outs) /\
    length outs = length ex_ops /\ wa_index a = 30.
Proof.
  split; [apply narrow_cursor_ok|]. split; [exact (narrow_cursor_within wasm32)|]. split; [exact narrow_legal|].
  split; [repeat (constructor; [first [exact I | reflexivity | split; reflexivity]|]); constructor|].
  eexists _, _. split; [vm_compute; reflexivity|]. split; vm_compute; reflexivity.
Qed.

(** C131: reading on, through a source of any length: without overflow checks the data is
    that of the unbounded reader and the position is kept modulo 2^bits; with them the
    history panics exactly if it gets as far as position 2^bits. *)
Theorem C131_acc_reads_on : forall m, 1 <= bits m -> forall (R : Type) (i : io R) src good tell r cap ops,
  source_ok i src good tell -> good r -> tell r = 0%nat -> Forall no_seek ops ->
  acc_legal i (with_capacity cap r) ops -> Forall (call_within m) ops -> N.of_nat cap + N.of_nat (grown ops) < 2 ^ (bits m - 1) ->
  m_acc_run m i (w_with_capacity (N.of_nat cap) r) ops =
  (let! (a, outs) := acc_run i (with_capacity cap r) ops in
   if checked m && (2 ^ bits m <=? N.of_nat (aindex a)) then Panic else Ret (seen_on m a, outs)).
Proof. exact acc_reading. Qed.
Print Assumptions C131_acc_reads_on.

(** With four bits and 30 bytes to read: *)
Example C131_example :
  let ops := [ARead (ex_slice 7); ARead (ex_slice 6); AFill; AConsume 1; ARead (ex_slice 7); ARead (ex_slice 3)] in
  acc_legal cursor_io (with_capacity 7 (mk_cursor ex_src 0 [])) ops /\ Forall (call_within (mk_machine 4 true)) ops /\
  (exists a outs, m_acc_run (mk_machine 4 true) cursor_io (w_with_capacity 7 (mk_cursor ex_src 0 [])) (firstn 4 ops) = Ret (a, outs) /\ wa_index a = 14) /\
  m_acc_run (mk_machine 4 true) cursor_io (w_with_capacity 7 (mk_cursor ex_src 0 [])) ops = Panic /\
  exists a outs, m_acc_run (mk_machine 4 false) cursor_io (w_with_capacity 7 (mk_cursor ex_src 0 [])) ops = Ret (a, outs) /\
    wa_index a = 24 mod 16 /\ nth 5 outs OUnit = ORead [121; 122; 123] (Okay 3%nat).
Proof.
  cbv zeta. split; [apply AccProofs2.acc_legalb_sound; vm_compute; reflexivity|].
  split; [repeat (constructor; [first [exact I | reflexivity]|]); constructor|].
  split; [eexists _, _; split; vm_compute; reflexivity|]. split; [vm_compute; reflexivity|].
  eexists _, _. split; [vm_compute; reflexivity|]. split; vm_compute; reflexivity.
Qed.

(** C132: a seek goes where it is told to.  With 32 bits it does not, with and without
    overflow checks: asked for position 2^32 + 5 it goes to 5 and says so, asked to skip
    2^32 bytes it stays. *)
Theorem C132_acc_far_seek_refuted : forall c, exists n a outs, N.of_nat n = 2 ^ 32 + 5 /\
  m_acc_run (mk_machine 32 c) word_cursor_io (w_with_capacity 10 (mk_cursor ex_src 0 [])) [AFill; ASeek (Start n); ARead [0]] = Ret (a, outs) /\
  outs = [OFill (Okay (firstn 10 ex_src)); OSeek (Okay 5%nat); ORead [105] (Okay 1%nat)].
Proof. exact far_seek. Qed.
Print Assumptions C132_acc_far_seek_refuted.

Theorem C132_acc_far_skip_refuted : forall c, exists a outs,
  m_acc_run (mk_machine 32 c) word_cursor_io (w_with_capacity 10 (mk_cursor ex_src 0 [])) [AFill; ASeek (Current (2 ^ 32)); ARead [0]] = Ret (a, outs) /\
  outs = [OFill (Okay (firstn 10 ex_src)); OSeek (Okay 0%nat); ORead [100] (Okay 1%nat)].
Proof. exact far_skip. Qed.
Print Assumptions C132_acc_far_skip_refuted.

(** Exactly: the position asked for is cut off before it is looked for in the buffer, and
    only when it is not found there the source is asked, for the whole of it. *)
Theorem C132_acc_seek_start_partial : forall m, 1 <= bits m -> forall (R : Type) (i : io R) (a : wacc R) n,
  wa_pos a <= wa_end a -> wa_index a + wa_end a < 2 ^ bits m ->
  m_seek m i a (Start n) =
  (let t := N.of_nat n mod 2 ^ bits m in
   if (wa_index a <=? t) && (t <? wa_index a + (wa_end a - wa_pos a))
   then Ret (mk_wacc (wa_inner a) (wa_buf a) (wa_pos a + (t - wa_index a)) (wa_end a) t, Okay (N.to_nat t))
   else m_seek_inner m i a (Start n)).
Proof. exact seek_start_exact. Qed.
Print Assumptions C132_acc_seek_start_partial.

Theorem C132_acc_seek_current_partial : forall m, 1 <= bits m -> forall (R : Type) (i : io R) (a : wacc R) d,
  bits m <= 64 -> (0 <= d < 2 ^ 63)%Z -> wa_pos a <= wa_end a -> wa_end a < 2 ^ (bits m - 1) -> wa_index a + wa_end a < 2 ^ bits m ->
  m_seek m i a (Current d) =
  (let t := Z.to_N d mod 2 ^ bits m in
   if t <=? wa_end a - wa_pos a
   then Ret (mk_wacc (wa_inner a) (wa_buf a) (wa_pos a + t) (wa_end a) (wa_index a + t), Okay (N.to_nat (wa_index a + t)))
   else m_seek_inner m i a (Current (d - Z.of_N (wa_end a - wa_pos a)))).
Proof. exact seek_current_exact. Qed.
Print Assumptions C132_acc_seek_current_partial.

(** A seek the source carries out returns where the source went; asked for the position
    afterwards the reader gives its low bits only. *)
Theorem C132_acc_position_afterwards : forall m, 1 <= bits m -> forall (R : Type) (i : io R) (a a' : wacc R) s q,
  m_seek_inner m i a s = Ret (a', Okay q) ->
  wa_index a' = N.of_nat q mod 2 ^ bits m /\ wa_pos a' = 0 /\
  m_seek m i a' (Current 0) = Ret (a', Okay (N.to_nat (N.of_nat q mod 2 ^ bits m))).
Proof. exact seek_reported. Qed.
Print Assumptions C132_acc_position_afterwards.

(** With four bits: 21 is 5 when cut off, which is not buffered; 18 is 2, which is. *)
Example C132_example :
  let a := mk_wacc (mk_cursor ex_src 4 []) [100; 101; 102; 103] 0 4 0 in
  m_seek (mk_machine 4 true) cursor_io a (Start 21) = Ret (mk_wacc (mk_cursor ex_src 25 []) [121; 122; 123; 124] 0 4 5, Okay 21%nat) /\
  m_seek (mk_machine 4 true) cursor_io (mk_wacc (mk_cursor ex_src 25 []) [121; 122; 123; 124] 0 4 5) (Current 0) =
    Ret (mk_wacc (mk_cursor ex_src 25 []) [121; 122; 123; 124] 0 4 5, Okay 5%nat) /\
  m_seek (mk_machine 4 true) cursor_io a (Start 18) = Ret (mk_wacc (mk_cursor ex_src 4 []) [100; 101; 102; 103] 2 4 2, Okay 2%nat) /\
  m_seek (mk_machine 4 true) cursor_io a (Current 19) = Ret (mk_wacc (mk_cursor ex_src 4 []) [100; 101; 102; 103] 3 4 3, Okay 3%nat) /\
  m_seek (mk_machine 4 true) cursor_io a (Current 6) = Ret (mk_wacc (mk_cursor ex_src 10 []) [106; 107; 108; 109] 0 4 6, Okay 6%nat).
Proof. cbv zeta. repeat split. Qed.
