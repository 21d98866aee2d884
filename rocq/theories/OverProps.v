(** Property C168: inner readers that report more bytes than they were given room for. *)
From Coq Require Import List Arith NArith ZArith Bool.
From Verif Require Import Base ByteModel AccModel AccSpec StreamModel StreamSpec OverSpec OverProofs.
Import ListNotations.
Local Open Scope nat_scope.

(** C168: over any inner reader at all a history of calls on [AccReader] panics exactly if a call tops up the
    buffer and is told of more bytes than there was room for.  Otherwise the window stays in the
    buffer, which has the size it was given. *)
Theorem C168_panics_exactly : forall (R : Type) (i : io R), sized i -> forall cap r ops,
  (acc_run i (with_capacity cap r) ops = Panic <->
   exists ops1 op ops2 a outs, ops = ops1 ++ op :: ops2 /\ acc_run i (with_capacity cap r) ops1 = Ret (a, outs) /\ overlong_call i a op) /\
  acc_run i (with_capacity cap r) ops <> UB /\
  (forall a outs, acc_run i (with_capacity cap r) ops = Ret (a, outs) ->
     apos a <= aend a <= length (abuf a) /\ length (abuf a) = cap + grown ops).
Proof. exact @panics_exactly. Qed.
Print Assumptions C168_panics_exactly.

(** Reports of four bytes for a room of four, of none, and of four for a room of three. *)
Example C168_example : exists a outs,
  sized boaster_io /\
  acc_run boaster_io (with_capacity 4 [4; 0; 4]) [AFill; AConsume 1; AFill] = Ret (a, outs) /\
  outs = [OFill (Okay [0; 0; 0; 0]%N); OUnit; OFill (Okay [0; 0; 0]%N)] /\ overlong_call boaster_io a AFill /\
  acc_run boaster_io (with_capacity 4 [4; 0; 4]) [AFill; AConsume 1; AFill; AFill] = Panic.
Proof.
  eexists _, _. split; [exact boaster_sized|]. split; [vm_compute; reflexivity|]. split; [reflexivity|].
  split; [|vm_compute; reflexivity]. split; [cbn; intros [_ H]; discriminate H|]. eexists _, _, _. split; [vm_compute; reflexivity|].
  apply Nat.leb_le. vm_compute. reflexivity.
Qed.

(** A read larger than the buffer passes on what it is told, so that it reports more bytes
    than its own slice has. *)
Theorem C168_large_reads : forall (R : Type) (i : io R), sized i -> forall cap r ops a outs dst r' tail n,
  acc_run i (with_capacity cap r) ops = Ret (a, outs) -> cap + grown ops < length dst ->
  io_read i (inner a) (skipn (aend a - apos a) dst) = (r', tail, Okay n) ->
  exists a' held, data a = Ret held /\ read i a dst = Ret (a', held ++ tail, Okay (length held + n)) /\ data a' = Ret [] /\
    inner a' = r' /\ aindex a' = aindex a + length held + n.
Proof. exact @large_reads. Qed.
Print Assumptions C168_large_reads.

Example C168_large_example : exists a outs a',
  acc_run boaster_io (with_capacity 4 [2; 90]) [AFill] = Ret (a, outs) /\
  read boaster_io a [7; 7; 7; 7; 7]%N = Ret (a', [0; 0; 7; 7; 7]%N, Okay 92) /\ seek boaster_io a' (Current 0) = Ret (a', Okay 92).
Proof. eexists _, _, _. split; [vm_compute; reflexivity|]. split; vm_compute; reflexivity. Qed.

(** The getters of [ByteRead] then take bytes that were never delivered for the value, where
    [Read::read_exact] panics. *)
Theorem C168_getter_refuted : exists (s s' : list nat),
  sget_u32b (io_reader boaster_io) 4 s = Ret (s', Some (Okay 0%N)) /\
  exact_then 4 get_u32b (io_reader boaster_io) 4 s = Panic.
Proof. exact c168_getter_refuted. Qed.
Print Assumptions C168_getter_refuted.

(** No getter panics on any reader that does not. *)
Theorem C168_getters :
  takes_anything 1 get_u8 (@sget_u8) /\
  takes_anything 1 get_i8 (@sget_i8) /\
  takes_anything 2 get_u16l (@sget_u16l) /\
  takes_anything 2 get_i16l (@sget_i16l) /\
  takes_anything 4 get_u32l (@sget_u32l) /\
  takes_anything 4 get_i32l (@sget_i32l) /\
  takes_anything 8 get_u64l (@sget_u64l) /\
  takes_anything 8 get_i64l (@sget_i64l) /\
  takes_anything 4 get_f32l (@sget_f32l) /\
  takes_anything 8 get_f64l (@sget_f64l) /\
  takes_anything 2 get_u16b (@sget_u16b) /\
  takes_anything 2 get_i16b (@sget_i16b) /\
  takes_anything 4 get_u32b (@sget_u32b) /\
  takes_anything 4 get_i32b (@sget_i32b) /\
  takes_anything 8 get_u64b (@sget_u64b) /\
  takes_anything 8 get_i64b (@sget_i64b) /\
  takes_anything 4 get_f32b (@sget_f32b) /\
  takes_anything 8 get_f64b (@sget_f64b).
Proof. exact c168_getters. Qed.
Print Assumptions C168_getters.

Example C168_getters_example :
  sized_reader (io_reader boaster_io) /\
  sget_i16l (io_reader boaster_io) 2 [1; 7] = Ret ([], Some (Okay 0%Z)) /\ exact_then 2 get_i16l (io_reader boaster_io) 2 [1; 7] = Panic /\
  sget_i16l (io_reader boaster_io) 2 [1; 1] = exact_then 2 get_i16l (io_reader boaster_io) 2 [1; 1].
Proof. split; [exact boaster_reader|]. split; [vm_compute; reflexivity|]. split; vm_compute; reflexivity. Qed.
