(** Transcription of the data types of data/src/packet.rs, data/src/timeinfo.rs,
    format/src/stream.rs, format/src/common.rs and format/src/error.rs, and of
    [GlobalInfo::add_stream].

    [isize]/[i64] values are [Z], [usize]/[u64] values are [N].  The opaque
    [user_private] pointers are represented by an optional token.  The codec
    parameters of a stream are an arbitrary type [P]: nothing here looks at
    them. *)
From Coq Require Import List Arith NArith ZArith Bool.
From Verif Require Import Base AccModel.
Import ListNotations.
Local Open Scope nat_scope.

(** [Rational64]: numerator and denominator. *)
Definition rational : Type := (Z * Z)%type.

(** timeinfo.rs:8-23 *)
Record time_info : Type := mk_time {
  t_pts : option Z;
  t_dts : option Z;
  t_duration : option N;
  t_timebase : option rational;
  t_private : option nat
}.
(** [#[derive(Default)]] *)
Definition default_time : time_info := mk_time None None None None None.

(** packet.rs:9-26 *)
Record packet : Type := mk_packet {
  p_data : list N;
  p_pos : option N;
  p_stream_index : Z;
  p_t : time_info;
  p_key : bool;
  p_corrupted : bool
}.

(** packet.rs:30-39, 42-51, 54-56 (the capacity of a vector is not observable;
    allocations that fail are in [MachineAllocModel]) *)
Definition packet_with_capacity (capacity : nat) : packet := mk_packet [] None (-1) default_time false false.
Definition packet_zeroed (size : nat) : packet := mk_packet (repeat 0%N size) None (-1) default_time false false.
Definition packet_new : packet := packet_with_capacity 0.

(** stream.rs:7-34 *)
Record stream (P : Type) : Type := mk_stream {
  s_id : Z;
  s_index : N;
  s_params : P;
  s_start : option N;
  s_duration : option N;
  s_timebase : rational;
  s_private : option nat
}.
Arguments mk_stream {P}.
Arguments s_id {P}.
Arguments s_index {P}.
Arguments s_params {P}.
Arguments s_start {P}.
Arguments s_duration {P}.
Arguments s_timebase {P}.
Arguments s_private {P}.

(** stream.rs:38-49 *)
Definition stream_from_params {P : Type} (params : P) (timebase : rational) : stream P :=
  mk_stream (-1) 0 params None None timebase None.

(** common.rs:5-17 *)
Record global_info (P : Type) : Type := mk_info {
  g_duration : option N;
  g_timebase : option rational;
  g_streams : list (stream P)
}.
Arguments mk_info {P}.
Arguments g_duration {P}.
Arguments g_timebase {P}.
Arguments g_streams {P}.

(** [x as isize] for [x : usize] *)
Definition as_isize (n : N) : Z := as_signed 64 n.

(** common.rs:21-32 *)
Definition add_stream {P : Type} (g : global_info P) (st : stream P) : global_info P * N :=
  let idx := N.of_nat (length (g_streams g)) in
  let st1 :=
    if (s_id st <? 0)%Z then
      mk_stream (as_isize (s_index st)) (s_index st) (s_params st) (s_start st) (s_duration st) (s_timebase st) (s_private st)
    else st in
  let st2 := mk_stream (s_id st1) idx (s_params st1) (s_start st1) (s_duration st1) (s_timebase st1) (s_private st1) in
  (mk_info (g_duration g) (g_timebase g) (g_streams g ++ [st2]), idx).

(** error.rs:6-13 *)
Inductive error : Type :=
| InvalidData
| MoreDataNeeded (n : nat)
| Io (e : io_error).
