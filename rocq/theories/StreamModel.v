(** Transcription of src/io/byteread.rs and of [ReadPacket]/[WritePacket] of
    data/src/packet.rs.

    A reader is an arbitrary type [R] with a function [rd], the [read] of std::io: it
    receives the destination slice and returns its new contents.  It may panic, so
    that [AccReader] is an instance.  A buffered reader has a function [fl], the
    [fill_buf] of std::io::BufRead. *)
From Coq Require Import List Arith NArith ZArith Bool.
From Verif Require Import Base ByteModel AccModel FormatModel MuxModel.
Import ListNotations.
Local Open Scope nat_scope.

Definition reader (R : Type) : Type := R -> list N -> outcome (R * list N * result nat io_error).
Definition filler (R : Type) : Type := R -> outcome (R * result (list N) io_error).

(** byteread.rs:9-19; [fuel] bounds the number of calls to [read] *)
Fixpoint get_buffer {R : Type} (rd : reader R) (fuel : nat) (r : R) (buf : list N) (nread : nat)
  : outcome (R * list N * option (result unit io_error)) :=
  if nread <? length buf then
    match fuel with
    | O => Ret (r, buf, None)
    | S fuel' =>
        let! tail := slice buf nread (length buf) in
        let! (r', tail', res) := rd r tail in
        let buf' := with_tail buf nread tail' in
        match res with
        | Okay O => Ret (r', buf', Some (Error UnexpectedEof))
        | Okay n => get_buffer rd fuel' r' buf' (nread + n)
        | Error e => Ret (r', buf', Some (Error e))
        end
    end
  else Ret (r, buf, Some (Okay tt)).

(** byteread.rs:21-27, the macro [get!] *)
Definition stream_get {V : Type} (k : nat) (get : list N -> outcome V) {R : Type} (rd : reader R) (fuel : nat) (r : R)
  : outcome (R * option (result V io_error)) :=
  let! (r', buf, res) := get_buffer rd fuel r (repeat 0%N k) 0 in
  match res with
  | None => Ret (r', None)
  | Some (Error e) => Ret (r', Some (Error e))
  | Some (Okay _) => let! v := get buf in Ret (r', Some (Okay v))
  end.

(** byteread.rs:88-97, the macro [peek!] *)
Definition stream_peek {V : Type} (k : nat) (get : list N -> outcome V) {R : Type} (fl : filler R) (r : R)
  : outcome (R * result V io_error) :=
  let! (r', res) := fl r in
  match res with
  | Error e => Ret (r', Error e)
  | Okay buf =>
      if length buf <? k then Ret (r', Error UnexpectedEof)
      else let! v := get buf in Ret (r', Okay v)
  end.

(** byteread.rs:30-32 *)
Definition sget_u8 {R : Type} : reader R -> nat -> R -> outcome (R * option (result N io_error)) := stream_get 1 get_u8.
(** byteread.rs:33-35 *)
Definition sget_i8 {R : Type} : reader R -> nat -> R -> outcome (R * option (result Z io_error)) := stream_get 1 get_i8.
(** byteread.rs:36-38 *)
Definition sget_u16l {R : Type} : reader R -> nat -> R -> outcome (R * option (result N io_error)) := stream_get 2 get_u16l.
(** byteread.rs:39-41 *)
Definition sget_i16l {R : Type} : reader R -> nat -> R -> outcome (R * option (result Z io_error)) := stream_get 2 get_i16l.
(** byteread.rs:42-44 *)
Definition sget_u32l {R : Type} : reader R -> nat -> R -> outcome (R * option (result N io_error)) := stream_get 4 get_u32l.
(** byteread.rs:45-47 *)
Definition sget_i32l {R : Type} : reader R -> nat -> R -> outcome (R * option (result Z io_error)) := stream_get 4 get_i32l.
(** byteread.rs:48-50 *)
Definition sget_u64l {R : Type} : reader R -> nat -> R -> outcome (R * option (result N io_error)) := stream_get 8 get_u64l.
(** byteread.rs:51-53 *)
Definition sget_i64l {R : Type} : reader R -> nat -> R -> outcome (R * option (result Z io_error)) := stream_get 8 get_i64l.
(** byteread.rs:54-56 *)
Definition sget_f32l {R : Type} : reader R -> nat -> R -> outcome (R * option (result N io_error)) := stream_get 4 get_f32l.
(** byteread.rs:57-59 *)
Definition sget_f64l {R : Type} : reader R -> nat -> R -> outcome (R * option (result N io_error)) := stream_get 8 get_f64l.
(** byteread.rs:60-62 *)
Definition sget_u16b {R : Type} : reader R -> nat -> R -> outcome (R * option (result N io_error)) := stream_get 2 get_u16b.
(** byteread.rs:63-65 *)
Definition sget_i16b {R : Type} : reader R -> nat -> R -> outcome (R * option (result Z io_error)) := stream_get 2 get_i16b.
(** byteread.rs:66-68 *)
Definition sget_u32b {R : Type} : reader R -> nat -> R -> outcome (R * option (result N io_error)) := stream_get 4 get_u32b.
(** byteread.rs:69-71 *)
Definition sget_i32b {R : Type} : reader R -> nat -> R -> outcome (R * option (result Z io_error)) := stream_get 4 get_i32b.
(** byteread.rs:72-74 *)
Definition sget_u64b {R : Type} : reader R -> nat -> R -> outcome (R * option (result N io_error)) := stream_get 8 get_u64b.
(** byteread.rs:75-77 *)
Definition sget_i64b {R : Type} : reader R -> nat -> R -> outcome (R * option (result Z io_error)) := stream_get 8 get_i64b.
(** byteread.rs:78-80 *)
Definition sget_f32b {R : Type} : reader R -> nat -> R -> outcome (R * option (result N io_error)) := stream_get 4 get_f32b.
(** byteread.rs:81-83 *)
Definition sget_f64b {R : Type} : reader R -> nat -> R -> outcome (R * option (result N io_error)) := stream_get 8 get_f64b.

(** byteread.rs:101-103 *)
Definition speek_u8 {R : Type} : filler R -> R -> outcome (R * result N io_error) := stream_peek 1 get_u8.
(** byteread.rs:104-106 *)
Definition speek_i8 {R : Type} : filler R -> R -> outcome (R * result Z io_error) := stream_peek 1 get_i8.
(** byteread.rs:107-109 *)
Definition speek_u16l {R : Type} : filler R -> R -> outcome (R * result N io_error) := stream_peek 2 get_u16l.
(** byteread.rs:110-112 *)
Definition speek_i16l {R : Type} : filler R -> R -> outcome (R * result Z io_error) := stream_peek 2 get_i16l.
(** byteread.rs:113-115 *)
Definition speek_u32l {R : Type} : filler R -> R -> outcome (R * result N io_error) := stream_peek 4 get_u32l.
(** byteread.rs:116-118 *)
Definition speek_i32l {R : Type} : filler R -> R -> outcome (R * result Z io_error) := stream_peek 4 get_i32l.
(** byteread.rs:119-121 *)
Definition speek_u64l {R : Type} : filler R -> R -> outcome (R * result N io_error) := stream_peek 8 get_u64l.
(** byteread.rs:122-124 *)
Definition speek_i64l {R : Type} : filler R -> R -> outcome (R * result Z io_error) := stream_peek 8 get_i64l.
(** byteread.rs:125-127 *)
Definition speek_f32l {R : Type} : filler R -> R -> outcome (R * result N io_error) := stream_peek 4 get_f32l.
(** byteread.rs:128-130 *)
Definition speek_f64l {R : Type} : filler R -> R -> outcome (R * result N io_error) := stream_peek 8 get_f64l.
(** byteread.rs:131-133 *)
Definition speek_u16b {R : Type} : filler R -> R -> outcome (R * result N io_error) := stream_peek 2 get_u16b.
(** byteread.rs:134-136 *)
Definition speek_i16b {R : Type} : filler R -> R -> outcome (R * result Z io_error) := stream_peek 2 get_i16b.
(** byteread.rs:137-139 *)
Definition speek_u32b {R : Type} : filler R -> R -> outcome (R * result N io_error) := stream_peek 4 get_u32b.
(** byteread.rs:140-142 *)
Definition speek_i32b {R : Type} : filler R -> R -> outcome (R * result Z io_error) := stream_peek 4 get_i32b.
(** byteread.rs:143-145 *)
Definition speek_u64b {R : Type} : filler R -> R -> outcome (R * result N io_error) := stream_peek 8 get_u64b.
(** byteread.rs:146-148 *)
Definition speek_i64b {R : Type} : filler R -> R -> outcome (R * result Z io_error) := stream_peek 8 get_i64b.
(** byteread.rs:149-151 *)
Definition speek_f32b {R : Type} : filler R -> R -> outcome (R * result N io_error) := stream_peek 4 get_f32b.
(** byteread.rs:152-154 *)
Definition speek_f64b {R : Type} : filler R -> R -> outcome (R * result N io_error) := stream_peek 8 get_f64b.

(** [Read::read_exact] (standard library, provided method): like [get_buffer], but
    [Interrupted] is retried, and the rest of the slice is taken by indexing, which fails if
    the reader reports more bytes than it was given room for. *)
Fixpoint std_read_exact {R : Type} (rd : reader R) (fuel : nat) (r : R) (buf : list N) (nread : nat)
  : outcome (R * list N * option (result unit io_error)) :=
  if nread <? length buf then
    match fuel with
    | O => Ret (r, buf, None)
    | S fuel' =>
        let! tail := slice buf nread (length buf) in
        let! (r', tail', res) := rd r tail in
        let buf' := with_tail buf nread tail' in
        match res with
        | Okay O => Ret (r', buf', Some (Error UnexpectedEof))
        | Okay n => if n <=? length tail then std_read_exact rd fuel' r' buf' (nread + n) else Panic
        | Error Interrupted => std_read_exact rd fuel' r' buf' nread
        | Error e => Ret (r', buf', Some (Error e))
        end
    end
  else Ret (r, buf, Some (Okay tt)).

(** packet.rs:62-66 *)
Definition get_packet {R : Type} (rd : reader R) (fuel : nat) (r : R) (len : nat) : outcome (R * option (result packet io_error)) :=
  let pkt := packet_zeroed len in
  let! (r', d, res) := std_read_exact rd fuel r (p_data pkt) 0 in
  match res with
  | None => Ret (r', None)
  | Some (Error e) => Ret (r', Some (Error e))
  | Some (Okay _) => Ret (r', Some (Okay (mk_packet d (p_pos pkt) (p_stream_index pkt) (p_t pkt) (p_key pkt) (p_corrupted pkt))))
  end.

(** packet.rs:72-74 *)
Definition put_packet {W : Type} (s : sink W) (fuel : nat) (w : W) (pkt : packet) : outcome (W * option (result unit io_error)) :=
  write_all s fuel w (p_data pkt).

(** The reads of a source as in [AccModel]. *)
Definition io_reader {R : Type} (i : io R) : reader R := fun r dst => Ret (io_read i r dst).
