(** Transcription of bitstream/src/byteread.rs and bitstream/src/bytewrite.rs.
    Bytes and unsigned integers are [N], signed integers [Z], floats are their
    IEEE bit patterns ([f32::from_bits]/[to_bits] are bit-preserving). *)
From Coq Require Import List Arith NArith ZArith Bool.
From Verif Require Import Base.
Import ListNotations.
Local Open Scope nat_scope.

(** [uN::from_le_bytes] / [uN::from_be_bytes] (standard library). *)
Definition from_le_bytes (l : list N) : N :=
  fold_right (fun b acc => b + 256 * acc)%N 0%N l.
Definition from_be_bytes (l : list N) : N :=
  fold_left (fun acc b => acc * 256 + b)%N l 0%N.
(** [uN::to_le_bytes] / [to_be_bytes] for a [k]-byte type (standard library). *)
Fixpoint to_le_bytes (k : nat) (v : N) : list N :=
  match k with
  | O => []
  | S k' => (v mod 256)%N :: to_le_bytes k' (v / 256)%N
  end.
Definition to_be_bytes (k : nat) (v : N) : list N := rev (to_le_bytes k v).

(** * Getters: bitstream/src/byteread.rs *)

(** byteread.rs:8-11 *)
Definition get_u8 (buf : list N) : outcome N :=
  if 0 <? length buf then index_at buf 0 else Panic.

(** byteread.rs:15-18 *)
Definition get_i8 (buf : list N) : outcome Z :=
  if 0 <? length buf then let! b := index_at buf 0 in Ret (as_signed 8 b) else Panic.

(** byteread.rs:23-27 *)
Definition get_u16l (buf : list N) : outcome N :=
  if 1 <? length buf then
    let! b0 := index_at buf 0 in
    let! b1 := index_at buf 1 in
    Ret (from_le_bytes [b0; b1])
  else Panic.

(** byteread.rs:31-35 *)
Definition get_u16b (buf : list N) : outcome N :=
  if 1 <? length buf then
    let! b0 := index_at buf 0 in
    let! b1 := index_at buf 1 in
    Ret (from_be_bytes [b0; b1])
  else Panic.

(** byteread.rs:40-44 *)
Definition get_u32l (buf : list N) : outcome N :=
  if 3 <? length buf then
    let! b0 := index_at buf 0 in
    let! b1 := index_at buf 1 in
    let! b2 := index_at buf 2 in
    let! b3 := index_at buf 3 in
    Ret (from_le_bytes [b0; b1; b2; b3])
  else Panic.

(** byteread.rs:48-52 *)
Definition get_u32b (buf : list N) : outcome N :=
  if 3 <? length buf then
    let! b0 := index_at buf 0 in
    let! b1 := index_at buf 1 in
    let! b2 := index_at buf 2 in
    let! b3 := index_at buf 3 in
    Ret (from_be_bytes [b0; b1; b2; b3])
  else Panic.

(** byteread.rs:57-63 *)
Definition get_u64l (buf : list N) : outcome N :=
  if 7 <? length buf then
    let! b0 := index_at buf 0 in
    let! b1 := index_at buf 1 in
    let! b2 := index_at buf 2 in
    let! b3 := index_at buf 3 in
    let! b4 := index_at buf 4 in
    let! b5 := index_at buf 5 in
    let! b6 := index_at buf 6 in
    let! b7 := index_at buf 7 in
    Ret (from_le_bytes [b0; b1; b2; b3; b4; b5; b6; b7])
  else Panic.

(** byteread.rs:67-73 *)
Definition get_u64b (buf : list N) : outcome N :=
  if 7 <? length buf then
    let! b0 := index_at buf 0 in
    let! b1 := index_at buf 1 in
    let! b2 := index_at buf 2 in
    let! b3 := index_at buf 3 in
    let! b4 := index_at buf 4 in
    let! b5 := index_at buf 5 in
    let! b6 := index_at buf 6 in
    let! b7 := index_at buf 7 in
    Ret (from_be_bytes [b0; b1; b2; b3; b4; b5; b6; b7])
  else Panic.

(** byteread.rs:78-80 *)
Definition get_i16l (buf : list N) : outcome Z :=
  let! v := get_u16l buf in Ret (as_signed 16 v).

(** byteread.rs:85-87 *)
Definition get_i16b (buf : list N) : outcome Z :=
  let! v := get_u16b buf in Ret (as_signed 16 v).

(** byteread.rs:92-94 *)
Definition get_i32l (buf : list N) : outcome Z :=
  let! v := get_u32l buf in Ret (as_signed 32 v).

(** byteread.rs:99-101 *)
Definition get_i32b (buf : list N) : outcome Z :=
  let! v := get_u32b buf in Ret (as_signed 32 v).

(** byteread.rs:106-108 *)
Definition get_i64l (buf : list N) : outcome Z :=
  let! v := get_u64l buf in Ret (as_signed 64 v).

(** byteread.rs:113-115 *)
Definition get_i64b (buf : list N) : outcome Z :=
  let! v := get_u64b buf in Ret (as_signed 64 v).

(** byteread.rs:120-122; the float is represented by its bit pattern *)
Definition get_f32l (buf : list N) : outcome N := get_u32l buf.

(** byteread.rs:127-129; the float is represented by its bit pattern *)
Definition get_f32b (buf : list N) : outcome N := get_u32b buf.

(** byteread.rs:134-136; the float is represented by its bit pattern *)
Definition get_f64l (buf : list N) : outcome N := get_u64l buf.

(** byteread.rs:141-143; the float is represented by its bit pattern *)
Definition get_f64b (buf : list N) : outcome N := get_u64b buf.

(** * Putters: bitstream/src/bytewrite.rs *)

(** [buf[..bytes.len()].copy_from_slice(&bytes)]: bytewrite.rs:6, 13 *)
Definition write_prefix (buf bs : list N) : outcome (list N) :=
  if length bs <=? length buf then Ret (bs ++ skipn (length bs) buf) else Panic.

(** bytewrite.rs:3-8 and 10-15 *)
Definition write_bytes_le (k : nat) (buf : list N) (n : N) : outcome (list N) :=
  write_prefix buf (to_le_bytes k n).
Definition write_bytes_be (k : nat) (buf : list N) (n : N) : outcome (list N) :=
  write_prefix buf (to_be_bytes k n).

(** bytewrite.rs:19-21 *)
Definition put_u8 (buf : list N) (n : N) : outcome (list N) := store buf 0 n.

(** bytewrite.rs:26-28 *)
Definition put_i8 (buf : list N) (n : Z) : outcome (list N) := store buf 0 (as_unsigned 8 n).

(** bytewrite.rs:32-34 *)
Definition put_u16l (buf : list N) (n : N) : outcome (list N) :=
  write_bytes_le 2 buf n.

(** bytewrite.rs:38-40 *)
Definition put_u16b (buf : list N) (n : N) : outcome (list N) :=
  write_bytes_be 2 buf n.

(** bytewrite.rs:44-46 *)
Definition put_u32l (buf : list N) (n : N) : outcome (list N) :=
  write_bytes_le 4 buf n.

(** bytewrite.rs:50-52 *)
Definition put_u32b (buf : list N) (n : N) : outcome (list N) :=
  write_bytes_be 4 buf n.

(** bytewrite.rs:56-58 *)
Definition put_u64l (buf : list N) (n : N) : outcome (list N) :=
  write_bytes_le 8 buf n.

(** bytewrite.rs:62-64 *)
Definition put_u64b (buf : list N) (n : N) : outcome (list N) :=
  write_bytes_be 8 buf n.

(** bytewrite.rs:69-71 *)
Definition put_i16l (buf : list N) (n : Z) : outcome (list N) :=
  put_u16l buf (as_unsigned 16 n).

(** bytewrite.rs:76-78 *)
Definition put_i16b (buf : list N) (n : Z) : outcome (list N) :=
  put_u16b buf (as_unsigned 16 n).

(** bytewrite.rs:83-85 *)
Definition put_i32l (buf : list N) (n : Z) : outcome (list N) :=
  put_u32l buf (as_unsigned 32 n).

(** bytewrite.rs:90-92 *)
Definition put_i32b (buf : list N) (n : Z) : outcome (list N) :=
  put_u32b buf (as_unsigned 32 n).

(** bytewrite.rs:97-99 *)
Definition put_i64l (buf : list N) (n : Z) : outcome (list N) :=
  put_u64l buf (as_unsigned 64 n).

(** bytewrite.rs:104-106 *)
Definition put_i64b (buf : list N) (n : Z) : outcome (list N) :=
  put_u64b buf (as_unsigned 64 n).

(** bytewrite.rs:111-113; the float is represented by its bit pattern *)
Definition put_f32l (buf : list N) (n : N) : outcome (list N) :=
  write_bytes_le 4 buf n.

(** bytewrite.rs:118-120; the float is represented by its bit pattern *)
Definition put_f32b (buf : list N) (n : N) : outcome (list N) :=
  write_bytes_be 4 buf n.

(** bytewrite.rs:125-127; the float is represented by its bit pattern *)
Definition put_f64l (buf : list N) (n : N) : outcome (list N) :=
  write_bytes_le 8 buf n.

(** bytewrite.rs:132-134; the float is represented by its bit pattern *)
Definition put_f64b (buf : list N) (n : N) : outcome (list N) :=
  write_bytes_be 8 buf n.

