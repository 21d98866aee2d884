(** Properties C01-C04: byte getters and putters. *)
From Coq Require Import List Arith NArith ZArith.
From Verif Require Import Base ByteModel ByteSpec ByteProofs.
Import ListNotations.

(** C01 (and the putter half of C03): every put/get pair round-trips, keeps
    the rest of the buffer, and putting panics exactly on short buffers. *)
Theorem C01_put_get_roundtrip :
  put_get_spec (unsigned_range 8) 1 put_u8 get_u8 /\
  put_get_spec (unsigned_range 16) 2 put_u16l get_u16l /\ put_get_spec (unsigned_range 16) 2 put_u16b get_u16b /\
  put_get_spec (unsigned_range 32) 4 put_u32l get_u32l /\ put_get_spec (unsigned_range 32) 4 put_u32b get_u32b /\
  put_get_spec (unsigned_range 64) 8 put_u64l get_u64l /\ put_get_spec (unsigned_range 64) 8 put_u64b get_u64b /\
  put_get_spec (signed_range 8) 1 put_i8 get_i8 /\
  put_get_spec (signed_range 16) 2 put_i16l get_i16l /\ put_get_spec (signed_range 16) 2 put_i16b get_i16b /\
  put_get_spec (signed_range 32) 4 put_i32l get_i32l /\ put_get_spec (signed_range 32) 4 put_i32b get_i32b /\
  put_get_spec (signed_range 64) 8 put_i64l get_i64l /\ put_get_spec (signed_range 64) 8 put_i64b get_i64b /\
  put_get_spec (unsigned_range 32) 4 put_f32l get_f32l /\ put_get_spec (unsigned_range 32) 4 put_f32b get_f32b /\
  put_get_spec (unsigned_range 64) 8 put_f64l get_f64l /\ put_get_spec (unsigned_range 64) 8 put_f64b get_f64b.
Proof. exact all_put_get. Qed.
Print Assumptions C01_put_get_roundtrip.

(** A witness: -2 as i32 written big-endian into a 5-byte buffer. *)
Example C01_example :
  signed_range 32 (-2) /\ 4 <= length [1; 2; 3; 4; 5]%N /\
  put_i32b [1; 2; 3; 4; 5]%N (-2)%Z = Ret [255; 255; 255; 254; 5]%N /\
  get_i32b [255; 255; 255; 254; 5]%N = Ret (-2)%Z.
Proof. unfold signed_range. repeat split; vm_compute; try reflexivity; try discriminate; repeat constructor. Qed.

(** C02, C03: the getters panic exactly on short buffers and otherwise place
    byte [i] at bits [8*i ..] (little-endian) or [8*(k-1-i) ..] (big-endian) of
    the result; only the first [k] bytes matter. *)
Theorem C02_getters_place_bytes :
  getter_spec le_number 1 get_u8 /\ getter_spec be_number 1 get_u8 /\
  getter_spec le_number 2 get_u16l /\ getter_spec be_number 2 get_u16b /\
  getter_spec le_number 4 get_u32l /\ getter_spec be_number 4 get_u32b /\
  getter_spec le_number 8 get_u64l /\ getter_spec be_number 8 get_u64b /\
  getter_spec le_number 4 get_f32l /\ getter_spec be_number 4 get_f32b /\
  getter_spec le_number 8 get_f64l /\ getter_spec be_number 8 get_f64b.
Proof. exact all_getters. Qed.
Print Assumptions C02_getters_place_bytes.

Example C02_example :
  bytes [1; 2; 3; 128; 9]%N /\
  get_u32l [1; 2; 3; 128; 9]%N = Ret 2147680769%N /\
  get_u32b [1; 2; 3; 128; 9]%N = Ret 16909184%N.
Proof. split; [repeat constructor|]. split; vm_compute; reflexivity. Qed.

(** The byte placement determines the value (the specification is not loose). *)
Theorem C02_le_number_unique : forall l v w, le_number l v -> le_number l w -> v = w.
Proof. exact le_number_unique. Qed.
Print Assumptions C02_le_number_unique.

Example C02_le_number_unique_example : le_number [1; 2]%N 513%N.
Proof. exact (from_le_number [1; 2]%N ltac:(repeat constructor)). Qed.

(** C03: [getter_spec]/[put_get_spec] above already give "panics iff short";
    stated separately for the width-8 extremes. *)
Theorem C03_short_buffers_panic :
  (forall buf, bytes buf -> length buf < 8 -> get_u64l buf = Panic /\ get_u64b buf = Panic) /\
  (forall buf v, (v < 2 ^ 64)%N -> length buf < 8 -> put_u64l buf v = Panic /\ put_u64b buf v = Panic) /\
  (forall v, (v < 2 ^ 8)%N -> get_u8 [] = Panic /\ put_u8 [] v = Panic).
Proof. exact short_buffers_panic. Qed.
Print Assumptions C03_short_buffers_panic.

Example C03_example : get_u64l [1; 2; 3; 4; 5; 6; 7]%N = Panic /\ get_u64l [1; 2; 3; 4; 5; 6; 7; 8]%N <> Panic.
Proof. split; vm_compute; [reflexivity|discriminate]. Qed.

(** C04: signed getters are two's complement. *)
Theorem C04_signed_getters_twos_complement :
  signed_getter_spec 8 1 get_u8 get_i8 /\
  signed_getter_spec 16 2 get_u16l get_i16l /\ signed_getter_spec 16 2 get_u16b get_i16b /\
  signed_getter_spec 32 4 get_u32l get_i32l /\ signed_getter_spec 32 4 get_u32b get_i32b /\
  signed_getter_spec 64 8 get_u64l get_i64l /\ signed_getter_spec 64 8 get_u64b get_i64b.
Proof. exact all_signed_getters. Qed.
Print Assumptions C04_signed_getters_twos_complement.

Example C04_example :
  get_i16b [128; 1; 7]%N = Ret (-32767)%Z /\ get_i16l [128; 1]%N = Ret 384%Z.
Proof. split; vm_compute; reflexivity. Qed.
