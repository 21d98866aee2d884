(** Records of fixed-width fields: written with the byte putters, read with the bit readers. *)
From Coq Require Import List Arith NArith Bool.
From Verif Require Import Base ByteModel BitModel.
Import ListNotations.
Local Open Scope nat_scope.

Inductive size : Type := Bytes1 | Bytes2 | Bytes4 | Bytes8.
Definition count (s : size) : nat := match s with Bytes1 => 1 | Bytes2 => 2 | Bytes4 => 4 | Bytes8 => 8 end.

(** The functions a client calls for a field of that size. *)
Definition get_field (e : endian) (s : size) : list N -> outcome N :=
  match s, e with
  | Bytes1, _ => get_u8
  | Bytes2, LE => get_u16l | Bytes2, BE => get_u16b
  | Bytes4, LE => get_u32l | Bytes4, BE => get_u32b
  | Bytes8, LE => get_u64l | Bytes8, BE => get_u64b
  end.
Definition put_field (e : endian) (s : size) : list N -> N -> outcome (list N) :=
  match s, e with
  | Bytes1, _ => put_u8
  | Bytes2, LE => put_u16l | Bytes2, BE => put_u16b
  | Bytes4, LE => put_u32l | Bytes4, BE => put_u32b
  | Bytes8, LE => put_u64l | Bytes8, BE => put_u64b
  end.

(** Either [get_bits_64] or, up to 4 bytes, [get_bits_32]. *)
Definition read_field (wide : bool) (s : size) : bit_op :=
  if wide then OpGet64 (8 * count s)
  else match s with Bytes8 => OpGet64 64 | _ => OpGet32 (8 * count s) end.

(** A field: its size, its value and how it is going to be read. *)
Record field : Type := mk_field { f_size : size; f_value : N; f_wide : bool }.
Definition field_ok (f : field) : Prop := (f_value f < 2 ^ (8 * N.of_nat (count (f_size f))))%N.
Fixpoint total (fs : list field) : nat := match fs with [] => 0 | f :: fs' => count (f_size f) + total fs' end.

(** [put(&mut buf[at..], value)], one field behind the other. *)
Fixpoint put_fields (e : endian) (buf : list N) (at_ : nat) (fs : list field) : outcome (list N) :=
  match fs with
  | [] => Ret buf
  | f :: fs' =>
      let! t := put_field e (f_size f) (skipn at_ buf) (f_value f) in
      put_fields e (firstn at_ buf ++ t) (at_ + count (f_size f)) fs'
  end.
