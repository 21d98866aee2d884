(** Model of data/src/audiosample.rs (sample formats and channel maps), except the
    Display implementations, which are in DisplayModel.v. *)
From Coq Require Import List Arith NArith Bool.
From Verif Require Import Base.
Import ListNotations.
Local Open Scope N_scope.

(** [Soniton], audiosample.rs:7-23. *)
Record soniton := mk_soniton {
  so_bits : N;
  so_be : bool;
  so_packed : bool;
  so_planar : bool;
  so_float : bool;
  so_signed : bool
}.

(** [!a] on a 64-bit word. *)
Definition unot (a : N) : N := N.lnot a 64.

(** [align], audiosample.rs:27-29; the same function is at pixel.rs:579-581. *)
Definition align (v a : N) : outcome N :=
  let! s := uadd v a in
  let! t := usub s 1 in
  let! m := usub a 1 in
  Ret (N.land t (unot m)).

(** [round_to_byte], audiosample.rs:33-35. *)
Definition round_to_byte (v : N) : outcome N :=
  let! s := uadd v 7 in
  Ret (N.shiftr s 3).

(** [Soniton::new], audiosample.rs:39-48. *)
Definition soniton_new (bits : N) (be packed planar float signed : bool) : soniton :=
  mk_soniton bits be packed planar float signed.

(** [Soniton::get_audio_size], audiosample.rs:52-60. *)
Definition get_audio_size (f : soniton) (length alignment : N) : outcome N :=
  let! s :=
    (if so_packed f then
       let! b := umul length (so_bits f) in round_to_byte b
     else
       let! b := round_to_byte (so_bits f) in umul length b) in
  align s alignment.

(** [ChannelType], audiosample.rs:84-148. *)
Inductive channel :=
| ChC | ChL | ChR | ChCs | ChLs | ChRs | ChLss | ChRss | ChLFE | ChLc | ChRc | ChLh | ChRh | ChCh
| ChLFE2 | ChLw | ChRw | ChOv | ChLhs | ChRhs | ChChs | ChLl | ChRl | ChCl | ChLt | ChRt | ChLo | ChRo.

(** [t as i32]: the position of the variant in the declaration. *)
Definition channel_code (c : channel) : N :=
  match c with
  | ChC => 0 | ChL => 1 | ChR => 2 | ChCs => 3 | ChLs => 4 | ChRs => 5 | ChLss => 6 | ChRss => 7
  | ChLFE => 8 | ChLc => 9 | ChRc => 10 | ChLh => 11 | ChRh => 12 | ChCh => 13 | ChLFE2 => 14
  | ChLw => 15 | ChRw => 16 | ChOv => 17 | ChLhs => 18 | ChRhs => 19 | ChChs => 20 | ChLl => 21
  | ChRl => 22 | ChCl => 23 | ChLt => 24 | ChRt => 25 | ChLo => 26 | ChRo => 27
  end.

(** [ChannelType::is_center], audiosample.rs:152-164. *)
Definition is_center (c : channel) : bool :=
  match c with
  | ChC | ChCh | ChCl | ChOv | ChLFE | ChLFE2 | ChCs | ChChs => true
  | _ => false
  end.

(** [ChannelType::is_left], audiosample.rs:167-181. *)
Definition is_left (c : channel) : bool :=
  match c with
  | ChL | ChLs | ChLss | ChLc | ChLh | ChLw | ChLhs | ChLl | ChLt | ChLo => true
  | _ => false
  end.

(** [ChannelType::is_right], audiosample.rs:184-198. *)
Definition is_right (c : channel) : bool :=
  match c with
  | ChR | ChRs | ChRss | ChRc | ChRh | ChRw | ChRhs | ChRl | ChRt | ChRo => true
  | _ => false
  end.

(** [ChannelMap], audiosample.rs:239-241: its vector of channels. *)
Definition channel_map := list channel.

(** [ChannelMap::new], audiosample.rs:245-247. *)
Definition map_new : channel_map := [].

(** [ChannelMap::add_channel], audiosample.rs:250-252. *)
Definition add_channel (m : channel_map) (c : channel) : channel_map := m ++ [c].

(** [ChannelMap::add_channels], audiosample.rs:255-259. *)
Fixpoint add_channels (m : channel_map) (cs : list channel) : channel_map :=
  match cs with
  | [] => m
  | c :: cs' => add_channels (m ++ [c]) cs'
  end.

(** [ChannelMap::len] and [is_empty], audiosample.rs:262-269. *)
Definition map_len (m : channel_map) : N := N.of_nat (length m).
Definition map_is_empty (m : channel_map) : bool := match m with [] => true | _ => false end.

(** [ChannelMap::get_channel], audiosample.rs:272-274. *)
Definition get_channel (m : channel_map) (idx : nat) : outcome channel := index_at m idx.

(** [ChannelMap::find_channel_id], audiosample.rs:277-284: the loop counter [i] starts
    at 0 and is cast to [u8] when the channel is found. *)
Fixpoint find_from (m : channel_map) (t : channel) (i : N) : option N :=
  match m with
  | [] => None
  | c :: m' => if channel_code c =? channel_code t then Some (i mod 256) else find_from m' t (i + 1)
  end.
Definition find_channel_id (m : channel_map) (t : channel) : option N := find_from m t 0.

(** [ChannelMap::default_map], audiosample.rs:297-306. *)
Definition default_map (count : N) : outcome channel_map :=
  match count with
  | 1 => Ret [ChC]
  | 2 => Ret [ChR; ChL]
  | _ => Panic
  end.

(** Predefined formats, audiosample.rs:314-362. *)
Definition fmt_U8 : soniton := mk_soniton 8 false false false false false.
Definition fmt_S16 : soniton := mk_soniton 16 false false false false true.
Definition fmt_S32 : soniton := mk_soniton 32 false false false false true.
Definition fmt_F32 : soniton := mk_soniton 32 false false false true true.
Definition fmt_F64 : soniton := mk_soniton 64 false false false true true.
