(** What reaches an output: bytes and flushes. *)
From Coq Require Import List Arith NArith Bool.
From Verif Require Import Base MuxModel MuxSpec.
Import ListNotations.

(** The bytes among the marks on the tape of an output. *)
Definition is_byte (m : mark) : bool := match m with Byte _ => true | Flushed => false end.
Definition bytes_in (l : list mark) : nat := length (filter is_byte l).
