(** Transcription of bitstream/src/bitread.rs.

    One record stands for both [BitReadLE] and [BitReadBE] (the Rust code
    generates both from the macro [endian_reader!]); the endianness is passed as
    an argument where the two macros [little_endian_reader!] and
    [big_endian_reader!] differ.  Bit counts and indices are [nat] ([WordBitModel]
    has them as words, and C95 relates the two), the cache is an [N]
    kept below 2^64 explicitly. *)
From Coq Require Import List Arith NArith Bool.
From Verif Require Import Base ByteModel.
Import ListNotations.
Local Open Scope nat_scope.

Inductive endian : Type := LE | BE.

(** bitread.rs:154-159 *)
Record reader : Type := mk_reader {
  buffer : list N;
  index : nat;
  cache : N;
  left : nat
}.

(** [n as u32] *)
Definition as_u32 (n : nat) : N := (N.of_nat n mod W32)%N.

(** [u64::checked_shl(..).unwrap_or(0)] and [checked_shr] (standard library). *)
Definition checked_shl0 (a n : N) : N :=
  if (n <? 64)%N then (N.shiftl a n mod W64)%N else 0%N.
Definition checked_shr0 (a n : N) : N :=
  if (n <? 64)%N then N.shiftr a n else 0%N.
(** [u64::overflowing_sub(..).0] (standard library). *)
Definition wrapping_sub (a b : N) : N := ((a + W64 - b) mod W64)%N.

(** [a << n] for [a : u64] and [n : usize]; overflow check on the shift amount. *)
Definition shl64 (a : N) (n : nat) : outcome N :=
  if n <? 64 then Ret (N.shiftl a (N.of_nat n) mod W64)%N else Panic.

(** [peek_val]: little-endian bitread.rs:240-244, big-endian bitread.rs:287-289
    ([64 - n as u32] overflows for [n > 64]). *)
Definition peek_val (e : endian) (r : reader) (n : nat) : outcome N :=
  match e with
  | LE => Ret (N.land (cache r) (wrapping_sub (checked_shl0 1 (as_u32 n)) 1))
  | BE => if (as_u32 n <=? 64)%N then Ret (checked_shr0 (cache r) (64 - as_u32 n)) else Panic
  end.

(** [skip_rem]: little-endian bitread.rs:246-249, big-endian bitread.rs:291-294 *)
Definition skip_rem (e : endian) (r : reader) (n : nat) : reader :=
  match e with
  | LE => mk_reader (buffer r) (index r) (checked_shr0 (cache r) (as_u32 n)) (left r - n)
  | BE => mk_reader (buffer r) (index r) (checked_shl0 (cache r) (as_u32 n)) (left r - n)
  end.

(** [merge_val]: little-endian bitread.rs:251-253, big-endian bitread.rs:296-298 *)
Definition merge_val (e : endian) (msp lsp : N) (msb lsb : nat) : outcome N :=
  match e with
  | LE => let! m := shl64 msp msb in Ret (N.lor m lsp)
  | BE => Ret (N.lor msp (checked_shl0 lsp (as_u32 lsb)))
  end.

(** [build_cache]: little-endian bitread.rs:255-257, big-endian bitread.rs:300-302
    ([32 - cache_size] overflows when [cache_size > 32]). *)
Definition build_cache (e : endian) (c refill : N) (cache_size : nat) : outcome N :=
  match e with
  | LE => let! m := shl64 refill cache_size in Ret (N.lor c m)
  | BE => let! d := csub 32 cache_size in let! m := shl64 refill d in Ret (N.lor c m)
  end.

(** bitread.rs:266-268 and 311-313 *)
Definition can_refill (r : reader) : bool := index r + 8 <=? length (buffer r).

(** bitread.rs:270-272, 315-317 *)
Definition fill32 (e : endian) (r : reader) : outcome N :=
  let! s := slice (buffer r) (index r) (length (buffer r)) in
  match e with LE => get_u32l s | BE => get_u32b s end.

(** bitread.rs:274-276, 319-321 *)
Definition fill64 (e : endian) (r : reader) : outcome N :=
  let! s := slice (buffer r) (index r) (length (buffer r)) in
  match e with LE => get_u64l s | BE => get_u64b s end.

(** bitread.rs:166-176 *)
Definition refill32 (e : endian) (r : reader) : outcome reader :=
  if negb (can_refill r) then Ret r
  else
    let! val := fill32 e r in
    let! c := build_cache e (cache r) val (left r) in
    Ret (mk_reader (buffer r) (index r + 4) c (left r + 32)).

(** bitread.rs:178-186 *)
Definition refill64 (e : endian) (r : reader) : outcome reader :=
  if negb (can_refill r) then Ret r
  else
    let! val := fill64 e r in
    Ret (mk_reader (buffer r) (index r + 8) val 64).

(** bitread.rs:43-49 *)
Definition get_val (e : endian) (r : reader) (n : nat) : outcome (reader * N) :=
  let! ret := peek_val e r n in
  Ret (skip_rem e r n, ret).

(** bitread.rs:190-200 *)
Definition new (e : endian) (buf : list N) : outcome reader :=
  refill64 e (mk_reader buf 0 0%N 0).

(** bitread.rs:202-204 *)
Definition consumed (r : reader) : outcome nat := csub (index r * 8) (left r).

(** bitread.rs:207-209 *)
Definition available (r : reader) : outcome nat :=
  let! d := csub (length (buffer r)) (index r) in
  Ret (d * 8 + left r).

(** bitread.rs:212-226 *)
Definition skip_bits (e : endian) (r : reader) (n0 : nat) : outcome reader :=
  if left r <? n0 then
    let n1 := n0 - left r in
    let '(r1, n2) :=
      if 64 <? n1 then
        let skip := n1 / 8 in
        (mk_reader (buffer r) (index r + skip) (cache r) (left r), n1 - skip * 8)
      else (r, n1) in
    let r2 := skip_rem e r1 n2 in
    let! r3 := refill64 e r2 in
    Ret (skip_rem e r3 n2)
  else Ret (skip_rem e r n0).

(** bitread.rs:66-72 *)
Definition get_bit (e : endian) (r : reader) : outcome (reader * bool) :=
  let! r1 := if left r =? 0 then refill64 e r else Ret r in
  let! (r2, v) := get_val e r1 1 in
  Ret (r2, negb (v =? 0)%N).

(** bitread.rs:76-92 *)
Definition get_bits_64 (e : endian) (r : reader) (n0 : nat) : outcome (reader * N) :=
  if n0 =? 0 then Ret (r, 0%N)
  else if left r <? n0 then
    let n := n0 - left r in
    let l := left r in
    let! (r1, ret) := get_val e r l in
    let! r2 := refill64 e r1 in
    let! (r3, v) := get_val e r2 n in
    let! m := merge_val e v ret l n in
    Ret (r3, m)
  else
    let! (r1, v) := get_val e r n0 in
    let! m := merge_val e v 0 0 n0 in
    Ret (r1, m).

(** bitread.rs:96-106; the result is truncated to [u32] *)
Definition get_bits_32 (e : endian) (r : reader) (n : nat) : outcome (reader * N) :=
  if n =? 0 then Ret (r, 0%N)
  else
    let! r1 := if left r <=? n then refill32 e r else Ret r in
    let! (r2, v) := get_val e r1 n in
    Ret (r2, (v mod W32)%N).

(** bitread.rs:110-114, 118-122, 126-130: the reader is copied first, the
    original is returned unchanged. *)
Definition peek_bit (e : endian) (r : reader) : outcome (reader * bool) :=
  let tmp := r in
  let! (_, b) := get_bit e tmp in Ret (r, b).
Definition peek_bits_32 (e : endian) (r : reader) (n : nat) : outcome (reader * N) :=
  let tmp := r in
  let! (_, v) := get_bits_32 e tmp n in Ret (r, v).
Definition peek_bits_64 (e : endian) (r : reader) (n : nat) : outcome (reader * N) :=
  let tmp := r in
  let! (_, v) := get_bits_64 e tmp n in Ret (r, v).

(** bitread.rs:134-138: [left & 7] *)
Definition align_bits (e : endian) (r : reader) : outcome reader :=
  skip_bits e r (left r mod 8).

(** The calls a client can make, and running a sequence of them (this is the
    harness over the functions above, not code of rust-av). *)
Inductive bit_op : Type :=
| OpGetBit
| OpGet32 (n : nat)
| OpGet64 (n : nat)
| OpPeekBit
| OpPeek32 (n : nat)
| OpPeek64 (n : nat)
| OpSkip (n : nat)
| OpAlign
| OpConsumed
| OpAvailable.

Inductive bit_out : Type :=
| OutBit (b : bool)
| OutWord (v : N)
| OutCount (n : nat)
| OutUnit.

Definition run_op (e : endian) (r : reader) (op : bit_op) : outcome (reader * bit_out) :=
  match op with
  | OpGetBit => let! (r', b) := get_bit e r in Ret (r', OutBit b)
  | OpGet32 n => let! (r', v) := get_bits_32 e r n in Ret (r', OutWord v)
  | OpGet64 n => let! (r', v) := get_bits_64 e r n in Ret (r', OutWord v)
  | OpPeekBit => let! (r', b) := peek_bit e r in Ret (r', OutBit b)
  | OpPeek32 n => let! (r', v) := peek_bits_32 e r n in Ret (r', OutWord v)
  | OpPeek64 n => let! (r', v) := peek_bits_64 e r n in Ret (r', OutWord v)
  | OpSkip n => let! r' := skip_bits e r n in Ret (r', OutUnit)
  | OpAlign => let! r' := align_bits e r in Ret (r', OutUnit)
  | OpConsumed => let! c := consumed r in Ret (r, OutCount c)
  | OpAvailable => let! c := available r in Ret (r, OutCount c)
  end.

Fixpoint run_ops (e : endian) (r : reader) (ops : list bit_op) : outcome (reader * list bit_out) :=
  match ops with
  | [] => Ret (r, [])
  | op :: ops' =>
      let! (r1, o) := run_op e r op in
      let! (r2, os) := run_ops e r1 ops' in
      Ret (r2, o :: os)
  end.

Definition run_from_new (e : endian) (buf : list N) (ops : list bit_op) : outcome (reader * list bit_out) :=
  let! r := new e buf in run_ops e r ops.
