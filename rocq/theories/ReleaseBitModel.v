(** The bit reader of bitstream/src/bitread.rs in a build without overflow checks: additions,
    subtractions and multiplications wrap around, shift amounts are taken modulo 64.
    Everything else, the state included, is as in [WordBitModel]. *)
From Coq Require Import List Arith NArith Bool.
From Verif Require Import Base ByteModel BitModel WordBitModel ReleaseModel.
Import ListNotations.
Local Open Scope N_scope.

(** bitread.rs:287-289: [64 - n as u32] wraps modulo 2^32, [checked_shr] of 64 and more is [None] *)
Definition rb_peek_val (e : endian) (r : wreader) (n : N) : N :=
  match e with
  | LE => N.land (w_cache r) (wrapping_sub (checked_shl0 1 (w_as_u32 n)) 1)
  | BE => checked_shr0 (w_cache r) ((64 + (W32 - w_as_u32 n)) mod W32)
  end.

(** bitread.rs:251-253 and 296-298 *)
Definition rb_merge_val (e : endian) (msp lsp msb lsb : N) : N :=
  match e with
  | LE => N.lor (rshl msp msb) lsp
  | BE => N.lor msp (checked_shl0 lsp (w_as_u32 lsb))
  end.

(** bitread.rs:255-257 and 300-302 *)
Definition rb_build_cache (e : endian) (c refill cache_size : N) : N :=
  match e with
  | LE => N.lor c (rshl refill cache_size)
  | BE => N.lor c (rshl refill (rsub 32 cache_size))
  end.

(** bitread.rs:266-268 and 311-313 *)
Definition rb_can_refill (r : wreader) : bool := radd (w_index r) 8 <=? w_len r.

(** bitread.rs:166-176 *)
Definition rb_refill32 (e : endian) (r : wreader) : outcome wreader :=
  if negb (rb_can_refill r) then Ret r
  else
    let! val := w_fill32 e r in
    Ret (mk_wreader (w_buffer r) (radd (w_index r) 4) (rb_build_cache e (w_cache r) val (w_left r)) (radd (w_left r) 32)).

(** bitread.rs:178-186 *)
Definition rb_refill64 (e : endian) (r : wreader) : outcome wreader :=
  if negb (rb_can_refill r) then Ret r
  else
    let! val := w_fill64 e r in
    Ret (mk_wreader (w_buffer r) (radd (w_index r) 8) val 64).

(** bitread.rs:43-49 *)
Definition rb_get_val (e : endian) (r : wreader) (n : N) : wreader * N := (w_skip_rem e r n, rb_peek_val e r n).

(** bitread.rs:190-200 *)
Definition rb_new (e : endian) (buf : list N) : outcome wreader := rb_refill64 e (mk_wreader buf 0 0 0).

(** bitread.rs:202-204 *)
Definition rb_consumed (r : wreader) : N := rsub (rmul (w_index r) 8) (w_left r).

(** bitread.rs:207-209 *)
Definition rb_available (r : wreader) : N := radd (rmul (rsub (w_len r) (w_index r)) 8) (w_left r).

(** bitread.rs:212-226 *)
Definition rb_skip_bits (e : endian) (r : wreader) (n0 : N) : outcome wreader :=
  if w_left r <? n0 then
    let n1 := rsub n0 (w_left r) in
    let '(r1, n2) :=
      if 64 <? n1 then
        let skip := n1 / 8 in
        (mk_wreader (w_buffer r) (radd (w_index r) skip) (w_cache r) (w_left r), rsub n1 (rmul skip 8))
      else (r, n1) in
    let r2 := w_skip_rem e r1 n2 in
    let! r3 := rb_refill64 e r2 in
    Ret (w_skip_rem e r3 n2)
  else Ret (w_skip_rem e r n0).

(** bitread.rs:66-72 *)
Definition rb_get_bit (e : endian) (r : wreader) : outcome (wreader * bool) :=
  let! r1 := if w_left r =? 0 then rb_refill64 e r else Ret r in
  let '(r2, v) := rb_get_val e r1 1 in
  Ret (r2, negb (v =? 0)).

(** bitread.rs:76-92 *)
Definition rb_get_bits_64 (e : endian) (r : wreader) (n0 : N) : outcome (wreader * N) :=
  if n0 =? 0 then Ret (r, 0)
  else if w_left r <? n0 then
    let n := rsub n0 (w_left r) in
    let l := w_left r in
    let '(r1, ret) := rb_get_val e r l in
    let! r2 := rb_refill64 e r1 in
    let '(r3, v) := rb_get_val e r2 n in
    Ret (r3, rb_merge_val e v ret l n)
  else
    let '(r1, v) := rb_get_val e r n0 in
    Ret (r1, rb_merge_val e v 0 0 n0).

(** bitread.rs:96-106 *)
Definition rb_get_bits_32 (e : endian) (r : wreader) (n : N) : outcome (wreader * N) :=
  if n =? 0 then Ret (r, 0)
  else
    let! r1 := if w_left r <=? n then rb_refill32 e r else Ret r in
    let '(r2, v) := rb_get_val e r1 n in
    Ret (r2, v mod W32).

(** bitread.rs:134-138 *)
Definition rb_align_bits (e : endian) (r : wreader) : outcome wreader := rb_skip_bits e r (N.land (w_left r) 7).

(** The calls of [BitModel.bit_op] (harness); peeking (bitread.rs:110-130) works on a copy. *)
Definition rb_run_op (e : endian) (r : wreader) (op : bit_op) : outcome (wreader * bit_out) :=
  match op with
  | OpGetBit => let! (r', b) := rb_get_bit e r in Ret (r', OutBit b)
  | OpGet32 n => let! (r', v) := rb_get_bits_32 e r (N.of_nat n) in Ret (r', OutWord v)
  | OpGet64 n => let! (r', v) := rb_get_bits_64 e r (N.of_nat n) in Ret (r', OutWord v)
  | OpPeekBit => let! (_, b) := rb_get_bit e r in Ret (r, OutBit b)
  | OpPeek32 n => let! (_, v) := rb_get_bits_32 e r (N.of_nat n) in Ret (r, OutWord v)
  | OpPeek64 n => let! (_, v) := rb_get_bits_64 e r (N.of_nat n) in Ret (r, OutWord v)
  | OpSkip n => let! r' := rb_skip_bits e r (N.of_nat n) in Ret (r', OutUnit)
  | OpAlign => let! r' := rb_align_bits e r in Ret (r', OutUnit)
  | OpConsumed => Ret (r, OutCount (N.to_nat (rb_consumed r)))
  | OpAvailable => Ret (r, OutCount (N.to_nat (rb_available r)))
  end.

Fixpoint rb_run_ops (e : endian) (r : wreader) (ops : list bit_op) : outcome (wreader * list bit_out) :=
  match ops with
  | [] => Ret (r, [])
  | op :: ops' =>
      let! (r1, o) := rb_run_op e r op in
      let! (r2, os) := rb_run_ops e r1 ops' in
      Ret (r2, o :: os)
  end.

Definition rb_run_from_new (e : endian) (buf : list N) (ops : list bit_op) : outcome (wreader * list bit_out) :=
  let! r := rb_new e buf in rb_run_ops e r ops.
