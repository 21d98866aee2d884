(** The bit reader of bitstream/src/bitread.rs once more, with its counters as 64-bit
    words: [index] and [left] are [usize], every addition, subtraction and multiplication
    on them is checked.  [BitModel] has the same functions on unbounded counters. *)
From Coq Require Import List Arith NArith Bool.
From Verif Require Import Base ByteModel BitModel.
Import ListNotations.
Local Open Scope N_scope.

(** bitread.rs:154-159 *)
Record wreader : Type := mk_wreader {
  w_buffer : list N;
  w_index : N;
  w_cache : N;
  w_left : N
}.

(** [buffer.len()] *)
Definition w_len (r : wreader) : N := N.of_nat (length (w_buffer r)).

(** [n as u32] for [n : usize] *)
Definition w_as_u32 (n : N) : N := n mod W32.

(** bitread.rs:240-244 and 287-289 *)
Definition w_peek_val (e : endian) (r : wreader) (n : N) : outcome N :=
  match e with
  | LE => Ret (N.land (w_cache r) (wrapping_sub (checked_shl0 1 (w_as_u32 n)) 1))
  | BE => if w_as_u32 n <=? 64 then Ret (checked_shr0 (w_cache r) (64 - w_as_u32 n)) else Panic
  end.

(** bitread.rs:246-249 and 291-294; [saturating_sub] *)
Definition w_skip_rem (e : endian) (r : wreader) (n : N) : wreader :=
  match e with
  | LE => mk_wreader (w_buffer r) (w_index r) (checked_shr0 (w_cache r) (w_as_u32 n)) (w_left r - n)
  | BE => mk_wreader (w_buffer r) (w_index r) (checked_shl0 (w_cache r) (w_as_u32 n)) (w_left r - n)
  end.

(** bitread.rs:251-253 and 296-298 *)
Definition w_merge_val (e : endian) (msp lsp msb lsb : N) : outcome N :=
  match e with
  | LE => let! m := ushl msp msb in Ret (N.lor m lsp)
  | BE => Ret (N.lor msp (checked_shl0 lsp (w_as_u32 lsb)))
  end.

(** bitread.rs:255-257 and 300-302 *)
Definition w_build_cache (e : endian) (c refill cache_size : N) : outcome N :=
  match e with
  | LE => let! m := ushl refill cache_size in Ret (N.lor c m)
  | BE => let! d := usub 32 cache_size in let! m := ushl refill d in Ret (N.lor c m)
  end.

(** bitread.rs:266-268 and 311-313 *)
Definition w_can_refill (r : wreader) : outcome bool :=
  let! i := uadd (w_index r) 8 in Ret (i <=? w_len r).

(** [&self.buffer[self.index..]] *)
Definition w_rest (r : wreader) : outcome (list N) :=
  if w_index r <=? w_len r then Ret (skipn (N.to_nat (w_index r)) (w_buffer r)) else Panic.

(** bitread.rs:270-276 and 315-321 *)
Definition w_fill32 (e : endian) (r : wreader) : outcome N :=
  let! s := w_rest r in match e with LE => get_u32l s | BE => get_u32b s end.
Definition w_fill64 (e : endian) (r : wreader) : outcome N :=
  let! s := w_rest r in match e with LE => get_u64l s | BE => get_u64b s end.

(** bitread.rs:166-176 *)
Definition w_refill32 (e : endian) (r : wreader) : outcome wreader :=
  let! ok := w_can_refill r in
  if negb ok then Ret r
  else
    let! val := w_fill32 e r in
    let! c := w_build_cache e (w_cache r) val (w_left r) in
    let! i := uadd (w_index r) 4 in
    let! l := uadd (w_left r) 32 in
    Ret (mk_wreader (w_buffer r) i c l).

(** bitread.rs:178-186 *)
Definition w_refill64 (e : endian) (r : wreader) : outcome wreader :=
  let! ok := w_can_refill r in
  if negb ok then Ret r
  else
    let! val := w_fill64 e r in
    let! i := uadd (w_index r) 8 in
    Ret (mk_wreader (w_buffer r) i val 64).

(** bitread.rs:43-49 *)
Definition w_get_val (e : endian) (r : wreader) (n : N) : outcome (wreader * N) :=
  let! ret := w_peek_val e r n in
  Ret (w_skip_rem e r n, ret).

(** bitread.rs:190-200 *)
Definition w_new (e : endian) (buf : list N) : outcome wreader :=
  w_refill64 e (mk_wreader buf 0 0 0).

(** bitread.rs:202-204 *)
Definition w_consumed (r : wreader) : outcome N :=
  let! bits := umul (w_index r) 8 in usub bits (w_left r).

(** bitread.rs:207-209 *)
Definition w_available (r : wreader) : outcome N :=
  let! d := usub (w_len r) (w_index r) in
  let! bits := umul d 8 in
  uadd bits (w_left r).

(** bitread.rs:212-226 *)
Definition w_skip_bits (e : endian) (r : wreader) (n0 : N) : outcome wreader :=
  if w_left r <? n0 then
    let! n1 := usub n0 (w_left r) in
    let! (r1, n2) :=
      if 64 <? n1 then
        let skip := n1 / 8 in
        let! bits := umul skip 8 in
        let! n2 := usub n1 bits in
        let! i := uadd (w_index r) skip in
        Ret (mk_wreader (w_buffer r) i (w_cache r) (w_left r), n2)
      else Ret (r, n1) in
    let r2 := w_skip_rem e r1 n2 in
    let! r3 := w_refill64 e r2 in
    Ret (w_skip_rem e r3 n2)
  else Ret (w_skip_rem e r n0).

(** bitread.rs:66-72 *)
Definition w_get_bit (e : endian) (r : wreader) : outcome (wreader * bool) :=
  let! r1 := if w_left r =? 0 then w_refill64 e r else Ret r in
  let! (r2, v) := w_get_val e r1 1 in
  Ret (r2, negb (v =? 0)).

(** bitread.rs:76-92 *)
Definition w_get_bits_64 (e : endian) (r : wreader) (n0 : N) : outcome (wreader * N) :=
  if n0 =? 0 then Ret (r, 0)
  else if w_left r <? n0 then
    let! n := usub n0 (w_left r) in
    let l := w_left r in
    let! (r1, ret) := w_get_val e r l in
    let! r2 := w_refill64 e r1 in
    let! (r3, v) := w_get_val e r2 n in
    let! m := w_merge_val e v ret l n in
    Ret (r3, m)
  else
    let! (r1, v) := w_get_val e r n0 in
    let! m := w_merge_val e v 0 0 n0 in
    Ret (r1, m).

(** bitread.rs:96-106 *)
Definition w_get_bits_32 (e : endian) (r : wreader) (n : N) : outcome (wreader * N) :=
  if n =? 0 then Ret (r, 0)
  else
    let! r1 := if w_left r <=? n then w_refill32 e r else Ret r in
    let! (r2, v) := w_get_val e r1 n in
    Ret (r2, v mod W32).

(** bitread.rs:134-138 *)
Definition w_align_bits (e : endian) (r : wreader) : outcome wreader :=
  w_skip_bits e r (N.land (w_left r) 7).

(** The calls of [BitModel.bit_op] (harness); peeking (bitread.rs:110-130) works on a copy. *)
Definition w_run_op (e : endian) (r : wreader) (op : bit_op) : outcome (wreader * bit_out) :=
  match op with
  | OpGetBit => let! (r', b) := w_get_bit e r in Ret (r', OutBit b)
  | OpGet32 n => let! (r', v) := w_get_bits_32 e r (N.of_nat n) in Ret (r', OutWord v)
  | OpGet64 n => let! (r', v) := w_get_bits_64 e r (N.of_nat n) in Ret (r', OutWord v)
  | OpPeekBit => let! (_, b) := w_get_bit e r in Ret (r, OutBit b)
  | OpPeek32 n => let! (_, v) := w_get_bits_32 e r (N.of_nat n) in Ret (r, OutWord v)
  | OpPeek64 n => let! (_, v) := w_get_bits_64 e r (N.of_nat n) in Ret (r, OutWord v)
  | OpSkip n => let! r' := w_skip_bits e r (N.of_nat n) in Ret (r', OutUnit)
  | OpAlign => let! r' := w_align_bits e r in Ret (r', OutUnit)
  | OpConsumed => let! c := w_consumed r in Ret (r, OutCount (N.to_nat c))
  | OpAvailable => let! c := w_available r in Ret (r, OutCount (N.to_nat c))
  end.

Fixpoint w_run_ops (e : endian) (r : wreader) (ops : list bit_op) : outcome (wreader * list bit_out) :=
  match ops with
  | [] => Ret (r, [])
  | op :: ops' =>
      let! (r1, o) := w_run_op e r op in
      let! (r2, os) := w_run_ops e r1 ops' in
      Ret (r2, o :: os)
  end.

Definition w_run_from_new (e : endian) (buf : list N) (ops : list bit_op) : outcome (wreader * list bit_out) :=
  let! r := w_new e buf in w_run_ops e r ops.
