(** The bit reader of bitstream/src/bitread.rs and codeword reads for any width of [usize],
    with or without overflow checks.  [index] and [left] are [usize]; the cache is an [u64]
    on every machine.  The state is that of [WordBitModel]. *)
From Coq Require Import List Arith NArith Bool.
From Verif Require Import Base ByteModel BitModel WordBitModel ReleaseModel CodebookModel MachineModel.
Import ListNotations.
Local Open Scope N_scope.

Section Bits.
Variable m : machine.

(** [a << n] on [u64] *)
Definition mb_shl (a n : N) : outcome N := if checked m then ushl a n else Ret (rshl a n).

(** bitread.rs:240-244 and 287-289; [64 - n as u32] is [u32] arithmetic *)
Definition mb_peek_val (e : endian) (r : wreader) (n : N) : outcome N :=
  match e with
  | LE => Ret (N.land (w_cache r) (wrapping_sub (checked_shl0 1 (w_as_u32 n)) 1))
  | BE => if w_as_u32 n <=? 64 then Ret (checked_shr0 (w_cache r) (64 - w_as_u32 n))
          else if checked m then Panic else Ret (checked_shr0 (w_cache r) ((64 + (W32 - w_as_u32 n)) mod W32))
  end.

(** bitread.rs:251-253 and 296-298 *)
Definition mb_merge_val (e : endian) (msp lsp msb lsb : N) : outcome N :=
  match e with
  | LE => let! x := mb_shl msp msb in Ret (N.lor x lsp)
  | BE => Ret (N.lor msp (checked_shl0 lsp (w_as_u32 lsb)))
  end.

(** bitread.rs:255-257 and 300-302 *)
Definition mb_build_cache (e : endian) (c refill cache_size : N) : outcome N :=
  match e with
  | LE => let! x := mb_shl refill cache_size in Ret (N.lor c x)
  | BE => let! d := msub m 32 cache_size in let! x := mb_shl refill d in Ret (N.lor c x)
  end.

(** bitread.rs:266-268 and 311-313 *)
Definition mb_can_refill (r : wreader) : outcome bool :=
  let! i := madd m (w_index r) 8 in Ret (i <=? w_len r).

(** bitread.rs:166-176 *)
Definition mb_refill32 (e : endian) (r : wreader) : outcome wreader :=
  let! ok := mb_can_refill r in
  if negb ok then Ret r
  else
    let! val := w_fill32 e r in
    let! c := mb_build_cache e (w_cache r) val (w_left r) in
    let! i := madd m (w_index r) 4 in
    let! l := madd m (w_left r) 32 in
    Ret (mk_wreader (w_buffer r) i c l).

(** bitread.rs:178-186 *)
Definition mb_refill64 (e : endian) (r : wreader) : outcome wreader :=
  let! ok := mb_can_refill r in
  if negb ok then Ret r
  else
    let! val := w_fill64 e r in
    let! i := madd m (w_index r) 8 in
    Ret (mk_wreader (w_buffer r) i val 64).

(** bitread.rs:43-49 *)
Definition mb_get_val (e : endian) (r : wreader) (n : N) : outcome (wreader * N) :=
  let! ret := mb_peek_val e r n in
  Ret (w_skip_rem e r n, ret).

(** bitread.rs:190-200 *)
Definition mb_new (e : endian) (buf : list N) : outcome wreader := mb_refill64 e (mk_wreader buf 0 0 0).

(** bitread.rs:202-204 *)
Definition mb_consumed (r : wreader) : outcome N :=
  let! b := mmul m (w_index r) 8 in msub m b (w_left r).

(** bitread.rs:207-209 *)
Definition mb_available (r : wreader) : outcome N :=
  let! d := msub m (w_len r) (w_index r) in
  let! b := mmul m d 8 in
  madd m b (w_left r).

(** bitread.rs:212-226 *)
Definition mb_skip_bits (e : endian) (r : wreader) (n0 : N) : outcome wreader :=
  if w_left r <? n0 then
    let! n1 := msub m n0 (w_left r) in
    let! (r1, n2) :=
      if 64 <? n1 then
        let skip := n1 / 8 in
        let! b := mmul m skip 8 in
        let! n2 := msub m n1 b in
        let! i := madd m (w_index r) skip in
        Ret (mk_wreader (w_buffer r) i (w_cache r) (w_left r), n2)
      else Ret (r, n1) in
    let r2 := w_skip_rem e r1 n2 in
    let! r3 := mb_refill64 e r2 in
    Ret (w_skip_rem e r3 n2)
  else Ret (w_skip_rem e r n0).

(** bitread.rs:66-72 *)
Definition mb_get_bit (e : endian) (r : wreader) : outcome (wreader * bool) :=
  let! r1 := if w_left r =? 0 then mb_refill64 e r else Ret r in
  let! (r2, v) := mb_get_val e r1 1 in
  Ret (r2, negb (v =? 0)).

(** bitread.rs:76-92 *)
Definition mb_get_bits_64 (e : endian) (r : wreader) (n0 : N) : outcome (wreader * N) :=
  if n0 =? 0 then Ret (r, 0)
  else if w_left r <? n0 then
    let! n := msub m n0 (w_left r) in
    let l := w_left r in
    let! (r1, ret) := mb_get_val e r l in
    let! r2 := mb_refill64 e r1 in
    let! (r3, v) := mb_get_val e r2 n in
    let! x := mb_merge_val e v ret l n in
    Ret (r3, x)
  else
    let! (r1, v) := mb_get_val e r n0 in
    let! x := mb_merge_val e v 0 0 n0 in
    Ret (r1, x).

(** bitread.rs:96-106 *)
Definition mb_get_bits_32 (e : endian) (r : wreader) (n : N) : outcome (wreader * N) :=
  if n =? 0 then Ret (r, 0)
  else
    let! r1 := if w_left r <=? n then mb_refill32 e r else Ret r in
    let! (r2, v) := mb_get_val e r1 n in
    Ret (r2, v mod W32).

(** bitread.rs:134-138 *)
Definition mb_align_bits (e : endian) (r : wreader) : outcome wreader :=
  mb_skip_bits e r (N.land (w_left r) 7).

(** The calls of [BitModel.bit_op] (harness); peeking (bitread.rs:110-130) works on a copy. *)
Definition mb_run_op (e : endian) (r : wreader) (op : bit_op) : outcome (wreader * bit_out) :=
  match op with
  | OpGetBit => let! (r', b) := mb_get_bit e r in Ret (r', OutBit b)
  | OpGet32 n => let! (r', v) := mb_get_bits_32 e r (N.of_nat n) in Ret (r', OutWord v)
  | OpGet64 n => let! (r', v) := mb_get_bits_64 e r (N.of_nat n) in Ret (r', OutWord v)
  | OpPeekBit => let! (_, b) := mb_get_bit e r in Ret (r, OutBit b)
  | OpPeek32 n => let! (_, v) := mb_get_bits_32 e r (N.of_nat n) in Ret (r, OutWord v)
  | OpPeek64 n => let! (_, v) := mb_get_bits_64 e r (N.of_nat n) in Ret (r, OutWord v)
  | OpSkip n => let! r' := mb_skip_bits e r (N.of_nat n) in Ret (r', OutUnit)
  | OpAlign => let! r' := mb_align_bits e r in Ret (r', OutUnit)
  | OpConsumed => let! c := mb_consumed r in Ret (r, OutCount (N.to_nat c))
  | OpAvailable => let! c := mb_available r in Ret (r, OutCount (N.to_nat c))
  end.

Fixpoint mb_run_ops (e : endian) (r : wreader) (ops : list bit_op) : outcome (wreader * list bit_out) :=
  match ops with
  | [] => Ret (r, [])
  | op :: ops' =>
      let! (r1, o) := mb_run_op e r op in
      let! (r2, os) := mb_run_ops e r1 ops' in
      Ret (r2, o :: os)
  end.

Definition mb_run_from_new (e : endian) (buf : list N) (ops : list bit_op) : outcome (wreader * list bit_out) :=
  let! r := mb_new e buf in mb_run_ops e r ops.

(** codebook.rs:385-404; [self.available() as u32] truncates *)
Fixpoint mb_read_loop {S : Type} (fuel : nat) (e : endian) (cb : codebook S) (r : wreader)
    (idx : N) (lut_bits : nat) : outcome (wreader * result S codebook_error) :=
  match fuel with
  | O => Panic
  | S fuel' =>
      let! (_, v) := mb_get_bits_32 e r (N.of_nat lut_bits) in
      let! lut_idx := madd m (mcast m v) idx in
      let! x := index_at (cb_table cb) (N.to_nat lut_idx) in
      if x =? TABLE_FILL_VALUE then Ret (r, Error InvalidCode)
      else
        let bits := N.land x 127 in
        let esc := negb (N.land x 128 =? 0) in
        let idx' := N.shiftr x 8 in
        let! avail := mb_available r in
        if avail mod W32 <? bits then Ret (r, Error InvalidCode)
        else
          let! r' := mb_skip_bits e r (if esc then N.of_nat lut_bits else bits) in
          if esc then mb_read_loop fuel' e cb r' idx' (N.to_nat bits)
          else let! s := index_at (cb_syms cb) (N.to_nat idx') in Ret (r', Okay s)
  end.

(** codebook.rs:381-405 *)
Definition mb_read_cb {S : Type} (e : endian) (cb : codebook S) (r : wreader)
    : outcome (wreader * result S codebook_error) :=
  mb_read_loop 27 e cb r 0 (cb_lut_bits cb).
End Bits.
