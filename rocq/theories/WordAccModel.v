(** [AccReader] of format/src/buffer/accreader.rs once more, with its counters as 64-bit
    words: [pos], [end] and [index] are [usize], and every addition and subtraction on them
    is checked.  [AccModel] has the same functions on unbounded counters. *)
From Coq Require Import List Arith NArith ZArith Bool.
From Verif Require Import Base AccModel.
Import ListNotations.
Local Open Scope N_scope.

(** accreader.rs:14-21 *)
Record wacc (R : Type) : Type := mk_wacc {
  wa_inner : R;
  wa_buf : list N;
  wa_pos : N;
  wa_end : N;
  wa_index : N
}.
Arguments mk_wacc {R}.
Arguments wa_inner {R}.
Arguments wa_buf {R}.
Arguments wa_pos {R}.
Arguments wa_end {R}.
Arguments wa_index {R}.

(** [buf.len()] *)
Definition blen (buf : list N) : N := N.of_nat (length buf).

(** [&buf[a..b]] *)
Definition wslice (buf : list N) (a b : N) : outcome (list N) :=
  if (a <=? b) && (b <=? blen buf) then Ret (firstn (N.to_nat (b - a)) (skipn (N.to_nat a) buf)) else Panic.

(** [as i64] of a [usize], and subtraction of [i64]s *)
Definition as_i64 (n : N) : Z := as_signed 64 n.
Definition isub (a b : Z) : outcome Z :=
  if ((- 2 ^ 63 <=? a - b) && (a - b <? 2 ^ 63))%Z then Ret (a - b)%Z else Panic.

(** accreader.rs:61-73 *)
Definition w_reset {R : Type} (a : wacc R) : outcome (wacc R) :=
  let! rem := usub (wa_end a) (wa_pos a) in
  let! buf' :=
    if 0 <? rem then
      let! w := wslice (wa_buf a) (wa_pos a) (wa_end a) in
      Ret (w ++ skipn (N.to_nat rem) (wa_buf a))
    else Ret (wa_buf a) in
  Ret (mk_wacc (wa_inner a) buf' 0 rem (wa_index a)).

(** accreader.rs:88-90 *)
Definition w_data {R : Type} (a : wacc R) : outcome (list N) := wslice (wa_buf a) (wa_pos a) (wa_end a).

(** accreader.rs:82-84 *)
Definition w_capacity {R : Type} (a : wacc R) : outcome N := usub (wa_end a) (wa_pos a).

(** accreader.rs:91-94; a vector of 2^63 bytes or more cannot be allocated *)
Definition w_grow {R : Type} (a : wacc R) (len : N) : outcome (wacc R) :=
  let! l := uadd (blen (wa_buf a)) len in
  if l <? 2 ^ 63 then Ret (mk_wacc (wa_inner a) (wa_buf a ++ repeat 0 (N.to_nat len)) (wa_pos a) (wa_end a) (wa_index a)) else Panic.

(** accreader.rs:159-163 *)
Definition w_consume {R : Type} (a : wacc R) (amt : N) : outcome (wacc R) :=
  let! p := uadd (wa_pos a) amt in
  let! x := uadd (wa_index a) amt in
  Ret (mk_wacc (wa_inner a) (wa_buf a) (N.min p (wa_end a)) (wa_end a) x).

Section Acc.
Context {R : Type}.
Variable i : io R.

(** accreader.rs:142-157 *)
Definition w_fill_buf (a : wacc R) : outcome (wacc R * result (list N) io_error) :=
  if negb (wa_pos a =? 0) || negb (wa_end a =? blen (wa_buf a)) then
    let! a1 := w_reset a in
    let! tail := wslice (wa_buf a1) (wa_end a1) (blen (wa_buf a1)) in
    let '(r', tail', res) := io_read i (wa_inner a1) tail in
    let buf' := with_tail (wa_buf a1) (N.to_nat (wa_end a1)) tail' in
    match res with
    | Error e => Ret (mk_wacc r' buf' (wa_pos a1) (wa_end a1) (wa_index a1), Error e)
    | Okay n =>
        let! e := uadd (wa_end a1) (N.of_nat n) in
        let a2 := mk_wacc r' buf' (wa_pos a1) e (wa_index a1) in
        let! d := wslice (wa_buf a2) (wa_pos a2) (wa_end a2) in
        Ret (a2, Okay d)
    end
  else
    let! d := wslice (wa_buf a) (wa_pos a) (wa_end a) in
    Ret (a, Okay d).

(** accreader.rs:98-138 *)
Definition w_read (a : wacc R) (dst : list N) : outcome (wacc R * list N * result nat io_error) :=
  let! rem := usub (wa_end a) (wa_pos a) in
  if blen dst <? rem then
    let! e := uadd (wa_pos a) (blen dst) in
    let! s := wslice (wa_buf a) (wa_pos a) e in
    let '(dst', len) := slice_read s dst in
    let! a1 := w_consume a (N.of_nat len) in
    Ret (a1, dst', Okay len)
  else if blen (wa_buf a) <? blen dst then
    let! s := wslice (wa_buf a) (wa_pos a) (wa_end a) in
    let '(dst1, len) := slice_read s dst in
    let! tail := wslice dst1 rem (blen dst1) in
    let '(r', tail', res) := io_read i (wa_inner a) tail in
    let dst2 := with_tail dst1 (N.to_nat rem) tail' in
    let a1 := mk_wacc r' (wa_buf a) (wa_pos a) (wa_end a) (wa_index a) in
    match res with
    | Error e => Ret (a1, dst2, Error e)
    | Okay n =>
        let! total_len := uadd (N.of_nat n) (N.of_nat len) in
        let! a2 := w_consume a1 total_len in
        let! a3 := w_reset a2 in
        Ret (a3, dst2, Okay (N.to_nat total_len))
    end
  else
    let! (a1, res) := w_fill_buf a in
    match res with
    | Error e => Ret (a1, dst, Error e)
    | Okay d =>
        let '(dst', nread) := slice_read d dst in
        let! a2 := w_consume a1 (N.of_nat nread) in
        Ret (a2, dst', Okay nread)
    end.

(** accreader.rs:194-203 *)
Definition w_seek_inner (a : wacc R) (where_to : seek_from) : outcome (wacc R * result nat io_error) :=
  let '(r', res) := io_seek i (wa_inner a) where_to in
  match res with
  | Error e => Ret (mk_wacc r' (wa_buf a) (wa_pos a) (wa_end a) (wa_index a), Error e)
  | Okay sz =>
      let! (a1, fr) := w_fill_buf (mk_wacc r' (wa_buf a) 0 0 (N.of_nat sz)) in
      match fr with
      | Error e => Ret (a1, Error e)
      | Okay _ => Ret (a1, Okay sz)
      end
  end.

(** accreader.rs:167-204; the second half of the condition at line 171 is evaluated only if
    the first holds *)
Definition w_seek (a : wacc R) (where_to : seek_from) : outcome (wacc R * result nat io_error) :=
  match where_to with
  | Start n =>
      let mv := N.of_nat n in
      let! here :=
        if wa_index a <=? mv then
          let! s := uadd (wa_index a) (wa_end a) in
          let! bound := usub s (wa_pos a) in
          Ret (mv <? bound)
        else Ret false in
      if here : bool then
        let! d := usub mv (wa_index a) in
        let! p := uadd (wa_pos a) d in
        Ret (mk_wacc (wa_inner a) (wa_buf a) p (wa_end a) mv, Okay n)
      else w_seek_inner a (Start n)
  | End d => w_seek_inner a (End d)
  | Current sz =>
      let! remaining := usub (wa_end a) (wa_pos a) in
      if (0 <=? sz)%Z then
        if Z.to_N sz <=? remaining then
          let! x := uadd (wa_index a) (Z.to_N sz) in
          let! p := uadd (wa_pos a) (Z.to_N sz) in
          Ret (mk_wacc (wa_inner a) (wa_buf a) p (wa_end a) x, Okay (N.to_nat x))
        else
          let! d := isub sz (as_i64 remaining) in
          w_seek_inner a (Current d)
      else w_seek_inner a (Current sz)
  end.

(** The calls of [AccModel.acc_op] (harness). *)
Definition w_acc_step (a : wacc R) (op : acc_op) : outcome (wacc R * acc_out) :=
  match op with
  | ARead dst => let! (a', dst', res) := w_read a dst in Ret (a', ORead dst' res)
  | AFill => let! (a', res) := w_fill_buf a in Ret (a', OFill res)
  | AConsume n => let! a' := w_consume a (N.of_nat n) in Ret (a', OUnit)
  | AGrow n => let! a' := w_grow a (N.of_nat n) in Ret (a', OUnit)
  | AReset => let! a' := w_reset a in Ret (a', OUnit)
  | AData => let! d := w_data a in Ret (a, OData d)
  | ACapacity => let! n := w_capacity a in Ret (a, OCapacity (N.to_nat n))
  | ASeek s => let! (a', res) := w_seek a s in Ret (a', OSeek res)
  end.

Fixpoint w_acc_run (a : wacc R) (ops : list acc_op) : outcome (wacc R * list acc_out) :=
  match ops with
  | [] => Ret (a, [])
  | op :: ops' =>
      let! (a1, o) := w_acc_step a op in
      let! (a2, os) := w_acc_run a1 ops' in
      Ret (a2, o :: os)
  end.
End Acc.

(** accreader.rs:31-39 *)
Definition w_with_capacity {R : Type} (cap : N) (r : R) : wacc R := mk_wacc r (repeat 0 (N.to_nat cap)) 0 0 0.
