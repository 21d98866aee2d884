(** [AccReader] of format/src/buffer/accreader.rs in a build without overflow checks:
    additions and subtractions wrap around, slices are checked as ever.  The state is that
    of [WordAccModel]. *)
From Coq Require Import List Arith NArith ZArith Bool.
From Verif Require Import Base AccModel WordAccModel ReleaseModel.
Import ListNotations.
Local Open Scope N_scope.

(** Subtraction of [i64]s *)
Definition risub (a b : Z) : Z := ((a - b + 2 ^ 63) mod 2 ^ 64 - 2 ^ 63)%Z.

(** accreader.rs:61-73 *)
Definition ra_reset {R : Type} (a : wacc R) : outcome (wacc R) :=
  let rem := rsub (wa_end a) (wa_pos a) in
  let! buf' :=
    if 0 <? rem then
      let! w := wslice (wa_buf a) (wa_pos a) (wa_end a) in
      Ret (w ++ skipn (N.to_nat rem) (wa_buf a))
    else Ret (wa_buf a) in
  Ret (mk_wacc (wa_inner a) buf' 0 rem (wa_index a)).

(** accreader.rs:88-90 *)
Definition ra_data {R : Type} (a : wacc R) : outcome (list N) := wslice (wa_buf a) (wa_pos a) (wa_end a).

(** accreader.rs:82-84 *)
Definition ra_capacity {R : Type} (a : wacc R) : N := rsub (wa_end a) (wa_pos a).

(** [Vec::resize] to [l] bytes (standard library): cuts off or fills up with zeros; a vector of
    2^63 bytes or more cannot be allocated *)
Definition resize (buf : list N) (l : N) : outcome (list N) :=
  if l <=? blen buf then Ret (firstn (N.to_nat l) buf)
  else if l <? 2 ^ 63 then Ret (buf ++ repeat 0 (N.to_nat (l - blen buf))) else Panic.

(** accreader.rs:91-94 *)
Definition ra_grow {R : Type} (a : wacc R) (len : N) : outcome (wacc R) :=
  let! buf' := resize (wa_buf a) (radd (blen (wa_buf a)) len) in
  Ret (mk_wacc (wa_inner a) buf' (wa_pos a) (wa_end a) (wa_index a)).

(** accreader.rs:159-163 *)
Definition ra_consume {R : Type} (a : wacc R) (amt : N) : wacc R :=
  mk_wacc (wa_inner a) (wa_buf a) (N.min (radd (wa_pos a) amt) (wa_end a)) (wa_end a) (radd (wa_index a) amt).

Section Acc.
Context {R : Type}.
Variable i : io R.

(** accreader.rs:142-157 *)
Definition ra_fill_buf (a : wacc R) : outcome (wacc R * result (list N) io_error) :=
  if negb (wa_pos a =? 0) || negb (wa_end a =? blen (wa_buf a)) then
    let! a1 := ra_reset a in
    let! tail := wslice (wa_buf a1) (wa_end a1) (blen (wa_buf a1)) in
    let '(r', tail', res) := io_read i (wa_inner a1) tail in
    let buf' := with_tail (wa_buf a1) (N.to_nat (wa_end a1)) tail' in
    match res with
    | Error e => Ret (mk_wacc r' buf' (wa_pos a1) (wa_end a1) (wa_index a1), Error e)
    | Okay n =>
        let a2 := mk_wacc r' buf' (wa_pos a1) (radd (wa_end a1) (N.of_nat n)) (wa_index a1) in
        let! d := wslice (wa_buf a2) (wa_pos a2) (wa_end a2) in
        Ret (a2, Okay d)
    end
  else
    let! d := wslice (wa_buf a) (wa_pos a) (wa_end a) in
    Ret (a, Okay d).

(** accreader.rs:98-138 *)
Definition ra_read (a : wacc R) (dst : list N) : outcome (wacc R * list N * result nat io_error) :=
  let rem := rsub (wa_end a) (wa_pos a) in
  if blen dst <? rem then
    let! s := wslice (wa_buf a) (wa_pos a) (radd (wa_pos a) (blen dst)) in
    let '(dst', len) := slice_read s dst in
    Ret (ra_consume a (N.of_nat len), dst', Okay len)
  else if blen (wa_buf a) <? blen dst then
    let! s := wslice (wa_buf a) (wa_pos a) (wa_end a) in
    let '(dst1, len) := slice_read s dst in
    let! tail := wslice dst1 rem (blen dst1) in
    let '(r', tail', res) := io_read i (wa_inner a) tail in
    let dst2 := with_tail dst1 (N.to_nat rem) tail' in
    let a1 := mk_wacc r' (wa_buf a) (wa_pos a) (wa_end a) (wa_index a) in
    match res with
    | Error e => Ret (a1, dst2, Error e)
    | Okay n =>
        let total_len := radd (N.of_nat n) (N.of_nat len) in
        let! a2 := ra_reset (ra_consume a1 total_len) in
        Ret (a2, dst2, Okay (N.to_nat total_len))
    end
  else
    let! (a1, res) := ra_fill_buf a in
    match res with
    | Error e => Ret (a1, dst, Error e)
    | Okay d =>
        let '(dst', nread) := slice_read d dst in
        Ret (ra_consume a1 (N.of_nat nread), dst', Okay nread)
    end.

(** accreader.rs:194-203 *)
Definition ra_seek_inner (a : wacc R) (where_to : seek_from) : outcome (wacc R * result nat io_error) :=
  let '(r', res) := io_seek i (wa_inner a) where_to in
  match res with
  | Error e => Ret (mk_wacc r' (wa_buf a) (wa_pos a) (wa_end a) (wa_index a), Error e)
  | Okay sz =>
      let! (a1, fr) := ra_fill_buf (mk_wacc r' (wa_buf a) 0 0 (N.of_nat sz)) in
      match fr with
      | Error e => Ret (a1, Error e)
      | Okay _ => Ret (a1, Okay sz)
      end
  end.

(** accreader.rs:167-204 *)
Definition ra_seek (a : wacc R) (where_to : seek_from) : outcome (wacc R * result nat io_error) :=
  match where_to with
  | Start n =>
      let mv := N.of_nat n in
      if (wa_index a <=? mv) && (mv <? rsub (radd (wa_index a) (wa_end a)) (wa_pos a)) then
        Ret (mk_wacc (wa_inner a) (wa_buf a) (radd (wa_pos a) (rsub mv (wa_index a))) (wa_end a) mv, Okay n)
      else ra_seek_inner a (Start n)
  | End d => ra_seek_inner a (End d)
  | Current sz =>
      let remaining := rsub (wa_end a) (wa_pos a) in
      if (0 <=? sz)%Z then
        if Z.to_N sz <=? remaining then
          let x := radd (wa_index a) (Z.to_N sz) in
          Ret (mk_wacc (wa_inner a) (wa_buf a) (radd (wa_pos a) (Z.to_N sz)) (wa_end a) x, Okay (N.to_nat x))
        else ra_seek_inner a (Current (risub sz (as_i64 remaining)))
      else ra_seek_inner a (Current sz)
  end.

(** The calls of [AccModel.acc_op] (harness). *)
Definition ra_step (a : wacc R) (op : acc_op) : outcome (wacc R * acc_out) :=
  match op with
  | ARead dst => let! (a', dst', res) := ra_read a dst in Ret (a', ORead dst' res)
  | AFill => let! (a', res) := ra_fill_buf a in Ret (a', OFill res)
  | AConsume n => Ret (ra_consume a (N.of_nat n), OUnit)
  | AGrow n => let! a' := ra_grow a (N.of_nat n) in Ret (a', OUnit)
  | AReset => let! a' := ra_reset a in Ret (a', OUnit)
  | AData => let! d := ra_data a in Ret (a, OData d)
  | ACapacity => Ret (a, OCapacity (N.to_nat (ra_capacity a)))
  | ASeek s => let! (a', res) := ra_seek a s in Ret (a', OSeek res)
  end.

Fixpoint ra_run (a : wacc R) (ops : list acc_op) : outcome (wacc R * list acc_out) :=
  match ops with
  | [] => Ret (a, [])
  | op :: ops' =>
      let! (a1, o) := ra_step a op in
      let! (a2, os) := ra_run a1 ops' in
      Ret (a2, o :: os)
  end.
End Acc.
