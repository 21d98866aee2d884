(** [AccReader] of format/src/buffer/accreader.rs for any width of [usize], with or without
    overflow checks.  Positions in the source are [u64] whatever the machine, so the casts
    [as usize] in [seek] cut them off.  The state is that of [WordAccModel]. *)
From Coq Require Import List Arith NArith ZArith Bool.
From Verif Require Import Base AccModel WordAccModel MachineModel.
Import ListNotations.
Local Open Scope N_scope.

Section Acc.
Variable m : machine.

(** accreader.rs:61-73 *)
Definition m_reset {R : Type} (a : wacc R) : outcome (wacc R) :=
  let! rem := msub m (wa_end a) (wa_pos a) in
  let! buf' :=
    if 0 <? rem then
      let! w := wslice (wa_buf a) (wa_pos a) (wa_end a) in
      Ret (w ++ skipn (N.to_nat rem) (wa_buf a))
    else Ret (wa_buf a) in
  Ret (mk_wacc (wa_inner a) buf' 0 rem (wa_index a)).

(** accreader.rs:88-90 *)
Definition m_data {R : Type} (a : wacc R) : outcome (list N) := wslice (wa_buf a) (wa_pos a) (wa_end a).

(** accreader.rs:82-84 *)
Definition m_capacity {R : Type} (a : wacc R) : outcome N := msub m (wa_end a) (wa_pos a).

(** [Vec::resize] to [l] bytes (standard library): cuts off or fills up with zeros *)
Definition m_resize (buf : list N) (l : N) : outcome (list N) :=
  if l <=? blen buf then Ret (firstn (N.to_nat l) buf)
  else if l <? room m then Ret (buf ++ repeat 0 (N.to_nat (l - blen buf))) else Panic.

(** accreader.rs:91-94 *)
Definition m_grow {R : Type} (a : wacc R) (len : N) : outcome (wacc R) :=
  let! l := madd m (blen (wa_buf a)) len in
  let! buf' := m_resize (wa_buf a) l in
  Ret (mk_wacc (wa_inner a) buf' (wa_pos a) (wa_end a) (wa_index a)).

(** accreader.rs:159-163 *)
Definition m_consume {R : Type} (a : wacc R) (amt : N) : outcome (wacc R) :=
  let! p := madd m (wa_pos a) amt in
  let! x := madd m (wa_index a) amt in
  Ret (mk_wacc (wa_inner a) (wa_buf a) (N.min p (wa_end a)) (wa_end a) x).

Context {R : Type}.
Variable i : io R.

(** accreader.rs:142-157 *)
Definition m_fill_buf (a : wacc R) : outcome (wacc R * result (list N) io_error) :=
  if negb (wa_pos a =? 0) || negb (wa_end a =? blen (wa_buf a)) then
    let! a1 := m_reset a in
    let! tail := wslice (wa_buf a1) (wa_end a1) (blen (wa_buf a1)) in
    let '(r', tail', res) := io_read i (wa_inner a1) tail in
    let buf' := with_tail (wa_buf a1) (N.to_nat (wa_end a1)) tail' in
    match res with
    | Error e => Ret (mk_wacc r' buf' (wa_pos a1) (wa_end a1) (wa_index a1), Error e)
    | Okay n =>
        let! e := madd m (wa_end a1) (N.of_nat n) in
        let a2 := mk_wacc r' buf' (wa_pos a1) e (wa_index a1) in
        let! d := wslice (wa_buf a2) (wa_pos a2) (wa_end a2) in
        Ret (a2, Okay d)
    end
  else
    let! d := wslice (wa_buf a) (wa_pos a) (wa_end a) in
    Ret (a, Okay d).

(** accreader.rs:98-138 *)
Definition m_read (a : wacc R) (dst : list N) : outcome (wacc R * list N * result nat io_error) :=
  let! rem := msub m (wa_end a) (wa_pos a) in
  if blen dst <? rem then
    let! e := madd m (wa_pos a) (blen dst) in
    let! s := wslice (wa_buf a) (wa_pos a) e in
    let '(dst', len) := slice_read s dst in
    let! a1 := m_consume a (N.of_nat len) in
    Ret (a1, dst', Okay len)
  else if blen (wa_buf a) <? blen dst then
    let! s := wslice (wa_buf a) (wa_pos a) (wa_end a) in
    let '(dst1, len) := slice_read s dst in
    let! tail := wslice dst1 rem (blen dst1) in
    let '(r', tail', res) := io_read i (wa_inner a) tail in
    let dst2 := with_tail dst1 (N.to_nat rem) tail' in
    let a1 := mk_wacc r' (wa_buf a) (wa_pos a) (wa_end a) (wa_index a) in
    match res with
    | Error e => Ret (a1, dst2, Error e)
    | Okay n =>
        let! total_len := madd m (N.of_nat n) (N.of_nat len) in
        let! a2 := m_consume a1 total_len in
        let! a3 := m_reset a2 in
        Ret (a3, dst2, Okay (N.to_nat total_len))
    end
  else
    let! (a1, res) := m_fill_buf a in
    match res with
    | Error e => Ret (a1, dst, Error e)
    | Okay d =>
        let '(dst', nread) := slice_read d dst in
        let! a2 := m_consume a1 (N.of_nat nread) in
        Ret (a2, dst', Okay nread)
    end.

(** accreader.rs:194-203 *)
Definition m_seek_inner (a : wacc R) (where_to : seek_from) : outcome (wacc R * result nat io_error) :=
  let '(r', res) := io_seek i (wa_inner a) where_to in
  match res with
  | Error e => Ret (mk_wacc r' (wa_buf a) (wa_pos a) (wa_end a) (wa_index a), Error e)
  | Okay sz =>
      let! (a1, fr) := m_fill_buf (mk_wacc r' (wa_buf a) 0 0 (mcast m (N.of_nat sz))) in
      match fr with
      | Error e => Ret (a1, Error e)
      | Okay _ => Ret (a1, Okay sz)
      end
  end.

(** accreader.rs:167-204; the second half of the condition at line 171 is evaluated only if
    the first holds *)
Definition m_seek (a : wacc R) (where_to : seek_from) : outcome (wacc R * result nat io_error) :=
  match where_to with
  | Start n =>
      let mv := mcast m (N.of_nat n) in
      let! here :=
        if wa_index a <=? mv then
          let! s := madd m (wa_index a) (wa_end a) in
          let! bound := msub m s (wa_pos a) in
          Ret (mv <? bound)
        else Ret false in
      if here : bool then
        let! d := msub m mv (wa_index a) in
        let! p := madd m (wa_pos a) d in
        Ret (mk_wacc (wa_inner a) (wa_buf a) p (wa_end a) mv, Okay (N.to_nat mv))
      else m_seek_inner a (Start n)
  | End d => m_seek_inner a (End d)
  | Current sz =>
      let! remaining := msub m (wa_end a) (wa_pos a) in
      if (0 <=? sz)%Z then
        let n := mcast m (Z.to_N sz) in
        if n <=? remaining then
          let! x := madd m (wa_index a) n in
          let! p := madd m (wa_pos a) n in
          Ret (mk_wacc (wa_inner a) (wa_buf a) p (wa_end a) x, Okay (N.to_nat x))
        else
          let! d := misub m sz (as_i64 remaining) in
          m_seek_inner a (Current d)
      else m_seek_inner a (Current sz)
  end.

(** The calls of [AccModel.acc_op] (harness). *)
Definition m_acc_step (a : wacc R) (op : acc_op) : outcome (wacc R * acc_out) :=
  match op with
  | ARead dst => let! (a', dst', res) := m_read a dst in Ret (a', ORead dst' res)
  | AFill => let! (a', res) := m_fill_buf a in Ret (a', OFill res)
  | AConsume n => let! a' := m_consume a (N.of_nat n) in Ret (a', OUnit)
  | AGrow n => let! a' := m_grow a (N.of_nat n) in Ret (a', OUnit)
  | AReset => let! a' := m_reset a in Ret (a', OUnit)
  | AData => let! d := m_data a in Ret (a, OData d)
  | ACapacity => let! n := m_capacity a in Ret (a, OCapacity (N.to_nat n))
  | ASeek s => let! (a', res) := m_seek a s in Ret (a', OSeek res)
  end.

Fixpoint m_acc_run (a : wacc R) (ops : list acc_op) : outcome (wacc R * list acc_out) :=
  match ops with
  | [] => Ret (a, [])
  | op :: ops' =>
      let! (a1, o) := m_acc_step a op in
      let! (a2, os) := m_acc_run a1 ops' in
      Ret (a2, o :: os)
  end.
End Acc.

