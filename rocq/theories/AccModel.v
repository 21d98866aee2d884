(** Transcription of format/src/buffer/accreader.rs.

    The inner reader is an arbitrary type [R] with two functions, the [read] and
    [seek] of std::io.  [read] receives the destination slice and returns its new
    contents, so nothing is assumed about what an implementation does with the
    part of the slice it does not report.  Positions are [nat]: [WordAccModel] has
    the same functions on 64-bit words, and C96 relates the two.  The [log::trace!] calls are left out. *)
From Coq Require Import List Arith NArith ZArith Bool.
From Verif Require Import Base.
Import ListNotations.
Local Open Scope nat_scope.

(** std::io::Error; only the kinds the code distinguishes are named. *)
Inductive io_error : Type := Interrupted | UnexpectedEof | WriteZero | OtherError (code : nat).

(** std::io::SeekFrom *)
Inductive seek_from : Type := Start (n : nat) | End (d : Z) | Current (d : Z).

(** [Read::read] and [Seek::seek] of the inner reader. *)
Record io (R : Type) : Type := mk_io {
  io_read : R -> list N -> R * list N * result nat io_error;
  io_seek : R -> seek_from -> R * result nat io_error
}.
Arguments mk_io {R}.
Arguments io_read {R}.
Arguments io_seek {R}.

(** accreader.rs:14-21 *)
Record acc (R : Type) : Type := mk_acc {
  inner : R;
  abuf : list N;
  apos : nat;
  aend : nat;
  aindex : nat
}.
Arguments mk_acc {R}.
Arguments inner {R}.
Arguments abuf {R}.
Arguments apos {R}.
Arguments aend {R}.
Arguments aindex {R}.

(** [impl Read for &[u8]] (standard library): copies as much as fits. *)
Definition slice_read (s dst : list N) : list N * nat :=
  let amt := Nat.min (length dst) (length s) in
  (firstn amt s ++ skipn amt dst, amt).

(** Writing through the sub-slice [&mut buf[k..]]. *)
Definition with_tail (buf : list N) (k : nat) (tail : list N) : list N := firstn k buf ++ tail.

Section Acc.
Context {R : Type}.
Variable i : io R.

(** accreader.rs:31-39 *)
Definition with_capacity (cap : nat) (r : R) : acc R := mk_acc r (repeat 0%N cap) 0 0 0.

(** accreader.rs:61-73; [copy_within] on a valid range moves the window to the
    front and leaves the rest of the buffer as it was *)
Definition reset_buffer_position (a : acc R) : outcome (acc R) :=
  let! rem := csub (aend a) (apos a) in
  let! buf' :=
    if 0 <? rem then
      let! w := slice (abuf a) (apos a) (aend a) in
      Ret (w ++ skipn rem (abuf a))
    else Ret (abuf a) in
  Ret (mk_acc (inner a) buf' 0 rem (aindex a)).

(** accreader.rs:76-79 and 88-90 *)
Definition current_slice (a : acc R) : outcome (list N) := slice (abuf a) (apos a) (aend a).
Definition data (a : acc R) : outcome (list N) := slice (abuf a) (apos a) (aend a).

(** accreader.rs:82-84 *)
Definition capacity (a : acc R) : outcome nat := csub (aend a) (apos a).

(** accreader.rs:91-94 *)
Definition grow (a : acc R) (len : nat) : acc R :=
  mk_acc (inner a) (abuf a ++ repeat 0%N len) (apos a) (aend a) (aindex a).

(** accreader.rs:159-163 *)
Definition consume (a : acc R) (amt : nat) : acc R :=
  mk_acc (inner a) (abuf a) (Nat.min (apos a + amt) (aend a)) (aend a) (aindex a + amt).

(** accreader.rs:142-157; the returned slice is a copy here *)
Definition fill_buf (a : acc R) : outcome (acc R * result (list N) io_error) :=
  if negb (apos a =? 0) || negb (aend a =? length (abuf a)) then
    let! a1 := reset_buffer_position a in
    let! tail := slice (abuf a1) (aend a1) (length (abuf a1)) in
    let '(r', tail', res) := io_read i (inner a1) tail in
    let buf' := with_tail (abuf a1) (aend a1) tail' in
    match res with
    | Error e => Ret (mk_acc r' buf' (apos a1) (aend a1) (aindex a1), Error e)
    | Okay n =>
        let a2 := mk_acc r' buf' (apos a1) (aend a1 + n) (aindex a1) in
        let! d := slice (abuf a2) (apos a2) (aend a2) in
        Ret (a2, Okay d)
    end
  else
    let! d := slice (abuf a) (apos a) (aend a) in
    Ret (a, Okay d).

(** accreader.rs:98-138: new state, new contents of the caller's slice, result *)
Definition read (a : acc R) (dst : list N) : outcome (acc R * list N * result nat io_error) :=
  let! rem := csub (aend a) (apos a) in
  if length dst <? rem then
    let! s := slice (abuf a) (apos a) (apos a + length dst) in
    let '(dst', len) := slice_read s dst in
    Ret (consume a len, dst', Okay len)
  else if length (abuf a) <? length dst then
    let! s := slice (abuf a) (apos a) (aend a) in
    let '(dst1, len) := slice_read s dst in
    let! tail := slice dst1 rem (length dst1) in
    let '(r', tail', res) := io_read i (inner a) tail in
    let dst2 := with_tail dst1 rem tail' in
    let a1 := mk_acc r' (abuf a) (apos a) (aend a) (aindex a) in
    match res with
    | Error e => Ret (a1, dst2, Error e)
    | Okay n =>
        let total_len := n + len in
        let! a2 := reset_buffer_position (consume a1 total_len) in
        Ret (a2, dst2, Okay total_len)
    end
  else
    let! (a1, res) := fill_buf a in
    match res with
    | Error e => Ret (a1, dst, Error e)
    | Okay d =>
        let '(dst', nread) := slice_read d dst in
        Ret (consume a1 nread, dst', Okay nread)
    end.

(** accreader.rs:194-203 *)
Definition seek_inner (a : acc R) (where_to : seek_from) : outcome (acc R * result nat io_error) :=
  let '(r', res) := io_seek i (inner a) where_to in
  match res with
  | Error e => Ret (mk_acc r' (abuf a) (apos a) (aend a) (aindex a), Error e)
  | Okay sz =>
      let! (a1, fr) := fill_buf (mk_acc r' (abuf a) 0 0 sz) in
      match fr with
      | Error e => Ret (a1, Error e)
      | Okay _ => Ret (a1, Okay sz)
      end
  end.

(** accreader.rs:167-204 *)
Definition seek (a : acc R) (where_to : seek_from) : outcome (acc R * result nat io_error) :=
  match where_to with
  | Start mv =>
      let! bound := csub (aindex a + aend a) (apos a) in
      if (aindex a <=? mv) && (mv <? bound) then
        Ret (mk_acc (inner a) (abuf a) (apos a + (mv - aindex a)) (aend a) mv, Okay mv)
      else seek_inner a (Start mv)
  | End d => seek_inner a (End d)
  | Current sz =>
      let! remaining := csub (aend a) (apos a) in
      if (0 <=? sz)%Z then
        if Z.to_nat sz <=? remaining then
          let a' := mk_acc (inner a) (abuf a) (apos a + Z.to_nat sz) (aend a) (aindex a + Z.to_nat sz) in
          Ret (a', Okay (aindex a'))
        else seek_inner a (Current (sz - Z.of_nat remaining))
      else seek_inner a (Current sz)
  end.

(** [Read::read_exact] (standard library, not overridden by [AccReader]): calls
    [read] until the slice is full; [Ok(0)] means the end of the stream,
    [Interrupted] is retried; a count larger than the slice panics.  At most [fuel] calls
    are made; running out of fuel is [None]. *)
Fixpoint read_exact (fuel : nat) (a : acc R) (n : nat) : outcome (acc R * option (result (list N) io_error)) :=
  match n with
  | O => Ret (a, Some (Okay []))
  | S _ =>
      match fuel with
      | O => Ret (a, None)
      | S fuel' =>
          let! (a1, dst, res) := read a (repeat 0%N n) in
          match res with
          | Error Interrupted => read_exact fuel' a1 n
          | Error e => Ret (a1, Some (Error e))
          | Okay O => Ret (a1, Some (Error UnexpectedEof))
          | Okay k =>
              if k <=? n then
                let! (a2, rest) := read_exact fuel' a1 (n - k) in
                match rest with
                | Some (Okay l) => Ret (a2, Some (Okay (firstn k dst ++ l)))
                | other => Ret (a2, other)
                end
              else Panic
          end
      end
  end.

End Acc.

(** The calls a client can make, and running a sequence of them. *)
Inductive acc_op : Type :=
| ARead (dst : list N)
| AFill
| AConsume (n : nat)
| AGrow (n : nat)
| AReset
| AData
| ACapacity
| ASeek (s : seek_from).

Inductive acc_out : Type :=
| ORead (dst : list N) (res : result nat io_error)
| OFill (res : result (list N) io_error)
| OUnit
| OData (l : list N)
| OCapacity (n : nat)
| OSeek (res : result nat io_error).

Definition acc_step {R : Type} (i : io R) (a : acc R) (op : acc_op) : outcome (acc R * acc_out) :=
  match op with
  | ARead dst => let! (a', dst', res) := read i a dst in Ret (a', ORead dst' res)
  | AFill => let! (a', res) := fill_buf i a in Ret (a', OFill res)
  | AConsume n => Ret (consume a n, OUnit)
  | AGrow n => Ret (grow a n, OUnit)
  | AReset => let! a' := reset_buffer_position a in Ret (a', OUnit)
  | AData => let! d := data a in Ret (a, OData d)
  | ACapacity => let! n := capacity a in Ret (a, OCapacity n)
  | ASeek s => let! (a', res) := seek i a s in Ret (a', OSeek res)
  end.

Fixpoint acc_run {R : Type} (i : io R) (a : acc R) (ops : list acc_op) : outcome (acc R * list acc_out) :=
  match ops with
  | [] => Ret (a, [])
  | op :: ops' =>
      let! (a1, o) := acc_step i a op in
      let! (a2, os) := acc_run i a1 ops' in
      Ret (a2, o :: os)
  end.
