(** Further methods of the standard library that [AccReader] and [Writer] inherit: vectored reads
    and writes, [bytes], [take], [skip_until], [stream_position], [rewind], [seek_relative]. *)
From Coq Require Import List Arith NArith ZArith Bool.
From Verif Require Import Base AccModel AccSpec StdReadSpec MuxModel.
Import ListNotations.
Local Open Scope nat_scope.

(** The number of leading empty buffers; [read_vectored] and [write_vectored] use the buffer behind
    them, or an empty slice if there is none. *)
Fixpoint empties (bufs : list (list N)) : nat :=
  match bufs with
  | [] :: bufs' => S (empties bufs')
  | _ => 0
  end.
Definition first_filled (bufs : list (list N)) : list N := nth (empties bufs) bufs [].

(** [Read::read_vectored] (standard library, [default_read_vectored]) *)
Definition read_vectored {R : Type} (i : io R) (a : acc R) (bufs : list (list N)) : outcome (acc R * list (list N) * result nat io_error) :=
  let! (a', dst, res) := read i a (first_filled bufs) in
  Ret (a', update bufs (empties bufs) dst, res).

(** [Read::bytes] and the collection of what it yields into a [Result]: one byte at a time;
    [Interrupted] is retried. *)
Fixpoint collect_bytes {R : Type} (i : io R) (calls : nat) (a : acc R) (got : list N) : outcome (acc R * list N * option (result unit io_error)) :=
  match calls with
  | O => Ret (a, got, None)
  | S calls' =>
      let! (a1, dst, res) := read i a [0%N] in
      match res with
      | Okay O => Ret (a1, got, Some (Okay tt))
      | Okay _ => collect_bytes i calls' a1 (got ++ dst)
      | Error Interrupted => collect_bytes i calls' a1 got
      | Error e => Ret (a1, got, Some (Error e))
      end
  end.

(** [Take::read] (standard library) with [limit] bytes to go; the number read is asserted not to
    exceed the limit. *)
Definition take_read {R : Type} (i : io R) (a : acc R) (limit : nat) (dst : list N) : outcome (acc R * nat * list N * result nat io_error) :=
  if limit =? 0 then Ret (a, limit, dst, Okay 0)
  else
    let max := Nat.min (length dst) limit in
    let! (a', d, res) := read i a (firstn max dst) in
    match res with
    | Okay n => if n <=? limit then Ret (a', limit - n, d ++ skipn max dst, Okay n) else Panic
    | Error e => Ret (a', limit, d ++ skipn max dst, Error e)
    end.

(** [Read::read_to_end] on a [Take], as [read_to_end] in [StdReadSpec] *)
Fixpoint take_to_end {R : Type} (i : io R) (sizes : list nat) (a : acc R) (limit : nat) (got : list N)
    : outcome (acc R * nat * list N * option (result unit io_error)) :=
  match sizes with
  | [] => Ret (a, limit, got, None)
  | n :: sizes' =>
      let! (a1, limit1, dst, res) := take_read i a limit (repeat 0%N n) in
      match res with
      | Error Interrupted => take_to_end i sizes' a1 limit1 got
      | Error e => Ret (a1, limit1, got, Some (Error e))
      | Okay O => Ret (a1, limit1, got, Some (Okay tt))
      | Okay k => if k <=? n then take_to_end i sizes' a1 limit1 (got ++ firstn k dst) else Panic
      end
  end.

(** [BufRead::skip_until] (standard library): as [read_until], counting only *)
Fixpoint skip_until {R : Type} (i : io R) (fuel : nat) (d : N) (a : acc R) (n : nat) : outcome (acc R * nat * option (result unit io_error)) :=
  match fuel with
  | O => Ret (a, n, None)
  | S fuel' =>
      let! (a1, res) := fill_buf i a in
      match res with
      | Error Interrupted => skip_until i fuel' d a1 n
      | Error e => Ret (a1, n, Some (Error e))
      | Okay available =>
          match memchr d available with
          | Some j => Ret (consume a1 (j + 1), n + (j + 1), Some (Okay tt))
          | None =>
              match available with
              | [] => Ret (consume a1 0, n, Some (Okay tt))
              | _ => skip_until i fuel' d (consume a1 (length available)) (n + length available)
              end
          end
      end
  end.

(** [Seek::stream_position], [Seek::rewind] and [Seek::seek_relative] (standard library) *)
Definition stream_position {R : Type} (i : io R) (a : acc R) : outcome (acc R * result nat io_error) := seek i a (Current 0).
Definition rewind {R : Type} (i : io R) (a : acc R) : outcome (acc R * result unit io_error) :=
  let! (a', res) := seek i a (Start 0) in
  Ret (a', match res with Okay _ => Okay tt | Error e => Error e end).
Definition seek_relative {R : Type} (i : io R) (a : acc R) (d : Z) : outcome (acc R * result unit io_error) :=
  let! (a', res) := seek i a (Current d) in
  Ret (a', match res with Okay _ => Okay tt | Error e => Error e end).

(** [Write::write_vectored] (standard library, [default_write_vectored]) and
    [Seek::stream_position] of [Writer] *)
Definition writer_write_vectored {W : Type} (s : sink W) (w : writer W) (bufs : list (list N)) : writer W * result nat io_error :=
  writer_write s w (first_filled bufs).
Definition writer_stream_position {W : Type} (s : sink W) (w : writer W) : writer W * result nat io_error := writer_seek s w (Current 0).
