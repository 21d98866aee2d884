(** [Writer] and [get_buffer] once more, with their counters as 64-bit words (overflow checks
    on).  Outputs and readers are those of [MuxModel] and [StreamModel]; their counts are
    converted. *)
From Coq Require Import List Arith NArith ZArith Bool.
From Verif Require Import Base AccModel MuxModel StreamModel.
Import ListNotations.
Local Open Scope nat_scope.

(** format/src/muxer.rs:12-15 *)
Record wwriter (W : Type) : Type := mk_wwriter { ww_inner : W; ww_written : N }.
Arguments mk_wwriter {W}.
Arguments ww_inner {W}.
Arguments ww_written {W}.

(** muxer.rs:19-24 *)
Definition ww_new {W : Type} (w : W) : wwriter W := mk_wwriter w 0.

Section Writer.
Context {W : Type}.
Variable s : sink W.

(** muxer.rs:40-48: [self.bytes_written += written] *)
Definition ww_write (w : wwriter W) (buf : list N) : outcome (wwriter W * result nat io_error) :=
  let '(w', res) := sk_write s (ww_inner w) buf in
  match res with
  | Okay n => let! t := uadd (ww_written w) (N.of_nat n) in Ret (mk_wwriter w' t, Okay n)
  | Error e => Ret (mk_wwriter w' (ww_written w), Error e)
  end.

(** muxer.rs:50-52 *)
Definition ww_flush (w : wwriter W) : wwriter W * result unit io_error :=
  let '(w', res) := sk_flush s (ww_inner w) in (mk_wwriter w' (ww_written w), res).

(** muxer.rs:59-63; [u64 as usize] is the identity *)
Definition ww_seek (w : wwriter W) (sk : seek_from) : wwriter W * result nat io_error :=
  let '(w', res) := sk_seek s (ww_inner w) sk in
  match res with
  | Okay p => (mk_wwriter w' (N.of_nat p), Okay p)
  | Error e => (mk_wwriter w' (ww_written w), Error e)
  end.

(** [Write::write_all] around [ww_write], as in [MuxModel] *)
Fixpoint ww_write_all (fuel : nat) (w : wwriter W) (buf : list N) : outcome (wwriter W * option (result unit io_error)) :=
  match buf with
  | [] => Ret (w, Some (Okay tt))
  | _ :: _ =>
      match fuel with
      | O => Ret (w, None)
      | S fuel' =>
          let! (w1, res) := ww_write w buf in
          match res with
          | Okay O => Ret (w1, Some (Error WriteZero))
          | Okay n => let! rest := slice buf n (List.length buf) in ww_write_all fuel' w1 rest
          | Error Interrupted => ww_write_all fuel' w1 buf
          | Error e => Ret (w1, Some (Error e))
          end
      end
  end.

Definition ww_step (w : wwriter W) (op : writer_op) : outcome (wwriter W * writer_out) :=
  match op with
  | WWrite buf => let! (w', res) := ww_write w buf in Ret (w', WWrote res)
  | WAll fuel buf => let! (w', res) := ww_write_all fuel w buf in Ret (w', WWroteAll res)
  | WFlush => let '(w', res) := ww_flush w in Ret (w', WFlushed res)
  | WSeek sk => let '(w', res) := ww_seek w sk in Ret (w', WSought res)
  end.

Fixpoint ww_run (w : wwriter W) (ops : list writer_op) : outcome (wwriter W * list writer_out) :=
  match ops with
  | [] => Ret (w, [])
  | op :: ops' =>
      let! (w1, o) := ww_step w op in
      let! (w2, os) := ww_run w1 ops' in
      Ret (w2, o :: os)
  end.
End Writer.

(** src/io/byteread.rs:9-19 *)
Fixpoint wget_buffer {R : Type} (rd : reader R) (fuel : nat) (r : R) (buf : list N) (nread : N)
  : outcome (R * list N * option (result unit io_error)) :=
  if (nread <? N.of_nat (length buf))%N then
    match fuel with
    | O => Ret (r, buf, None)
    | S fuel' =>
        let! tail := slice buf (N.to_nat nread) (length buf) in
        let! (r', tail', res) := rd r tail in
        let buf' := with_tail buf (N.to_nat nread) tail' in
        match res with
        | Okay O => Ret (r', buf', Some (Error UnexpectedEof))
        | Okay n => let! t := uadd nread (N.of_nat n) in wget_buffer rd fuel' r' buf' t
        | Error e => Ret (r', buf', Some (Error e))
        end
    end
  else Ret (r, buf, Some (Okay tt)).
