(** The loops of format/src/demuxer.rs over a reader whose [grow] may panic, as that of
    [AccReader] does when the buffer would reach 2^63 bytes; [DemuxModel] has them over
    buffers without a limit. *)
From Coq Require Import List Arith NArith ZArith Bool.
From Verif Require Import Base AccModel FormatModel DemuxModel WordAccModel ReleaseAccModel.
Import ListNotations.
Local Open Scope nat_scope.

(** [AccReader] with its counters as words, accreader.rs:87-95, 141-164, 166-204; [b_grow] is
    not used, see [word_grow]. *)
Definition word_buffered {S : Type} (i : io S) : buffered_io (wacc S) :=
  mk_buffered (w_fill_buf i) (w_seek i) w_data (fun a _ => a).
Definition word_grow {S : Type} (a : wacc S) (n : nat) : outcome (wacc S) := w_grow a (N.of_nat n).

(** The same without overflow checks. *)
Definition release_buffered {S : Type} (i : io S) : buffered_io (wacc S) :=
  mk_buffered (ra_fill_buf i) (ra_seek i) ra_data (fun a _ => a).
Definition release_grow {S : Type} (a : wacc S) (n : nat) : outcome (wacc S) := ra_grow a (N.of_nat n).

Section Demux.
Context {P D R : Type}.
Variable dm : demuxer_fns P D R.
Variable b : buffered_io R.
Variable g : R -> nat -> outcome R.

Notation ctx := (dctx P D R).

(** demuxer.rs:93-107 *)
Fixpoint wd_headers (rounds : nat) (c : ctx) : outcome (ctx * option (result unit error)) :=
  match rounds with
  | O => Ret (c, None)
  | S rounds' =>
      let! (r', fr) := b_fill b (c_reader c) in
      let c1 := mk_dctx (c_demuxer c) r' (c_info c) in
      match fr with
      | Error e => Ret (c1, Some (Error (Io e)))
      | Okay _ =>
          let! (c2, res) := read_headers_internal dm b c1 in
          match res with
          | Error (MoreDataNeeded needed) =>
              let! r3 := g (c_reader c2) needed in
              wd_headers rounds' (mk_dctx (c_demuxer c2) r3 (c_info c2))
          | Error e => Ret (c2, Some (Error e))
          | Okay _ => Ret (c2, Some (Okay tt))
          end
      end
  end.

(** demuxer.rs:142-165 *)
Fixpoint wd_event (rounds : nat) (c : ctx) : outcome (ctx * option (result (event P) error)) :=
  match rounds with
  | O => Ret (c, None)
  | S rounds' =>
      let! (c1, res) := read_event_internal dm b c in
      match res with
      | Error (MoreDataNeeded needed) =>
          let! d := b_data b (c_reader c1) in
          if needed <=? length d then wd_event rounds' c1
          else
            let! r2 := g (c_reader c1) needed in
            let! (r3, fr) := b_fill b r2 in
            let c3 := mk_dctx (c_demuxer c1) r3 (c_info c1) in
            match fr with
            | Error e => Ret (c3, Some (Error (Io e)))
            | Okay _ =>
                let! d3 := b_data b r3 in
                if length d3 <=? length d then Ret (c3, Some (Okay Eof)) else wd_event rounds' c3
            end
      | Error e => Ret (c1, Some (Error e))
      | Okay ev => Ret (c1, Some (Okay ev))
      end
  end.

End Demux.
