(** C182: the buffer while demuxing from a source that is not slow. *)
From Coq Require Import List Arith NArith ZArith Bool.
From Verif Require Import Base AccModel AccSpec FormatModel DemuxModel DemuxSpec BufSizeSpec CallsSpec DemuxCallsSpec BufGrowProofs.
Import ListNotations.
Local Open Scope nat_scope.

(** Even when every read of the source fills what it is given, there is no factor by which the buffer stays within the
    capacity and the largest request ... *)
Theorem C182_fast_source_refuted : forall f, exists src m cap calls c' rs,
  0 < m /\ requests_at_most (block_parser m) m /\
  read_events (parser_demuxer (block_parser m) (acc_buffered cursor_io)) (acc_buffered cursor_io) 2 calls
    (context_new tt (with_capacity cap (mk_cursor src 0 []))) = Ret (c', Some rs) /\
  Forall (fun r => exists p, r = Okay (NewPacket p)) rs /\ length rs = calls /\
  f * (cap + m) < length (abuf (c_reader c')).
Proof. exact fast_growth. Qed.
Print Assumptions C182_fast_source_refuted.

(** ... because every time the buffer runs empty it grows by a packet and never shrinks: with packets of [m] bytes and room
    for [q] of them at the beginning, [j * q + j * (j + 1) / 2] packets leave room for [q + j]. *)
Theorem C182_growth_exact : forall (R : Type) (i : io R) src good tell m q j k r0,
  source_ok i src good tell -> fills i src good tell -> good r0 -> tell r0 = 0 -> 0 < m ->
  2 * k = 2 * j * q + j * (j + 1) -> k * m <= length src ->
  exists c' rs, read_events (parser_demuxer (block_parser m) (acc_buffered i)) (acc_buffered i) 2 k (context_new tt (with_capacity (q * m) r0)) = Ret (c', Some rs) /\
    length rs = k /\ Forall (fun r => exists p, r = Okay (NewPacket p)) rs /\ length (abuf (c_reader c')) = (q + j) * m.
Proof. exact block_growth. Qed.
Print Assumptions C182_growth_exact.

(** What holds: up to the last request the square of the size is bounded by twice the largest request times the length of the
    source, so the buffer grows with the square root of the file at most. *)
Theorem C182_root_bound_partial : forall (P D R : Type) (i : io R) src good tell, source_ok i src good tell -> fills i src good tell ->
  forall (ps : parser P D), within ps -> forall m cap, requests_at_most ps m ->
  forall r0 d n calls c' rs, good r0 -> tell r0 = 0 ->
  read_events (parser_demuxer ps (acc_buffered i)) (acc_buffered i) n calls (context_new d (with_capacity cap r0)) = Ret (c', Some rs) ->
  Forall not_eof rs ->
  exists l, length (abuf (c_reader c')) <= l + m /\ l * l + m * cap <= m * l + cap * cap + 2 * m * length src.
Proof. exact @size_bound. Qed.
Print Assumptions C182_root_bound_partial.

(** Nine packets of two bytes with room for one at the beginning: the buffer ends with room for four. *)
Example C182_example :
  match read_events (parser_demuxer (block_parser 2) (acc_buffered cursor_io)) (acc_buffered cursor_io) 2 9
      (context_new tt (with_capacity 2 (mk_cursor (repeat 7%N 20) 0 []))) with
  | Ret (c, Some rs) => (length (abuf (c_reader c)), length rs)
  | _ => (0, 0)
  end = (8, 9).
Proof. vm_compute. reflexivity. Qed.
