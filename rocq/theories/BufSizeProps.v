(** C89: the buffer while demuxing. *)
From Coq Require Import List Arith NArith ZArith Bool.
From Verif Require Import Base AccModel AccSpec AccProofs2 FormatModel DemuxModel DemuxSpec DemuxExamples RetrySpec BufSizeSpec RetryProofs BufSizeMain.
Import ListNotations.
Local Open Scope nat_scope.

(** C89 as stated is false: no multiple of capacity plus largest request bounds the
    buffer after a single event ... *)
Theorem C89_bounded_buffer_refuted : forall k, exists src m cap c' e,
  requests_at_most (block_parser m) m /\
  read_event (parser_demuxer (block_parser m) (acc_buffered cursor_io)) (acc_buffered cursor_io) (length src + 1)
    (context_new tt (with_capacity cap (slow_source src))) = Ret (c', Some (Okay (NewPacket e))) /\
  k * (cap + m) < length (abuf (c_reader c')).
Proof. exact c89_bounded_buffer_refuted. Qed.
Print Assumptions C89_bounded_buffer_refuted.

(** ... because each round adds the whole request, room or not: a packet of [n] bytes
    that arrives byte by byte leaves [n * n] bytes more than at the beginning. *)
Theorem C89_slow_source_exact : forall src cap,
  requests_at_most (block_parser (length src)) (length src) /\
  exists c', read_event (parser_demuxer (block_parser (length src)) (acc_buffered cursor_io)) (acc_buffered cursor_io) (length src + 1)
      (context_new tt (with_capacity cap (slow_source src))) = Ret (c', Some (Okay (NewPacket (block_packet src)))) /\
    length (abuf (c_reader c')) = cap + length src * length src.
Proof. exact c89_slow_source_exact. Qed.
Print Assumptions C89_slow_source_exact.

(** What holds: at most one request per byte of the source and one per call, whatever
    the source delivers and however often it fails. *)
Theorem C89_buffer_bound_partial : forall (S P D : Type) (i : io S) src good tell (ps : parser P D) m cap r0 d n calls,
  source_ok i src good tell -> local_seeks ps -> requests_at_most ps m -> good r0 -> tell r0 = 0 ->
  exists c' o, read_events (parser_demuxer ps (acc_buffered i)) (acc_buffered i) n calls (context_new d (with_capacity cap r0)) = Ret (c', o) /\
    length (abuf (c_reader c')) <= cap + m * (length src + calls).
Proof. exact c89_buffer_bound_partial. Qed.
Print Assumptions C89_buffer_bound_partial.

(** With room for 8 bytes a request for 5 adds 5 bytes when the source is fast and 25
    when it is slow. *)
Example C89_example :
  (exists c', read_event (parser_demuxer (block_parser 5) (acc_buffered cursor_io)) (acc_buffered cursor_io) 9
     (context_new tt (with_capacity 8 (mk_cursor [1; 2; 3; 4; 5]%N 0 []))) = Ret (c', Some (Okay (NewPacket (block_packet [1; 2; 3; 4; 5]%N)))) /\
     length (abuf (c_reader c')) = 13) /\
  (exists c', read_event (parser_demuxer (block_parser 5) (acc_buffered cursor_io)) (acc_buffered cursor_io) 9
     (context_new tt (with_capacity 8 (slow_source [1; 2; 3; 4; 5]%N))) = Ret (c', Some (Okay (NewPacket (block_packet [1; 2; 3; 4; 5]%N)))) /\
     length (abuf (c_reader c')) = 33) /\
  local_seeks tlv_parser /\ local_seeks (block_parser 5).
Proof.
  split; [eexists; split; [vm_compute; reflexivity|]; vm_compute; reflexivity|].
  split; [eexists; split; [vm_compute; reflexivity|]; vm_compute; reflexivity|].
  split; [exact tlv_local|exact (block_local 5)].
Qed.
