(** C181: the calls of its source that demuxing makes. *)
From Coq Require Import List Arith NArith ZArith Bool.
From Verif Require Import Base AccModel AccSpec FormatModel DemuxModel DemuxSpec DemuxExamples CallsSpec CallsProofs2 DemuxCallsSpec DemuxCallsProofs HeaderCallsProofs.
Import ListNotations.
Local Open Scope nat_scope.

(** Whatever the source answers: it is read exactly once for every request that the buffered bytes do not meet, and never
    sought, as long as the parser moves within the bytes it has seen. *)
Theorem C181_requests : forall (P D R : Type) (i : io R) (ps : parser P D) n calls (c c' : dctx P D (acc R)) rs,
  slices_kept i -> within ps -> apos (c_reader c) <= aend (c_reader c) <= length (abuf (c_reader c)) ->
  read_events (parser_demuxer ps (acc_buffered i)) (acc_buffered i) n calls c = Ret (c', rs) ->
  exists log, read_events (parser_demuxer (counting ps) (acc_buffered (traced i))) (acc_buffered (traced i)) n calls (watched c 0 []) =
      Ret (watched c' (count_reads log) log, rs) /\
    count_seeks log = 0.
Proof. exact requests_calls. Qed.
Print Assumptions C181_requests.

(** Such a read asks for all the free room, which includes the bytes requested: the whole capacity and [needed] more, less
    what is buffered already. *)
Theorem C181_asked : forall (P D R : Type) (i : io R) (ps : parser P D) n (c : dctx P D (acc R)) d' dat needed,
  apos (c_reader c) <= aend (c_reader c) <= length (abuf (c_reader c)) -> data (c_reader c) = Ret dat ->
  ps_event ps (c_demuxer c) dat = (d', Error (MoreDataNeeded needed)) -> length dat < needed ->
  forall c' r, read_event (parser_demuxer ps (acc_buffered i)) (acc_buffered i) (S n) c = Ret (c', r) ->
  exists a3 res, fill_buf i (grow (c_reader c) needed) = Ret (a3, res) /\
    forall log, exists rr, fill_buf (traced i) (grow (logged (c_reader c) log) needed) =
      Ret (logged a3 (log ++ [CRead (length (abuf (c_reader c)) + needed - length dat) rr]), res).
Proof. exact round_asks. Qed.
Print Assumptions C181_asked.

(** With a source that fills what it is given, demuxing up to the end of the source reads it once per [cap + 1] bytes at
    most, and once more, however the packets lie. *)
Theorem C181_whole : forall (P D R : Type) (i : io R) src good tell (ps : parser P D) cap r0 d n calls c' rs,
  source_ok i src good tell -> fills i src good tell -> within ps -> good r0 -> tell r0 = 0 ->
  read_events (parser_demuxer ps (acc_buffered i)) (acc_buffered i) n calls (context_new d (with_capacity cap r0)) = Ret (c', Some rs) ->
  Forall not_eof rs ->
  exists k log, read_events (parser_demuxer (counting ps) (acc_buffered (traced i))) (acc_buffered (traced i)) n calls
      (context_new (d, 0) (with_capacity cap (r0, []))) = Ret (watched c' k log, Some rs) /\
    count_reads log <= length src / (cap + 1) + 1.
Proof. exact whole_calls. Qed.
Print Assumptions C181_whole.

(** [read_headers], with any parser and whatever the source answers: at most one read per call of the parser and one more,
    and a seek only when it succeeds. *)
Theorem C181_headers : forall (P D R : Type) (i : io R) (ps : parser P D) n (c c' : dctx P D (acc R)) r,
  slices_kept i -> apos (c_reader c) <= aend (c_reader c) <= length (abuf (c_reader c)) ->
  read_headers (parser_demuxer ps (acc_buffered i)) (acc_buffered i) n c = Ret (c', r) ->
  exists m log, read_headers (parser_demuxer (header_counting ps) (acc_buffered (traced i))) (acc_buffered (traced i)) n (watched c 0 []) =
      Ret (watched c' m log, r) /\
    count_reads log <= m + 1 /\ count_seeks log <= 1 /\ (count_seeks log = 1 -> r = Some (Okay tt)) /\ (r = None -> count_reads log <= m).
Proof. exact header_calls. Qed.
Print Assumptions C181_headers.

(** The parser of the examples is such a parser: five events from thirteen bytes with a buffer of three bytes
    take three reads. *)
Example C181_within : within tlv_parser.
Proof. exact tlv_within. Qed.
Example C181_example :
  match read_events (parser_demuxer (counting tlv_parser) (acc_buffered (traced cursor_io))) (acc_buffered (traced cursor_io)) 9 5
      (context_new (0, 0) (with_capacity 3 (mk_cursor [255; 3; 1; 2; 3; 1; 9; 3; 4; 5; 6; 255; 255]%N 0 [], []))) with
  | Ret (c, Some rs) => (snd (c_demuxer c), snd (inner (c_reader c)), length rs)
  | _ => (0, [], 0)
  end = (3, [CRead 4 (Okay 4); CRead 5 (Okay 5); CRead 10 (Okay 4)], 5).
Proof. vm_compute. reflexivity. Qed.

(** Headers of nine bytes with a buffer of four: two calls of the parser, two reads, the seek within the buffer. *)
Example C181_headers_example :
  match read_headers (parser_demuxer (header_counting dummy_parser) (acc_buffered (traced cursor_io))) (acc_buffered (traced cursor_io)) 9
      (watched (context_new tt (with_capacity 4 (mk_cursor (repeat 7%N 30) 0 []))) 0 []) with
  | Ret (c, r) => (snd (c_demuxer c), snd (inner (c_reader c)), r)
  | _ => (0, [], None)
  end = (2, [CRead 4 (Okay 4); CRead 5 (Okay 5)], Some (Okay tt)).
Proof. vm_compute. reflexivity. Qed.
