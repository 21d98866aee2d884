(** C62-C64, C68, C69: packets and stream byte readers. *)
From Coq Require Import List Arith NArith ZArith Bool.
From Verif Require Import Base ByteModel ByteSpec AccModel AccSpec AccProofs2 FormatModel MuxModel MuxSpec StreamModel StreamSpec StreamProofs StreamMain StreamLossProofs StreamSmallProofs.
Import ListNotations.
Local Open Scope nat_scope.

(** C62: what [get_packet] returns, for any reader that keeps to the contract of
    std::io::Read, and any number of calls it takes. *)
Theorem C62_get_packet : forall (R : Type) (rd : reader R) src good tell fuel r len, reader_ok rd src good tell -> good r ->
  exists r' res, get_packet rd fuel r len = Ret (r', res) /\ good r' /\
    match res with
    | Some (Okay pkt) => len <= length src - tell r /\ tell r' = tell r + len /\
        pkt = mk_packet (firstn len (skipn (tell r) src)) None (-1) default_time false false
    | Some (Error e) => (e = UnexpectedEof /\ length src - tell r < len /\ length src <= tell r') \/ (e <> Interrupted /\ fails_with rd good e)
    | None => fuel < len \/ fails_with rd good Interrupted
    end.
Proof. exact c62_get_packet. Qed.
Print Assumptions C62_get_packet.

(** Writing a packet and reading it back at the same place gives its data, for every
    way the output and the reader cut the transfers; only an error of the reader itself
    can prevent it. *)
Theorem C62_round_trip : forall (W : Type) (s : sink W) good content tell fuel w pkt w',
  stores s good content tell -> good w -> put_packet s fuel w pkt = Ret (w', Some (Okay tt)) ->
  forall (R : Type) (rd : reader R) goodr tellr fuel' r r' res, reader_ok rd (content w') goodr tellr -> goodr r -> tellr r = tell w ->
  get_packet rd fuel' r (length (p_data pkt)) = Ret (r', Some res) ->
  (res = Okay (mk_packet (p_data pkt) None (-1) default_time false false) /\ tellr r' = tell w') \/
  (exists e, res = Error e /\ e <> Interrupted /\ fails_with rd goodr e).
Proof. exact c62_round_trip. Qed.
Print Assumptions C62_round_trip.

Example C62_example :
  stores file_sink (fun _ => True) f_data f_pos /\
  put_packet file_sink 9 (mk_file [9; 9; 9; 9; 9]%N 1 0 [Okay 1; Error Interrupted; Okay 1]) (mk_packet [1; 2; 3]%N (Some 4%N) 2 default_time true false) =
    Ret (mk_file [9; 1; 2; 3; 9]%N 4 0 [], Some (Okay tt)) /\
  reader_ok (io_reader cursor_io) [9; 1; 2; 3; 9]%N (fun c => cur_src c = [9; 1; 2; 3; 9]%N) cur_pos /\
  get_packet (io_reader cursor_io) 9 (mk_cursor [9; 1; 2; 3; 9]%N 1 [Deliver 1; Fail Interrupted; Deliver 1]) 3 =
    Ret (mk_cursor [9; 1; 2; 3; 9]%N 4 [], Some (Okay (mk_packet [1; 2; 3]%N None (-1) default_time false false))) /\
  get_packet (io_reader cursor_io) 9 (mk_cursor [9; 1; 2; 3; 9]%N 3 []) 3 =
    Ret (mk_cursor [9; 1; 2; 3; 9]%N 5 [], Some (Error UnexpectedEof)).
Proof.
  split; [exact file_stores|]. split; [vm_compute; reflexivity|].
  split; [apply io_reader_ok; apply cursor_ok|]. split; vm_compute; reflexivity.
Qed.

(** C63: every getter of [ByteRead]. *)
Theorem C63_stream_getters :
  reads_value 1 le_number (@sget_u8) /\
  reads_value 1 (signed_number le_number 8) (@sget_i8) /\
  reads_value 2 le_number (@sget_u16l) /\
  reads_value 2 (signed_number le_number 16) (@sget_i16l) /\
  reads_value 4 le_number (@sget_u32l) /\
  reads_value 4 (signed_number le_number 32) (@sget_i32l) /\
  reads_value 8 le_number (@sget_u64l) /\
  reads_value 8 (signed_number le_number 64) (@sget_i64l) /\
  reads_value 4 le_number (@sget_f32l) /\
  reads_value 8 le_number (@sget_f64l) /\
  reads_value 2 be_number (@sget_u16b) /\
  reads_value 2 (signed_number be_number 16) (@sget_i16b) /\
  reads_value 4 be_number (@sget_u32b) /\
  reads_value 4 (signed_number be_number 32) (@sget_i32b) /\
  reads_value 8 be_number (@sget_u64b) /\
  reads_value 8 (signed_number be_number 64) (@sget_i64b) /\
  reads_value 4 be_number (@sget_f32b) /\
  reads_value 8 be_number (@sget_f64b).
Proof. exact stream_getters. Qed.
Print Assumptions C63_stream_getters.

Example C63_example :
  sget_i16b (io_reader cursor_io) 2 (mk_cursor [7; 255; 254; 1]%N 1 [Deliver 1]) = Ret (mk_cursor [7; 255; 254; 1]%N 3 [], Some (Okay (-2)%Z)) /\
  sget_u32l (io_reader cursor_io) 4 (mk_cursor [7; 255; 254; 1]%N 0 [Deliver 3]) = Ret (mk_cursor [7; 255; 254; 1]%N 4 [], Some (Okay 33488647%N)) /\
  sget_u32l (io_reader cursor_io) 4 (mk_cursor [7; 255; 254; 1]%N 1 [Deliver 1]) = Ret (mk_cursor [7; 255; 254; 1]%N 4 [], Some (Error UnexpectedEof)).
Proof. repeat (apply conj; [vm_compute; reflexivity|]). vm_compute; reflexivity. Qed.

(** The two instances of the contract: a source and an [AccReader] over one. *)
Theorem C63_readers : forall (R : Type) (i : io R) src good tell, source_ok i src good tell ->
  reader_ok (io_reader i) src good tell /\
  exists goodr, reader_ok (read i) src goodr aindex /\ filler_ok (fill_buf i) src goodr aindex /\
    (forall cap r, good r -> tell r = 0 -> goodr (with_capacity cap r)).
Proof. exact c63_readers. Qed.
Print Assumptions C63_readers.

Example C63_readers_example :
  sget_u16b (read cursor_io) 2 (with_capacity 1 (mk_cursor [1; 2; 3]%N 0 [])) =
    Ret (mk_acc (mk_cursor [1; 2; 3]%N 2 []) [0]%N 0 0 2, Some (Okay 258%N)).
Proof. vm_compute. reflexivity. Qed.

(** C64: every peeker of [BytePeek]. *)
Theorem C64_stream_peekers :
  peeks_value 1 le_number (@speek_u8) /\
  peeks_value 1 (signed_number le_number 8) (@speek_i8) /\
  peeks_value 2 le_number (@speek_u16l) /\
  peeks_value 2 (signed_number le_number 16) (@speek_i16l) /\
  peeks_value 4 le_number (@speek_u32l) /\
  peeks_value 4 (signed_number le_number 32) (@speek_i32l) /\
  peeks_value 8 le_number (@speek_u64l) /\
  peeks_value 8 (signed_number le_number 64) (@speek_i64l) /\
  peeks_value 4 le_number (@speek_f32l) /\
  peeks_value 8 le_number (@speek_f64l) /\
  peeks_value 2 be_number (@speek_u16b) /\
  peeks_value 2 (signed_number be_number 16) (@speek_i16b) /\
  peeks_value 4 be_number (@speek_u32b) /\
  peeks_value 4 (signed_number be_number 32) (@speek_i32b) /\
  peeks_value 8 be_number (@speek_u64b) /\
  peeks_value 8 (signed_number be_number 64) (@speek_i64b) /\
  peeks_value 4 be_number (@speek_f32b) /\
  peeks_value 8 be_number (@speek_f64b).
Proof. exact stream_peekers. Qed.
Print Assumptions C64_stream_peekers.

(** On an [AccReader] the getter then returns the value that was peeked at. *)
Theorem C64_peek_then_get :
  peek_then_get 1 (@sget_u8) (@speek_u8) /\
  peek_then_get 1 (@sget_i8) (@speek_i8) /\
  peek_then_get 2 (@sget_u16l) (@speek_u16l) /\
  peek_then_get 2 (@sget_i16l) (@speek_i16l) /\
  peek_then_get 4 (@sget_u32l) (@speek_u32l) /\
  peek_then_get 4 (@sget_i32l) (@speek_i32l) /\
  peek_then_get 8 (@sget_u64l) (@speek_u64l) /\
  peek_then_get 8 (@sget_i64l) (@speek_i64l) /\
  peek_then_get 4 (@sget_f32l) (@speek_f32l) /\
  peek_then_get 8 (@sget_f64l) (@speek_f64l) /\
  peek_then_get 2 (@sget_u16b) (@speek_u16b) /\
  peek_then_get 2 (@sget_i16b) (@speek_i16b) /\
  peek_then_get 4 (@sget_u32b) (@speek_u32b) /\
  peek_then_get 4 (@sget_i32b) (@speek_i32b) /\
  peek_then_get 8 (@sget_u64b) (@speek_u64b) /\
  peek_then_get 8 (@sget_i64b) (@speek_i64b) /\
  peek_then_get 4 (@sget_f32b) (@speek_f32b) /\
  peek_then_get 8 (@sget_f64b) (@speek_f64b).
Proof. exact stream_peek_then_get. Qed.
Print Assumptions C64_peek_then_get.

Example C64_example :
  exists a1 a2, speek_u16l (fill_buf cursor_io) (with_capacity 3 (mk_cursor [1; 2; 3; 4]%N 0 [])) = Ret (a1, Okay 513%N) /\
    sget_u16l (read cursor_io) 2 a1 = Ret (a2, Some (Okay 513%N)) /\
    seek cursor_io a1 (Current 0) = Ret (a1, Okay 0) /\ seek cursor_io a2 (Current 0) = Ret (a2, Okay 2).
Proof. eexists _, _. repeat (apply conj; [vm_compute; reflexivity|]). vm_compute; reflexivity. Qed.

(** C68 is false: a getter that is interrupted fails and has lost the bytes read so
    far, where [Read::read_exact] goes on and succeeds. *)
Theorem C68_interrupted_getter_refuted :
  exists c src, reader_ok (io_reader cursor_io) src (fun c => cur_src c = src) cur_pos /\ cur_src c = src /\ cur_pos c = 0 /\
    sget_u32b (io_reader cursor_io) 9 c = Ret (mk_cursor src 2 [], Some (Error Interrupted)) /\
    std_read_exact (io_reader cursor_io) 9 c [0; 0; 0; 0]%N 0 = Ret (mk_cursor src 4 [], [1; 2; 3; 4]%N, Some (Okay tt)).
Proof. exact c68_interrupted_getter_refuted. Qed.
Print Assumptions C68_interrupted_getter_refuted.

(** On a reader that never reports [Interrupted], nor more bytes than it was given room for
    (C168), every getter is [read_exact] followed by the
    getter of slices, ... *)
Theorem C68_uninterrupted_partial :
  as_read_exact 1 get_u8 (@sget_u8) /\
  as_read_exact 1 get_i8 (@sget_i8) /\
  as_read_exact 2 get_u16l (@sget_u16l) /\
  as_read_exact 2 get_i16l (@sget_i16l) /\
  as_read_exact 4 get_u32l (@sget_u32l) /\
  as_read_exact 4 get_i32l (@sget_i32l) /\
  as_read_exact 8 get_u64l (@sget_u64l) /\
  as_read_exact 8 get_i64l (@sget_i64l) /\
  as_read_exact 4 get_f32l (@sget_f32l) /\
  as_read_exact 8 get_f64l (@sget_f64l) /\
  as_read_exact 2 get_u16b (@sget_u16b) /\
  as_read_exact 2 get_i16b (@sget_i16b) /\
  as_read_exact 4 get_u32b (@sget_u32b) /\
  as_read_exact 4 get_i32b (@sget_i32b) /\
  as_read_exact 8 get_u64b (@sget_u64b) /\
  as_read_exact 8 get_i64b (@sget_i64b) /\
  as_read_exact 4 get_f32b (@sget_f32b) /\
  as_read_exact 8 get_f64b (@sget_f64b).
Proof. exact c68_exact. Qed.
Print Assumptions C68_uninterrupted_partial.

(** ... and on any such reader that may be interrupted it is, unless it fails with [Interrupted]; then it has lost the
    bytes read so far. *)
Theorem C68_interrupted_exact :
  loses_bytes 1 get_u8 (@sget_u8) /\
  loses_bytes 1 get_i8 (@sget_i8) /\
  loses_bytes 2 get_u16l (@sget_u16l) /\
  loses_bytes 2 get_i16l (@sget_i16l) /\
  loses_bytes 4 get_u32l (@sget_u32l) /\
  loses_bytes 4 get_i32l (@sget_i32l) /\
  loses_bytes 8 get_u64l (@sget_u64l) /\
  loses_bytes 8 get_i64l (@sget_i64l) /\
  loses_bytes 4 get_f32l (@sget_f32l) /\
  loses_bytes 8 get_f64l (@sget_f64l) /\
  loses_bytes 2 get_u16b (@sget_u16b) /\
  loses_bytes 2 get_i16b (@sget_i16b) /\
  loses_bytes 4 get_u32b (@sget_u32b) /\
  loses_bytes 4 get_i32b (@sget_i32b) /\
  loses_bytes 8 get_u64b (@sget_u64b) /\
  loses_bytes 8 get_i64b (@sget_i64b) /\
  loses_bytes 4 get_f32b (@sget_f32b) /\
  loses_bytes 8 get_f64b (@sget_f64b).
Proof. exact c68_loses. Qed.
Print Assumptions C68_interrupted_exact.

Example C68_example :
  let src := [1; 2; 3; 4; 5; 6]%N in
  modest (io_reader cursor_io) /\
  exists c, sget_u32b (io_reader cursor_io) 9 (mk_cursor src 0 [Deliver 2; Fail Interrupted]) = Ret (c, Some (Error Interrupted)) /\
    sget_u32b (io_reader cursor_io) 9 c = Ret (mk_cursor src 6 [], Some (Okay 50595078%N)) /\
    exact_then 4 get_u32b (io_reader cursor_io) 9 (mk_cursor src 0 [Deliver 2; Fail Interrupted]) = Ret (mk_cursor src 4 [], Some (Okay 16909060%N)) /\
    sget_u32b (io_reader cursor_io) 9 (mk_cursor src 0 [Deliver 2; Deliver 1]) = exact_then 4 get_u32b (io_reader cursor_io) 9 (mk_cursor src 0 [Deliver 2; Deliver 1]).
Proof. split; [exact cursor_modest|]. eexists. split; [vm_compute; reflexivity|]. split; [vm_compute; reflexivity|]. split; vm_compute; reflexivity. Qed.

(** C69 is false: a peek can fail with [UnexpectedEof] although the stream has the
    bytes, when the buffer happens to hold fewer. *)
Theorem C69_peek_eof_refuted :
  exists src c a', source_ok cursor_io src (fun c => cur_src c = src) cur_pos /\ cur_src c = src /\ cur_pos c = 0 /\ length src = 4 /\
    speek_u16l (fill_buf cursor_io) (with_capacity 8 c) = Ret (a', Error UnexpectedEof).
Proof. exact c69_peek_eof_refuted. Qed.
Print Assumptions C69_peek_eof_refuted.

(** On an [AccReader] with room for them, peeking again (at most [k] times) works. *)
Theorem C69_peek_retry_partial :
  peek_succeeds 1 le_number (@speek_u8) /\
  peek_succeeds 1 (signed_number le_number 8) (@speek_i8) /\
  peek_succeeds 2 le_number (@speek_u16l) /\
  peek_succeeds 2 (signed_number le_number 16) (@speek_i16l) /\
  peek_succeeds 4 le_number (@speek_u32l) /\
  peek_succeeds 4 (signed_number le_number 32) (@speek_i32l) /\
  peek_succeeds 8 le_number (@speek_u64l) /\
  peek_succeeds 8 (signed_number le_number 64) (@speek_i64l) /\
  peek_succeeds 4 le_number (@speek_f32l) /\
  peek_succeeds 8 le_number (@speek_f64l) /\
  peek_succeeds 2 be_number (@speek_u16b) /\
  peek_succeeds 2 (signed_number be_number 16) (@speek_i16b) /\
  peek_succeeds 4 be_number (@speek_u32b) /\
  peek_succeeds 4 (signed_number be_number 32) (@speek_i32b) /\
  peek_succeeds 8 be_number (@speek_u64b) /\
  peek_succeeds 8 (signed_number be_number 64) (@speek_i64b) /\
  peek_succeeds 4 be_number (@speek_f32b) /\
  peek_succeeds 8 be_number (@speek_f64b).
Proof. exact stream_peeks_succeed. Qed.
Print Assumptions C69_peek_retry_partial.

Example C69_example :
  exists a', peek_retry 4 (speek_u32b (fill_buf cursor_io)) (with_capacity 4 (mk_cursor [1; 2; 3; 4]%N 0 [Deliver 1; Deliver 1; Deliver 1])) = Ret (a', Okay 16909060%N).
Proof. eexists. vm_compute. reflexivity. Qed.

(** C69: no number of peeks helps while the buffer is smaller than what is asked for, whatever
    the source still holds; it has to be grown. *)
Theorem C69_small_buffer :
  peek_never 1 (@speek_u8) /\
  peek_never 1 (@speek_i8) /\
  peek_never 2 (@speek_u16l) /\
  peek_never 2 (@speek_i16l) /\
  peek_never 4 (@speek_u32l) /\
  peek_never 4 (@speek_i32l) /\
  peek_never 8 (@speek_u64l) /\
  peek_never 8 (@speek_i64l) /\
  peek_never 4 (@speek_f32l) /\
  peek_never 8 (@speek_f64l) /\
  peek_never 2 (@speek_u16b) /\
  peek_never 2 (@speek_i16b) /\
  peek_never 4 (@speek_u32b) /\
  peek_never 4 (@speek_i32b) /\
  peek_never 8 (@speek_u64b) /\
  peek_never 8 (@speek_i64b) /\
  peek_never 4 (@speek_f32b) /\
  peek_never 8 (@speek_f64b).
Proof. exact peeks_never. Qed.
Print Assumptions C69_small_buffer.

Example C69_small_buffer_example :
  let a := with_capacity 3 (mk_cursor [1; 2; 3; 4; 5]%N 0 []) in
  (exists a', peek_retry 9 (speek_u32l (fill_buf cursor_io)) a = Ret (a', Error UnexpectedEof)) /\
  exists a1 outs a', acc_run cursor_io a [AGrow 1] = Ret (a1, outs) /\
    peek_retry 4 (speek_u32l (fill_buf cursor_io)) a1 = Ret (a', Okay 67305985%N).
Proof. split; [eexists; vm_compute; reflexivity|]. eexists _, _, _. split; vm_compute; reflexivity. Qed.
