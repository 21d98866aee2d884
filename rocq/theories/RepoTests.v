(** The unit tests of format/src, data/src, codec/src and src/io, run on the models (those
    of bitstream/src are in [RepoTestsBit]).  Tests that only print are left out, except for
    the texts of pixel formats. *)
From Coq Require Import Ascii String.
From Coq Require Import List Arith NArith ZArith Bool.
From Verif Require Import Base ByteModel AccModel AccSpec StdReadSpec WordAccModel ReleaseAccModel StreamModel MuxModel MuxSpec DemuxModel DemuxSpec DemuxExamples.
From Verif Require Import FormatModel AudioModel PixelModel FrameModel DisplayModel AccessModel WordDemuxModel WordDemuxSpec WordCountModel PatchSpec ReleaseMiscModel CodecModel.
Import ListNotations.
Local Open Scope nat_scope.
Ltac run := repeat split; vm_compute; reflexivity.

(** [b"..."] *)
Definition ascii_bytes (s : string) : list N := map N_of_ascii (list_ascii_of_string s).
(** [(0u8..).take(n)] *)
Definition counting (n : nat) : list N := map N.of_nat (seq 0 n).
(** [Cursor::new(bytes)] *)
Definition cursor_new (bytes : list N) : cursor := mk_cursor bytes 0 [].

(** ** accreader.rs:215-330 *)

Definition outputs {A : Type} (o : outcome (A * list acc_out)) : outcome (list acc_out) := let! (_, outs) := o in Ret outs.
(** On the unbounded model, with checked words and without overflow checks. *)
Definition acc_passes (bytes : list N) (cap : nat) (ops : list acc_op) (outs : list acc_out) : Prop :=
  outputs (acc_run cursor_io (with_capacity cap (cursor_new bytes)) ops) = Ret outs /\
  outputs (w_acc_run cursor_io (w_with_capacity (N.of_nat cap) (cursor_new bytes)) ops) = Ret outs /\
  outputs (ra_run cursor_io (w_with_capacity (N.of_nat cap) (cursor_new bytes)) ops) = Ret outs.

(** accreader.rs:222-232 *)
Fixpoint read_pieces (a : acc cursor) (sizes : list nat) : outcome (list N) :=
  match sizes with
  | [] => Ret []
  | n :: sizes' =>
      let! (a', res) := read_exact cursor_io 100 a n in
      match res with
      | Some (Okay l) => let! rest := read_pieces a' sizes' in Ret (l ++ rest)
      | _ => Panic
      end
  end.
Definition read_acc (bytes : list N) (cap : nat) (sizes : list nat) : Prop := read_pieces (with_capacity cap (cursor_new bytes)) sizes = Ret bytes.

(** accreader.rs:234-255 *)
Example same_capacity_full_read : read_acc (counting 20) 20 [20].
Proof. run. Qed.
Example split_read_1 : read_acc (counting 31) 20 [10; 21].
Proof. run. Qed.
Example split_read_2 : read_acc (counting 31) 20 [3; 28].
Proof. run. Qed.
(** accreader.rs:257-279 *)
Example seek_within_capacity : acc_passes (counting 30) 15 [ASeek (Current 5); ASeek (Current 5); ASeek (Current 5)] [OSeek (Okay 5); OSeek (Okay 10); OSeek (Okay 15)].
Proof. run. Qed.
Example seek_across_capacity : acc_passes (counting 30) 15 [ASeek (Current 5); ASeek (Current 15); ASeek (Start 5)] [OSeek (Okay 5); OSeek (Okay 20); OSeek (Okay 5)].
Proof. run. Qed.
(** accreader.rs:281-301; [stream_position] is [seek(SeekFrom::Current(0))], a read of one byte
    returns at once *)
Example seek_and_read : acc_passes (counting 30) 5
  (ASeek (Current 0) :: flat_map (fun _ => [ARead [0%N]; ASeek (Current 0)]) (seq 0 30))
  (OSeek (Okay 0) :: flat_map (fun i => [ORead [N.of_nat i] (Okay 1); OSeek (Okay (i + 1))]) (seq 0 30)).
Proof. run. Qed.
(** accreader.rs:303-311: [lines] is [read_until] up to the end, empty pieces excepted *)
Fixpoint count_lines (n : nat) (a : acc cursor) : outcome nat :=
  match n with
  | O => Panic
  | S n' =>
      let! (a', line, res) := read_until cursor_io 100 10%N a [] in
      match res, line with
      | Some (Okay _), [] => Ret 0
      | Some (Okay _), _ => let! k := count_lines n' a' in Ret (S k)
      | _, _ => Panic
      end
  end.
Example reader_test : count_lines 10 (with_capacity 20 (cursor_new (ascii_bytes "AAAA" ++ [10%N] ++ ascii_bytes "AAAB" ++ [10%N] ++
  ascii_bytes "AAACAAADAAAEAAAF" ++ [10%N] ++ ascii_bytes "dabcdEEEE"))) = Ret 4.
Proof. run. Qed.
(** accreader.rs:313-328 *)
Example acc_grow : acc_passes (ascii_bytes "abcdefghilmnopqrst") 4 [AFill; AData; AConsume 2; AData; AGrow 4; AData; AFill; AData]
  [OFill (Okay (ascii_bytes "abcd")); OData (ascii_bytes "abcd"); OUnit; OData (ascii_bytes "cd"); OUnit; OData (ascii_bytes "cd");
   OFill (Okay (ascii_bytes "cdefghil")); OData (ascii_bytes "cdefghil")].
Proof. run. Qed.

(** ** demuxer.rs:234-340; the demuxer is [dummy_parser] *)

(** demuxer.rs:285-308 *)
Definition dummy_score (_ : unit) (dat : list N) : N := if list_eq_dec N.eq_dec dat (ascii_bytes "dummy") then 100 else 0.
Example demuxer_probe : probe dummy_score [tt] (ascii_bytes "dummy") = Some tt.
Proof. run. Qed.
(** demuxer.rs:313-321 *)
Example demuxer_read_headers :
  exists c, read_headers (parser_demuxer dummy_parser (acc_buffered cursor_io)) (acc_buffered cursor_io) 10
    (context_new tt (with_capacity 4 (cursor_new (ascii_bytes "dummy header")))) = Ret (c, Some (Okay tt)).
Proof. eexists. vm_compute. reflexivity. Qed.
(** demuxer.rs:323-338; nothing is asserted there about the events, and what gets printed is
    four times [InvalidData]: the dummy takes its header to be 9 bytes long *)
Example demuxer_read_event :
  exists c, read_headers (parser_demuxer dummy_parser (acc_buffered cursor_io)) (acc_buffered cursor_io) 10
    (context_new tt (with_capacity 4 (cursor_new (ascii_bytes "dummy header p1 e1 p1 ")))) = Ret (c, Some (Okay tt)) /\
  exists c', read_events (parser_demuxer dummy_parser (acc_buffered cursor_io)) (acc_buffered cursor_io) 10 4 c =
    Ret (c', Some [Error InvalidData; Error InvalidData; Error InvalidData; Error InvalidData]).
Proof. eexists. split; [vm_compute; reflexivity|]. eexists. vm_compute. reflexivity. Qed.

(** ** muxer.rs:208-370 *)

Definition dummy_muxer : emitter unit unit unit := {|
  em_configure := fun m => (m, Okay tt);
  em_header := fun m => (m, Okay (ascii_bytes "Dummy header"));
  em_packet := fun m p => (m, Okay (p_data p));
  em_trailer := fun m => (m, Okay (ascii_bytes "Dummy trailer"));
  em_info := fun m _ => (m, Okay tt);
  em_option := fun m _ _ => (m, Okay tt)
|}.
Definition dummy_calls : list (mux_op unit unit) := [MConfigure; MHeader; MPacket (packet_zeroed 2); MPacket (packet_zeroed 2); MTrailer].
(** muxer.rs:276-281 *)
Example muxer_lookup : mux_by_name (fun s => s) ["dummy"%string] "dummy" = Some "dummy"%string.
Proof. run. Qed.
(** muxer.rs:283-338 and 356-368; the output is a file, which for these calls is like a vector *)
Example vec_and_file_muxer :
  exists c, mux_run (emitter_muxer dummy_muxer file_sink 10) file_sink (mctx_new tt (writer_new (mk_file [] 0 0 []))) dummy_calls =
    Ret (c, Some [Okay tt; Okay tt; Okay tt; Okay tt; Okay tt]) /\
  f_data (w_inner (mc_writer c)) = (ascii_bytes "Dummy header" ++ [0; 0; 0; 0] ++ ascii_bytes "Dummy trailer")%N /\
  snd (writer_as_ref (mctx_writer c)) = 12 + 2 * 2 + 13 /\
  w_written (fst (writer_seek file_sink (mctx_into_writer c) (Start 3))) = 3 /\
  f_data (w_inner (mc_writer c)) <> [].
Proof. eexists. split; [vm_compute; reflexivity|]. repeat split; vm_compute; try reflexivity. discriminate. Qed.

(** ** error.rs:47-58 *)
Example io_error_conversion : match error_from_io (OtherError 0) with Io _ => true | _ => false end = true.
Proof. run. Qed.

(** ** packet.rs:84-130 *)
Example read_packet : exists c p, get_packet (io_reader cursor_io) 200 (cursor_new (counting 128)) 64 = Ret (c, Some (Okay p)) /\ p_data p = counting 64.
Proof. eexists. eexists. split; vm_compute; reflexivity. Qed.
Example write_packet_test :
  exists f, put_packet file_sink 10 (mk_file [] 0 0 []) (mk_packet (map (fun i => N.of_nat i mod 256)%N (seq 0 1024)) None (-1) default_time false false) =
    Ret (f, Some (Okay tt)) /\ f_data f = map (fun i => N.of_nat i mod 256)%N (seq 0 1024).
Proof. eexists. split; vm_compute; reflexivity. Qed.

(** ** frame.rs:583-652; [test_frame_copy_from_slice] is [C70_repository_test] *)

(** frame.rs:588-611 *)
Example test_format_cmp :
  audio_eqb (audio_new 42 48000 [ChC] fmt_S16 None) (audio_new 4242 48000 [ChC] fmt_S16 None) = true /\
  audio_eqb (audio_new 42 48000 [ChC] fmt_S16 None) (audio_new 42 48000 [ChC] fmt_S32 None) = false.
Proof. run. Qed.
(** frame.rs:614-635 *)
Example test_video_format_cmp :
  (let! a := video_new 42 42 false FrameI fmt_YUV420 in let! b := video_new 42 42 false FrameP fmt_YUV420 in Ret (video_eqb a b)) = Ret true /\
  (let! a := video_new 42 42 false FrameI fmt_YUV420 in let! b := video_new 42 42 false FrameI fmt_RGB565 in Ret (video_eqb a b)) = Ret false.
Proof. run. Qed.

(** ** audiosample.rs:364-375 and pixel.rs:1256-1287 *)
Example audio_fmt : map show_soniton [fmt_S16; fmt_U8; fmt_F32] =
  ["(16 bps, LE planar: false packed: false int)"; "(8 bps, LE planar: false packed: false uint)"; "(32 bps, LE planar: false packed: false float)"]%string.
Proof. run. Qed.
(** Printing does not panic. *)
Example pixel_fmt : forallb (fun f => match show_formaton f with Ret _ => true | _ => false end) [fmt_YUV420; fmt_PAL8; fmt_RGB565; fmt_RGBA; fmt_RGB48; fmt_RGBA64] = true.
Proof. run. Qed.
Example pixel_comparison : formaton_eqb fmt_YUV420 fmt_YUV420 = true.
Proof. run. Qed.

(** ** src/io/byteread.rs:159-216 *)

(** byteread.rs:164-189: [n] values, then the end of the file *)
Fixpoint gets {V : Type} (n : nat) (get : reader cursor -> nat -> cursor -> outcome (cursor * option (result V io_error))) (c : cursor) : outcome (list (option (result V io_error))) :=
  let! (c', v) := get (io_reader cursor_io) 100 c in
  match n with
  | O => Ret [v]
  | S n' => let! l := gets n' get c' in Ret (v :: l)
  end.
Definition test_read {V : Type} (get : reader cursor -> nat -> cursor -> outcome (cursor * option (result V io_error))) (v : V) (n : nat) : Prop :=
  gets n get (cursor_new (repeat 1%N 17)) = Ret (repeat (Some (Okay v)) n ++ [Some (Error UnexpectedEof)]).
Example byteread_get :
  test_read sget_u8 1%N 17 /\ test_read sget_i8 1%Z 17 /\ test_read sget_u16l 257%N 8 /\ test_read sget_i16l 257%Z 8 /\
  test_read sget_u32l 16843009%N 4 /\ test_read sget_i32l 16843009%Z 4 /\
  test_read sget_u64l 72340172838076673%N 2 /\ test_read sget_i64l 72340172838076673%Z 2.
Proof. run. Qed.

(** byteread.rs:191-207: peeking repeatedly; [BufReader::fill_buf] reads into an empty buffer and
    returns what is unread *)
Record buf_reader : Type := mk_buf_reader { br_cap : nat; br_unread : list N; br_inner : cursor }.
Definition br_fill (b : buf_reader) : outcome (buf_reader * result (list N) io_error) :=
  match br_unread b with
  | _ :: _ => Ret (b, Okay (br_unread b))
  | [] =>
      let '(c, dst, res) := cursor_read (br_inner b) (repeat 0%N (br_cap b)) in
      match res with
      | Okay n => Ret (mk_buf_reader (br_cap b) (firstn n dst) c, Okay (firstn n dst))
      | Error e => Ret (mk_buf_reader (br_cap b) [] c, Error e)
      end
  end.
Fixpoint peeks {V : Type} (n : nat) (peek : filler buf_reader -> buf_reader -> outcome (buf_reader * result V io_error)) (b : buf_reader) : outcome (list (result V io_error)) :=
  match n with
  | O => Ret []
  | S n' => let! (b', v) := peek br_fill b in let! l := peeks n' peek b' in Ret (v :: l)
  end.
Definition test_peek {V : Type} (peek : filler buf_reader -> buf_reader -> outcome (buf_reader * result V io_error)) (v : V) (n : nat) : Prop :=
  peeks n peek (mk_buf_reader 16 [] (cursor_new (repeat 1%N 17))) = Ret (repeat (Okay v) n).
Example byteread_peek :
  test_peek speek_u8 1%N 18 /\ test_peek speek_i8 1%Z 17 /\ test_peek speek_u16l 257%N 9 /\ test_peek speek_i16l 257%Z 9 /\
  test_peek speek_u32l 16843009%N 5 /\ test_peek speek_i32l 16843009%Z 5 /\
  test_peek speek_u64l 72340172838076673%N 3 /\ test_peek speek_i64l 72340172838076673%Z 3.
Proof. run. Qed.

(** ** decoder.rs:187-191 and encoder.rs:280-284 *)
Example codec_lookup : codecs_by_name (codecs_from_list (fun s => s) ["dummy"%string]) "dummy" = Ret (Some "dummy"%string).
Proof. run. Qed.
