(** Properties C160 to C162: what happens when memory cannot be had. *)
From Coq Require Import List Arith NArith ZArith Bool Lia.
From Verif Require Import Base AccModel AccSpec AccProofs2 AccExamples AudioModel PixelModel FormatModel FrameModel StreamModel StreamSpec StreamProofs StreamMain DataSpec FrameSizeSpec.
From Verif Require Import WordAccModel ReleaseAccSpec ReleaseAccProofs WordSpec MachineModel MachineAccModel MachineFrameModel MachineFrameSpec MachineAllocModel MachineAllocSpec MachineCbExamples MachineAllocProofs.
Import ListNotations.
Local Open Scope N_scope.

(** C160: making a packet succeeds exactly if its bytes can be had. *)
Theorem C160_packets_allocated : forall m grants n,
  (obtainable m grants n ->
     l_packet_zeroed m grants n = Ret (mk_packet (repeat 0 (N.to_nat n)) None (-1) default_time false false) /\
     l_packet_with_capacity m grants n = Ret (mk_packet [] None (-1) default_time false false)) /\
  (~ obtainable m grants n -> l_packet_zeroed m grants n = Panic /\ l_packet_with_capacity m grants n = Panic) /\
  l_packet_new m grants = Ret (mk_packet [] None (-1) default_time false false).
Proof. exact packets_allocated. Qed.
Print Assumptions C160_packets_allocated.

(** That a request for more bytes than the source has is answered by an error is false: a
    source of three bytes, asked for half the address space, makes every machine panic, however
    much memory it has. *)
Theorem C160_short_source_refuted : exists src : list N, reader_ok (io_reader cursor_io) src (fun c => cur_src c = src) cur_pos /\
  forall m grants fuel, 2 <= bits m ->
  l_get_packet m grants (io_reader cursor_io) fuel (mk_cursor src 0 []) (2 ^ (bits m - 1)) = Panic.
Proof. exact short_source_refused. Qed.
Print Assumptions C160_short_source_refuted.

(** The memory is asked for before anything is read: if it can be had, [get_packet] returns
    what C62 says, and otherwise it panics whatever the source holds. *)
Theorem C160_get_packet_partial : forall m grants (R : Type) (rd : reader R) src good tell fuel r len, reader_ok rd src good tell -> good r ->
  (obtainable m grants len -> exists r' res, l_get_packet m grants rd fuel r len = Ret (r', res) /\ good r' /\
    match res with
    | Some (Okay pkt) => (N.to_nat len <= length src - tell r)%nat /\ tell r' = (tell r + N.to_nat len)%nat /\
        pkt = mk_packet (firstn (N.to_nat len) (skipn (tell r) src)) None (-1) default_time false false
    | Some (Error e) => (e = UnexpectedEof /\ (length src - tell r < N.to_nat len)%nat /\ (length src <= tell r')%nat) \/ (e <> Interrupted /\ fails_with rd good e)
    | None => (fuel < N.to_nat len)%nat \/ fails_with rd good Interrupted
    end) /\
  (~ obtainable m grants len -> l_get_packet m grants rd fuel r len = Panic).
Proof. exact get_packet_allocated. Qed.
Print Assumptions C160_get_packet_partial.

(** 32 bits and 100 bytes of memory. *)
Example C160_example :
  let rd := io_reader cursor_io in let c := mk_cursor [1; 2; 3] 0 [] in
  reader_ok rd [1; 2; 3] (fun c => cur_src c = [1; 2; 3]) cur_pos /\
  obtainable wasm32 (upto 100) 2 /\ ~ obtainable wasm32 (upto 100) 101 /\
  l_get_packet wasm32 (upto 100) rd 9 c 2 = Ret (mk_cursor [1; 2; 3] 2 [], Some (Okay (mk_packet [1; 2] None (-1) default_time false false))) /\
  l_get_packet wasm32 (upto 100) rd 9 c 100 = Ret (mk_cursor [1; 2; 3] 3 [], Some (Error UnexpectedEof)) /\
  l_get_packet wasm32 (upto 100) rd 9 c 101 = Panic /\
  l_packet_with_capacity wasm32 (upto 100) 0 = Ret (mk_packet [] None (-1) default_time false false) /\
  l_packet_with_capacity wasm32 (fun _ => true) (2 ^ 31) = Panic /\
  l_packet_with_capacity x86_64 (fun _ => true) (2 ^ 31) = Ret (mk_packet [] None (-1) default_time false false).
Proof.
  cbv zeta. split; [apply io_reader_ok; apply cursor_ok|]. split; [right; split; reflexivity|].
  split; [intros [E|[_ E]]; discriminate E|]. repeat split; vm_compute; reflexivity.
Qed.

(** C161: a reader whose buffer, with all that it is asked to grow by, can be had does what the
    reader of C129 to C132 does; with less memory it does the same or panics, and a buffer that
    cannot be had panics at once. *)
Theorem C161_readers_allocated : forall m grants (R : Type) (i : io R), honest_io i -> forall cap r ops,
  (l_acc_from m grants i cap r ops = m_acc_run m i (w_with_capacity cap r) ops \/ l_acc_from m grants i cap r ops = Panic) /\
  ((forall k, k <= cap + N.of_nat (grown ops) -> obtainable m grants k) ->
     l_acc_from m grants i cap r ops = m_acc_run m i (w_with_capacity cap r) ops) /\
  (~ obtainable m grants cap -> l_acc_from m grants i cap r ops = Panic).
Proof. exact @acc_allocated. Qed.
Print Assumptions C161_readers_allocated.

(** A single growth: zeros are appended exactly if the longer buffer can be had. *)
Theorem C161_growth : forall m grants (R : Type) (a : wacc R) n, 0 < n -> N.of_nat (length (wa_buf a)) + n < 2 ^ bits m ->
  (obtainable m grants (N.of_nat (length (wa_buf a)) + n) ->
     l_grow m grants a n = Ret (mk_wacc (wa_inner a) (wa_buf a ++ repeat 0 (N.to_nat n)) (wa_pos a) (wa_end a) (wa_index a))) /\
  (~ obtainable m grants (N.of_nat (length (wa_buf a)) + n) -> l_grow m grants a n = Panic).
Proof. exact @grow_allocated. Qed.
Print Assumptions C161_growth.

(** [AccReader::new] asks for 4096 bytes. *)
Theorem C161_new_reader : forall m grants (R : Type) (r : R),
  (obtainable m grants 4096 -> l_new m grants r = Ret (mk_wacc r (repeat 0 (N.to_nat 4096)) 0 0 0)) /\
  (~ obtainable m grants 4096 -> l_new m grants r = Panic).
Proof. exact @new_allocated. Qed.
Print Assumptions C161_new_reader.

(** A buffer of four bytes that grows by two, with six and with five bytes of memory. *)
Example C161_example :
  let c := mk_cursor [1; 2; 3; 4; 5; 6; 7] 0 [] in let ops := [AFill; AGrow 2; AFill; AData] in
  honest_io word_cursor_io /\ (forall k, k <= 4 + N.of_nat (grown ops) -> obtainable wasm32 (upto 6) k) /\
  (exists a outs, l_acc_from wasm32 (upto 6) word_cursor_io 4 c ops = Ret (a, outs) /\ wa_buf a = [1; 2; 3; 4; 5; 6] /\ last outs OUnit = OData [1; 2; 3; 4; 5; 6]) /\
  l_acc_from wasm32 (upto 5) word_cursor_io 4 c ops = Panic /\
  (exists a outs, l_acc_from wasm32 (upto 5) word_cursor_io 4 c [AFill] = Ret (a, outs)) /\
  l_acc_from wasm32 (upto 3) word_cursor_io 4 c [] = Panic /\
  l_new wasm32 (upto 4095) c = Panic /\ (exists a, l_new wasm32 (upto 4096) c = Ret a /\ length (wa_buf a) = 4096%nat).
Proof.
  cbv zeta. split; [exact word_cursor_honest|]. split.
  { cbn [grown]. intros k Hk. right. unfold upto. change (2 ^ (bits wasm32 - 1)) with 2147483648. split; [lia|apply N.leb_le; lia]. }
  split; [eexists _, _; split; [vm_compute; reflexivity|split; vm_compute; reflexivity]|]. split; [vm_compute; reflexivity|].
  split; [eexists _, _; vm_compute; reflexivity|]. split; [vm_compute; reflexivity|].
  split; [vm_compute; reflexivity|]. eexists. split; vm_compute; reflexivity.
Qed.

(** C162: with overflow checks a default frame is created exactly if no number on the way takes
    more than a word and the memory for its bytes and for the list of its planes can be had. *)
Theorem C162_frames_allocated : forall m grants pg, checked m = true -> 9 <= bits m -> forall t,
  (forall v, (exists f, l_new_default_frame m grants pg (Video v) t = Ret f) <->
    (exists sizes, Forall2 (plane_bytes_on (bits m) (vi_width v) (vi_height v)) (present (fo_comps (vi_format v))) sizes /\ obtainable m grants (total sizes)) /\
    (fo_components (vi_format v) = 0 \/ pg (fo_components (vi_format v)) = true)) /\
  (forall v, so_bits (ai_format v) < 256 -> (exists f, l_new_default_frame m grants pg (Audio v) t = Ret f) <->
    (exists s, samples_bytes_on (bits m) (ai_format v) (ai_samples v) 32 s /\ obtainable m grants (s * N.of_nat (length (ai_map v)))) /\
    (let planes := if so_planar (ai_format v) then N.of_nat (length (ai_map v)) else 1 in planes = 0 \/ pg planes = true)).
Proof. exact (fun m g p Hc Hb t => conj (fun v => video_allocated m g p Hc Hb v t) (fun v => audio_allocated m g p Hc Hb v t)). Qed.
Print Assumptions C162_frames_allocated.

(** It is then the frame that C135 to C137 speak about. *)
Theorem C162_same_frame : forall m grants pg kind t,
  l_new_default_frame m grants pg kind t = m_new_default_frame m kind t \/ l_new_default_frame m grants pg kind t = Panic.
Proof. exact frames_either. Qed.
Print Assumptions C162_same_frame.

(** A picture of 3 x 2 in YUV 4:2:0 takes 128 bytes and three planes. *)
Example C162_example :
  let v := Video (mk_video 3 2 false FrameI fmt_YUV420 12) in
  (exists f, l_new_default_frame wasm32 (upto 128) (upto 3) v None = Ret f /\ m_new_default_frame wasm32 v None = Ret f) /\
  l_new_default_frame wasm32 (upto 127) (upto 3) v None = Panic /\
  l_new_default_frame wasm32 (upto 128) (upto 2) v None = Panic /\
  (let a := Audio (mk_audio 10 48000 [ChL; ChR] fmt_S16 None) in
   (exists f, l_new_default_frame wasm32 (upto 64) (upto 1) a None = Ret f /\ m_new_default_frame wasm32 a None = Ret f) /\
   l_new_default_frame wasm32 (upto 63) (upto 1) a None = Panic).
Proof.
  cbv zeta. split; [eexists; split; vm_compute; reflexivity|]. split; [vm_compute; reflexivity|]. split; [vm_compute; reflexivity|].
  split; [eexists; split; vm_compute; reflexivity|vm_compute; reflexivity].
Qed.
