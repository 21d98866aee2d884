(** C186. *)
From Coq Require Import List Arith NArith ZArith Bool.
From Verif Require Import Base AccModel AccSpec FormatModel DemuxModel DemuxSpec SelfReadSpec.
From Verif Require Import SelfReadProofs.
Import ListNotations.
Local Open Scope nat_scope.

(** C186: a demuxer that reads by itself, with [read_exact], absolute seeks and questions for the
    position: [read_headers] and any number of calls of [read_event] return what the demuxer
    makes of the bytes of the source, each after one call of the demuxer; the reader ends where the demuxer
    told the context to go on. *)
Theorem C186_self_reading : forall (S P D : Type) (i : io S) src good tell,
  source_ok i src good tell -> never_fails i src good tell ->
  forall (sr : self_reader P D), never_asks sr src ->
  forall cap r0 d calls k, good r0 -> tell r0 = 0 ->
  let '(d1, p1, info1, hr) := bare_headers sr src d 0 (mk_info None None []) in
  let '(d2, p2, info2, rs) := bare_events sr src calls d1 p1 info1 in
  exists a1 a2,
    read_headers (self_demuxer sr i) (acc_buffered i) (Datatypes.S k) (context_new d (with_capacity cap r0)) = Ret (mk_dctx d1 a1 info1, Some hr) /\
    read_events (self_demuxer sr i) (acc_buffered i) (Datatypes.S k) calls (mk_dctx d1 a1 info1) = Ret (mk_dctx d2 a2 info2, Some rs) /\
    seek i a2 (Current 0) = Ret (a2, Okay p2).
Proof. exact @self_read. Qed.
Print Assumptions C186_self_reading.

(** A stream and a packet; the second packet is cut off, and the reader goes back to its beginning. *)
Definition C186_file : list N := [99; 4; 77; 77; 0; 88; 3; 10; 11; 12; 88; 5; 20; 21]%N.
Definition C186_packet : packet := mk_packet [10; 11; 12]%N (Some 7%N) 0 (mk_time None None None (Some (1, 25)%Z) None) false false.
Definition C186_stream : stream unit := mk_stream 0 0%N tt None None (1, 25)%Z None.
Definition C186_events : list (result (event unit) error) := [Okay (NewStream C186_stream); Okay (NewPacket C186_packet); Error (Io UnexpectedEof)].
Example C186_example : never_asks chunk_reader C186_file /\
  bare_headers chunk_reader C186_file 0 0 (mk_info None None []) = (0, 4, mk_info None None [], Okay tt) /\
  bare_events chunk_reader C186_file 3 0 4 (mk_info None None []) = (1, 12, mk_info None None [C186_stream], C186_events) /\
  exists a1 a2,
    read_headers (self_demuxer chunk_reader cursor_io) (acc_buffered cursor_io) 1
      (context_new 0 (with_capacity 2 (mk_cursor C186_file 0 [Deliver 1; Deliver 1; Deliver 2]))) = Ret (mk_dctx 0 a1 (mk_info None None []), Some (Okay tt)) /\
    read_events (self_demuxer chunk_reader cursor_io) (acc_buffered cursor_io) 1 3 (mk_dctx 0 a1 (mk_info None None [])) =
      Ret (mk_dctx 1 a2 (mk_info None None [C186_stream]), Some C186_events).
Proof.
  split; [apply chunk_never_asks|]. split; [vm_compute; reflexivity|]. split; [vm_compute; reflexivity|].
  eexists _, _. split; [vm_compute; reflexivity|]. vm_compute. reflexivity.
Qed.
