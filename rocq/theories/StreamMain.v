(** The proofs of the theorems of [StreamProps]. *)
From Coq Require Import List Arith NArith ZArith Bool.
From Verif Require Import Base ByteModel ByteSpec AccModel AccSpec AccProofs2 FormatModel MuxModel MuxSpec StreamModel StreamSpec StreamProofs.
Import ListNotations.
Local Open Scope nat_scope.

Lemma c62_get_packet : forall (R : Type) (rd : reader R) src good tell fuel r len, reader_ok rd src good tell -> good r ->
  exists r' res, get_packet rd fuel r len = Ret (r', res) /\ good r' /\
    match res with
    | Some (Okay pkt) => len <= length src - tell r /\ tell r' = tell r + len /\
        pkt = mk_packet (firstn len (skipn (tell r) src)) None (-1) default_time false false
    | Some (Error e) => (e = UnexpectedEof /\ length src - tell r < len /\ length src <= tell r') \/ (e <> Interrupted /\ fails_with rd good e)
    | None => fuel < len \/ fails_with rd good Interrupted
    end.
Proof. intros R rd src good tell fuel r len Hrd. exact (get_packet_spec rd src good tell Hrd fuel r len). Qed.

Lemma c62_round_trip : forall (W : Type) (s : sink W) good content tell fuel w pkt w',
  stores s good content tell -> good w -> put_packet s fuel w pkt = Ret (w', Some (Okay tt)) ->
  forall (R : Type) (rd : reader R) goodr tellr fuel' r r' res, reader_ok rd (content w') goodr tellr -> goodr r -> tellr r = tell w ->
  get_packet rd fuel' r (length (p_data pkt)) = Ret (r', Some res) ->
  (res = Okay (mk_packet (p_data pkt) None (-1) default_time false false) /\ tellr r' = tell w') \/
  (exists e, res = Error e /\ e <> Interrupted /\ fails_with rd goodr e).
Proof. intros W s good content tell fuel w pkt w' Hs. exact (packet_round_trip s good content tell Hs fuel w pkt w'). Qed.

Lemma c63_readers : forall (R : Type) (i : io R) src good tell, source_ok i src good tell ->
  reader_ok (io_reader i) src good tell /\
  exists goodr, reader_ok (read i) src goodr aindex /\ filler_ok (fill_buf i) src goodr aindex /\
    (forall cap r, good r -> tell r = 0 -> goodr (with_capacity cap r)).
Proof.
  intros R i src good tell Hs. split; [exact (io_reader_ok i src good tell Hs)|]. exists (acc_good src good tell).
  split; [exact (acc_reader_ok i src good tell Hs)|]. split; [exact (acc_filler_ok i src good tell Hs)|].
  intros cap r Hg Ht. exact (AccProofs.new_rep src good tell cap r Hg Ht).
Qed.

Lemma c68_interrupted_getter_refuted :
  exists c src, reader_ok (io_reader cursor_io) src (fun c => cur_src c = src) cur_pos /\ cur_src c = src /\ cur_pos c = 0 /\
    sget_u32b (io_reader cursor_io) 9 c = Ret (mk_cursor src 2 [], Some (Error Interrupted)) /\
    std_read_exact (io_reader cursor_io) 9 c [0; 0; 0; 0]%N 0 = Ret (mk_cursor src 4 [], [1; 2; 3; 4]%N, Some (Okay tt)).
Proof.
  exists (mk_cursor [1; 2; 3; 4]%N 0 [Deliver 2; Fail Interrupted]), [1; 2; 3; 4]%N.
  split; [apply io_reader_ok; apply cursor_ok|]. repeat (apply conj; [vm_compute; reflexivity|]). vm_compute; reflexivity.
Qed.

Lemma c69_peek_eof_refuted :
  exists src c a', source_ok cursor_io src (fun c => cur_src c = src) cur_pos /\ cur_src c = src /\ cur_pos c = 0 /\ length src = 4 /\
    speek_u16l (fill_buf cursor_io) (with_capacity 8 c) = Ret (a', Error UnexpectedEof).
Proof.
  exists [1; 2; 3; 4]%N, (mk_cursor [1; 2; 3; 4]%N 0 [Deliver 1]). eexists.
  split; [apply cursor_ok|]. repeat (apply conj; [vm_compute; reflexivity|]). vm_compute; reflexivity.
Qed.
