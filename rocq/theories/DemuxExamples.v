(** Concrete demuxers for the examples and counterexamples. *)
From Coq Require Import List Arith NArith ZArith Bool Lia.
From Verif Require Import Base AccModel AccSpec AccProofs2 FormatModel DemuxModel DemuxSpec.
Import ListNotations.
Local Open Scope nat_scope.

(** The demuxer of the tests in demuxer.rs:245-275: it asks for the number of
    missing bytes. *)
Definition dummy_parser : parser unit unit :=
  mk_parser
    (fun d dat info =>
       let len := length dat in
       if len <? 9 then (d, info, Error (MoreDataNeeded (9 - len))) else (d, info, Okay (Current 9)))
    (fun d dat =>
       let len := length dat in
       if len <? 2 then (d, Error (MoreDataNeeded (2 - len)))
       else match firstn 2 dat with
            | [112; 49]%N => (d, Okay (Current 3, NewPacket packet_new))
            | [101; 49]%N => (d, Okay (Current 3, MoreData 0))
            | _ => (d, Error InvalidData)
            end).

Lemma dummy_headers : incremental_headers dummy_parser.
Proof.
  constructor.
  - intros d dat info d' info' n E. cbn [dummy_parser ps_headers ps_event dm_event dm_headers] in E. destruct (Nat.ltb_spec (length dat) 9); [|discriminate E].
    assert (n = 9 - length dat) by congruence. split; [congruence|]. split; [congruence|]. lia.
  - intros d dat more info d' info' res E Hf. cbn [dummy_parser ps_headers ps_event dm_event dm_headers] in *. destruct (Nat.ltb_spec (length dat) 9).
    + injection E as <- <- <-. destruct (Hf _ eq_refl).
    + rewrite app_length. destruct (Nat.ltb_spec (length dat + length more) 9); [lia|]. exact E.
  - intros d dat info d' info' s E. cbn [dummy_parser ps_headers ps_event dm_event dm_headers] in E. destruct (length dat <? 9); [discriminate E|]. injection E as <- <- <-. cbn. lia.
Qed.

(** A demuxer for records introduced by a length byte, with four special values;
    its state counts the packets. *)
Definition tlv_stream (k : nat) : stream unit := mk_stream 7 (N.of_nat k) tt None None (1, 1000)%Z None.
Definition tlv_packet (k : nat) (body : list N) : packet := mk_packet body None 1 default_time false false.
Definition tlv_parser : parser unit nat :=
  mk_parser
    (fun d dat info => (d, info, Okay (Current 0)))
    (fun d dat =>
       match dat with
       | [] => (d, Error (MoreDataNeeded 1))
       | n :: rest =>
           if (n =? 255)%N then (d, Okay (Current 1, NewStream (tlv_stream (S d))))
           else if (n =? 254)%N then (d, Okay (Current 1, MoreData 0))
           else if (n =? 253)%N then (d, Error InvalidData)
           else if (n =? 0)%N then (d, Okay (Current 1, Eof))
           else if length rest <? N.to_nat n then (d, Error (MoreDataNeeded (S (N.to_nat n))))
           else (S d, Okay (Current (1 + Z.of_N n), NewPacket (tlv_packet d (firstn (N.to_nat n) rest))))
       end).

Lemma tlv_incremental : incremental tlv_parser.
Proof.
  constructor.
  - intros d dat d' n E. cbn [tlv_parser ps_headers ps_event dm_event dm_headers] in E. destruct dat as [|x rest]; [injection E as <- <-; split; [reflexivity|cbn; lia]|].
    repeat (match type of E with context [if ?c then _ else _] => destruct c eqn:? end; try discriminate E).
    injection E as <- <-. split; [reflexivity|]. cbn [length]. match goal with H : (_ <? _) = true |- _ => apply Nat.ltb_lt in H end. lia.
  - intros d dat more d' res E Hf. cbn [tlv_parser ps_headers ps_event dm_event dm_headers] in *. destruct dat as [|x rest].
    + injection E as <- <-. destruct (Hf _ eq_refl).
    + cbn [app]. destruct (x =? 255)%N; [exact E|]. destruct (x =? 254)%N; [exact E|]. destruct (x =? 253)%N; [exact E|].
      destruct (x =? 0)%N; [exact E|]. destruct (Nat.ltb_spec (length rest) (N.to_nat x)).
      * injection E as <- <-. destruct (Hf _ eq_refl).
      * rewrite app_length. destruct (Nat.ltb_spec (length rest + length more) (N.to_nat x)); [lia|].
        rewrite firstn_app. replace (N.to_nat x - length rest) with 0 by lia. cbn [firstn]. rewrite app_nil_r. exact E.
  - intros d dat d' s ev E. cbn [tlv_parser ps_headers ps_event dm_event dm_headers] in E. destruct dat as [|x rest]; [discriminate E|].
    repeat (match type of E with context [if ?c then _ else _] => destruct c eqn:? end; try discriminate E);
      (match type of E with (_, Okay (?x, _)) = _ => assert (s = x) as -> by congruence end; unfold plain_seek; lia).
  - intros d dat d' s n E dat' Hl. cbn [tlv_parser ps_headers ps_event dm_event dm_headers] in E. destruct dat as [|x rest]; [discriminate E|].
    repeat (match type of E with context [if ?c then _ else _] => destruct c eqn:? end; try discriminate E).
    injection E as <- <- <-. lia.
Qed.

Lemma tlv_skips : skips_forward tlv_parser.
Proof.
  intros d dat d' s n E. cbn [tlv_parser ps_headers ps_event dm_event dm_headers] in E. destruct dat as [|x rest]; [discriminate E|]. split; [discriminate|].
  repeat (match type of E with context [if ?c then _ else _] => destruct c eqn:? end; try discriminate E).
  injection E as <- <- <-. exists 1%Z. split; [reflexivity|reflexivity].
Qed.

(** stream 1, packet [1; 2; 3], a skipped byte, packet [9], garbage, truncated packet *)
Definition tlv_src : list N := [255; 3; 1; 2; 3; 254; 1; 9; 5; 1; 2]%N.
Definition whole (src : list N) (c : cursor) : Prop := cur_src c = src /\ forallb AccProofs2.no_fail (cur_script c) = true.

(** A demuxer that uses the reader through [read], [consume] and [fill_buf]: it
    asks for 4 bytes and consumes them itself. *)
Definition eager : demuxer_fns unit unit (acc cursor) :=
  mk_demuxer
    (fun d r info => Ret (d, r, info, Okay (Current 0)))
    (fun d r =>
       let! dat := data r in
       if length dat <? 4 then Ret (d, r, Error (MoreDataNeeded 4))
       else Ret (d, consume r 4, Okay (Current 0, Continue))).

Lemma eager_contract : contract_demuxer cursor_io eager.
Proof.
  intros d r d' r' res E. cbn [eager ps_headers ps_event dm_event dm_headers] in E. destruct (data r) as [dat| |] eqn:Ed; try discriminate E. cbn [obind] in E.
  destruct (Nat.ltb_spec (length dat) 4) as [Hlt|Hge].
  - injection E as <- <- <-. exists [], []. split; [exact I|reflexivity].
  - injection E as <- <- <-. exists [AConsume 4], [OUnit]. split; [|reflexivity].
    cbn [acc_legal]. split; [|intros; exact I]. exists dat. split; [exact Ed|exact Hge].
Qed.
Lemma eager_seeks : contract_seeks eager.
Proof.
  intros d r d' r' s ev E. cbn [eager ps_headers ps_event dm_event dm_headers] in E. destruct (data r) as [dat| |]; try discriminate E. cbn [obind] in E.
  destruct (length dat <? 4); [discriminate E|]. injection E as <- <- <- <-. cbn. lia.
Qed.

(** Headers that ask for a seek outside the buffer. *)
Definition far_parser : parser unit unit :=
  mk_parser (fun d dat info => (d, info, Okay (Start 30))) (fun d dat => (d, Error InvalidData)).
Lemma far_headers : incremental_headers far_parser.
Proof.
  constructor.
  - intros d dat info d' info' n E. discriminate E.
  - intros d dat more info d' info' res E Hf. exact E.
  - intros d dat info d' info' s E. injection E as <- <- <-. exact I.
Qed.

(** A context that repeats itself never returns. *)
Lemma stuck : forall (P D R : Type) (dm : demuxer_fns P D R) b (c : dctx P D R),
  read_event_internal dm b c = Ret (c, Error (MoreDataNeeded 1)) ->
  (exists d, b_data b (c_reader c) = Ret d /\ 1 <= length d) ->
  forall n, read_event dm b n c = Ret (c, None).
Proof.
  intros P D R dm b c E [d [Ed Hl]]. induction n as [|n IH]; [reflexivity|].
  cbn [read_event]. rewrite E. cbn [obind]. rewrite Ed. cbn [obind].
  destruct (Nat.leb_spec 1 (length d)); [exact IH|lia].
Qed.

Definition p1_src : list N := [112; 49; 32; 112; 49; 32]%N.
Definition p1_cursor : cursor := mk_cursor p1_src 0 [Deliver 1].
Definition p1_start : dctx unit unit (acc cursor) := context_new tt (with_capacity 4 p1_cursor).
Definition p1_stuck : dctx unit unit (acc cursor) :=
  mk_dctx tt (mk_acc (mk_cursor p1_src 1 []) [112; 0; 0; 0; 0; 0]%N 0 1 0) (mk_info None None []).

Lemma p1_livelock : forall n, exists c', read_event (parser_demuxer dummy_parser (acc_buffered cursor_io)) (acc_buffered cursor_io) n p1_start = Ret (c', None).
Proof.
  intros [|n]; [exists p1_start; reflexivity|]. exists p1_stuck.
  change (read_event (parser_demuxer dummy_parser (acc_buffered cursor_io)) (acc_buffered cursor_io) n p1_stuck = Ret (p1_stuck, None)).
  apply stuck; [vm_compute; reflexivity|]. exists [112]%N. split; [reflexivity|]. cbn. lia.
Qed.

Lemma whole_ok : forall src, source_ok cursor_io src (whole src) cur_pos.
Proof. intros src. apply cursor_good. Qed.
Lemma whole_nf : forall src, never_fails cursor_io src (whole src) cur_pos.
Proof. intros src. apply cursor_good. Qed.
Lemma whole_start : forall src limits, whole src (mk_cursor src 0 (map Deliver limits)).
Proof. intros src limits. split; [reflexivity|]. cbn [cur_script]. induction limits; [reflexivity|exact IHlimits]. Qed.
