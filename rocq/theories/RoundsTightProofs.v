(** The bounds on the number of rounds are reached. *)
From Coq Require Import List Arith NArith ZArith Bool Lia.
From Coq Require Import ZifyBool ZifyNat ZifyN.
From Verif Require Import Base AccModel AccSpec AccProofs FormatModel DemuxModel DemuxSpec DemuxProofs BufSizeSpec CallsSpec CallsProofs RoundsSpec.
Import ListNotations.
Local Open Scope nat_scope.

Lemma byte_by_byte_headers : forall n, incremental_headers (byte_by_byte n).
Proof.
  intros n. constructor.
  - intros d dat info d' info' k E. cbn [byte_by_byte ps_headers] in E. destruct (length dat <? n); [|discriminate E]. injection E as <- <- <-. auto.
  - intros d dat more info d' info' res E Hf. cbn [byte_by_byte ps_headers] in *. destruct (Nat.ltb_spec (length dat) n).
    + injection E as <- <- <-. destruct (Hf _ eq_refl).
    + rewrite app_length. destruct (Nat.ltb_spec (length dat + length more) n); [lia|]. exact E.
  - intros d dat info d' info' s E. cbn [byte_by_byte ps_headers] in E. destruct (length dat <? n); [discriminate E|]. injection E as <- <- <-. cbn. lia.
Qed.

Lemma byte_by_byte_incremental : forall n, incremental (byte_by_byte n) /\ skips_forward (byte_by_byte n).
Proof.
  intros n. split; [constructor|].
  - intros d dat d' k E. cbn [byte_by_byte ps_event] in E. destruct dat; [|discriminate E]. injection E as <- <-. cbn. auto.
  - intros d dat more d' res E Hf. cbn [byte_by_byte ps_event] in *. destruct dat; [injection E as <- <-; destruct (Hf _ eq_refl)|exact E].
  - intros d dat d' s ev E. cbn [byte_by_byte ps_event] in E. destruct dat; [discriminate E|]. injection E as <- <- <-. cbn. lia.
  - intros d dat d' s k E dat' Hl. cbn [byte_by_byte ps_event] in E. destruct dat; [discriminate E|]. injection E as <- <- <-. lia.
  - intros d dat d' s k E. cbn [byte_by_byte ps_event] in E. destruct dat; [discriminate E|]. injection E as <- <- <-.
    split; [discriminate|]. exists 1%Z. split; [reflexivity|reflexivity].
Qed.

(** A fill from a source that gives one byte. *)
Lemma slow_fill : forall (a : acc cursor) src k rest, proper a -> held a < length (abuf a) -> k < length src ->
  inner a = mk_cursor src k (Deliver 1 :: rest) ->
  exists a' d, fill_buf cursor_io a = Ret (a', Okay d) /\ inner a' = mk_cursor src (S k) rest /\ proper a' /\
    held a' = S (held a) /\ length (abuf a') = length (abuf a).
Proof.
  intros [r buf p e x] src k rest [H1 H2] Hh Hk Hi. unfold held in *. cbn [inner abuf apos aend aindex] in *. subst r.
  unfold fill_buf. cbn [abuf apos aend].
  assert (Hc : negb (p =? 0) || negb (e =? length buf) = true).
  { destruct (Nat.eqb_spec p 0); cbn [negb orb]; [|reflexivity]. destruct (Nat.eqb_spec e (length buf)); cbn [negb]; [lia|reflexivity]. }
  rewrite Hc. unfold reset_buffer_position. cbn [abuf apos aend inner aindex]. rewrite csub_ok by assumption. cbn [obind].
  assert (Hb : exists buf1, (if 0 <? e - p then let! w := slice buf p e in Ret (w ++ skipn (e - p) buf) else Ret buf) = Ret buf1 /\ length buf1 = length buf).
  { destruct (Nat.ltb_spec 0 (e - p)).
    - rewrite slice_ok by assumption. cbn [obind]. eexists. split; [reflexivity|]. rewrite app_length, firstn_length, !skipn_length. lia.
    - exists buf. split; reflexivity. }
  destruct Hb as [buf1 [-> Hl]]. cbn [obind abuf aend inner apos aindex].
  rewrite slice_ok by lia. cbn [obind]. cbn [cursor_io io_read]. unfold cursor_read. cbn [cur_src cur_pos cur_script].
  set (tail := firstn (length buf1 - (e - p)) (skipn (e - p) buf1)).
  assert (Lt : length tail = length buf - (e - p)) by (unfold tail; rewrite firstn_length, skipn_length; lia).
  replace (Nat.min (Nat.min (length tail) (length (skipn k src))) (Nat.max 1 1)) with 1 by (rewrite skipn_length; lia).
  cbn [apos aend abuf].
  set (buf2 := with_tail buf1 (e - p) (firstn 1 (skipn k src) ++ skipn 1 tail)).
  assert (L2 : length buf2 = length buf).
  { unfold buf2, with_tail. rewrite !app_length, !firstn_length, !skipn_length. lia. }
  rewrite slice_ok by lia. cbn [obind]. eexists _, _. split; [reflexivity|]. cbn [inner apos aend abuf].
  rewrite Nat.add_1_r. split; [reflexivity|]. split; [split; cbn [apos aend abuf]; lia|]. split; [lia|exact L2].
Qed.

Lemma data_held : forall a : acc cursor, proper a -> exists d, data a = Ret d /\ length d = held a.
Proof.
  intros a [H1 H2]. unfold data. rewrite slice_ok by assumption. eexists. split; [reflexivity|].
  rewrite firstn_length, skipn_length. unfold held. lia.
Qed.

(** Headers: before round [j + 2] the buffer has room for one byte more than it holds. *)
Section Headers.
Variable src : list N.
Variable n : nat.
Hypothesis Hn : n <= length src.
Notation dm := (parser_demuxer (byte_by_byte n) (acc_buffered cursor_io)).

Lemma wait_rounds : forall fuel j (c : dctx unit unit (acc cursor)), fuel + j < n -> proper (c_reader c) -> held (c_reader c) = j ->
  length (abuf (c_reader c)) = S j -> inner (c_reader c) = mk_cursor src j (repeat (Deliver 1) (length src - j)) ->
  exists c', read_headers dm (acc_buffered cursor_io) fuel c = Ret (c', None).
Proof.
  induction fuel as [|fuel IH]; intros j [d a info] Hj Hp Hh Hl Hi; cbn [c_reader] in *; [eexists; reflexivity|].
  rewrite read_headers_round. unfold hround. cbn [acc_buffered b_fill b_grow c_reader c_demuxer c_info].
  replace (length src - j) with (S (length src - S j)) in Hi by lia. cbn [repeat] in Hi.
  destruct (slow_fill a src j _ Hp ltac:(lia) ltac:(lia) Hi) as [a' [dd [-> [Hi' [Hp' [Hh' Hl']]]]]]. cbn [obind].
  unfold read_headers_internal. cbn [parser_demuxer dm_headers acc_buffered b_data c_reader c_demuxer c_info].
  destruct (data_held a' Hp') as [dat [-> Hd]]. cbn [obind byte_by_byte ps_headers].
  destruct (Nat.ltb_spec (length dat) n); [|lia]. cbn [obind c_reader c_demuxer c_info].
  destruct Hp' as [X1 X2]. apply (IH (S j)); cbn [c_reader grow apos aend abuf inner].
  - lia.
  - split; cbn [grow apos aend abuf]; rewrite ?app_length; lia.
  - unfold held in *. cbn [grow apos aend]. lia.
  - rewrite app_length, repeat_length. lia.
  - exact Hi'.
Qed.
End Headers.

Lemma wait_all : forall src n fuel, fuel <= n -> n <= length src -> exists c',
  read_headers (parser_demuxer (byte_by_byte n) (acc_buffered cursor_io)) (acc_buffered cursor_io) fuel
    (context_new tt (with_capacity 0 (slow_source src))) = Ret (c', None).
Proof.
  intros src n fuel Hf Hn. destruct fuel as [|fuel]; [eexists; reflexivity|].
  rewrite read_headers_round. unfold hround. cbn [acc_buffered b_fill b_grow c_reader c_demuxer c_info context_new with_capacity repeat].
  unfold with_capacity, fill_buf. cbn [repeat apos aend abuf Nat.eqb length negb orb].
  rewrite slice_ok by (cbn; lia). cbn [obind].
  unfold read_headers_internal. cbn [parser_demuxer dm_headers acc_buffered b_data c_reader c_demuxer c_info].
  unfold data. cbn [apos aend abuf]. rewrite slice_ok by (cbn; lia). cbn [obind byte_by_byte ps_headers firstn skipn Nat.sub].
  destruct (Nat.ltb_spec (@length N []) n) as [Hl|Hl]; cbn [length] in Hl; [|lia]. cbn [obind c_reader c_demuxer c_info].
  apply (wait_rounds src n Hn _ 0); cbn [c_reader grow apos aend abuf inner repeat app length].
  - lia.
  - split; cbn; lia.
  - reflexivity.
  - reflexivity.
  - rewrite Nat.sub_0_r. reflexivity.
Qed.

Lemma headers_tight : forall src, exists c',
  read_headers (parser_demuxer (byte_by_byte (length src)) (acc_buffered cursor_io)) (acc_buffered cursor_io) (length src)
    (context_new tt (with_capacity 0 (slow_source src))) = Ret (c', None).
Proof. intros src. apply wait_all; apply le_n. Qed.

(** Events: two rounds per byte. *)
Section Events.
Variable src : list N.
Notation dm := (parser_demuxer (byte_by_byte 0) (acc_buffered cursor_io)).

Lemma skip_rounds : forall left k (c : dctx unit unit (acc cursor)), k + left = length src -> proper (c_reader c) -> held (c_reader c) = 0 ->
  inner (c_reader c) = mk_cursor src k (repeat (Deliver 1) left) ->
  exists c', read_event dm (acc_buffered cursor_io) (2 * left) c = Ret (c', None).
Proof.
  induction left as [|left IH]; intros k [d a info] Hk Hp Hh Hi; cbn [c_reader] in *; [eexists; reflexivity|].
  replace (2 * S left) with (S (S (2 * left))) by lia. cbn [repeat] in Hi.
  rewrite read_event_round. unfold round, read_event_internal. cbn [parser_demuxer dm_event acc_buffered b_data b_fill b_grow b_seek c_reader c_demuxer c_info].
  destruct (data_held a Hp) as [dat [Ed Hd]]. rewrite Ed. cbn [obind byte_by_byte ps_event]. destruct dat as [|b dat]; [|cbn [length] in Hd; lia].
  cbn [obind c_reader c_demuxer c_info]. rewrite Ed. cbn [obind length Nat.leb].
  assert (Hpg : proper (grow a 1)) by (destruct Hp; split; cbn [grow apos aend abuf]; rewrite ?app_length; lia).
  destruct (slow_fill (grow a 1) src k (repeat (Deliver 1) left) Hpg) as [a' [dd [-> [Hi' [Hp' [Hh' Hl']]]]]].
  { unfold held in *. cbn [grow apos aend abuf]. rewrite app_length, repeat_length. lia. }
  { lia. }
  { exact Hi. }
  cbn [obind]. destruct (data_held a' Hp') as [dat' [Ed' Hd']]. rewrite Ed'. cbn [obind].
  assert (H1 : held a' = 1) by (rewrite Hh'; unfold held in *; cbn [grow apos aend]; lia).
  destruct (Nat.leb_spec (length dat') 0); [lia|]. cbn [obind].
  rewrite read_event_round. unfold round, read_event_internal. cbn [parser_demuxer dm_event acc_buffered b_data b_fill b_grow b_seek c_reader c_demuxer c_info].
  rewrite Ed'. cbn [obind byte_by_byte ps_event]. destruct dat' as [|b' dat']; [cbn [length] in Hd'; lia|]. cbn [obind].
  unfold seek. destruct Hp' as [X1 X2]. rewrite csub_ok by assumption. cbn [obind]. cbn [Z.leb Z.compare].
  unfold held in H1. replace (Z.to_nat 1 <=? aend a' - apos a') with true by (symmetry; apply Nat.leb_le; lia). cbn [obind c_reader c_demuxer c_info].
  unfold data. cbn [apos aend abuf]. rewrite slice_ok by lia. cbn [obind Nat.leb].
  apply (IH (S k)); cbn [c_reader inner].
  - lia.
  - split; cbn [apos aend abuf]; lia.
  - unfold held. cbn [apos aend]. lia.
  - exact Hi'.
Qed.
End Events.

Lemma events_tight : forall src cap, exists c',
  read_event (parser_demuxer (byte_by_byte 0) (acc_buffered cursor_io)) (acc_buffered cursor_io) (2 * length src)
    (context_new tt (with_capacity cap (slow_source src))) = Ret (c', None).
Proof.
  intros src cap. apply (skip_rounds src (length src) 0); cbn [c_reader context_new with_capacity inner].
  - reflexivity.
  - split; cbn; lia.
  - reflexivity.
  - reflexivity.
Qed.
