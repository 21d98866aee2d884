(** The proofs of the theorems of [BufSizeProps]. *)
From Coq Require Import List Arith NArith ZArith Bool Lia.
From Coq Require Import ZifyBool ZifyNat ZifyN.
From Verif Require Import Base AccModel AccSpec AccProofs AccProofs2 FormatModel DemuxModel DemuxSpec DemuxProofs DemuxProofs2 DemuxProofs3 DemuxExamples RetrySpec BufSizeSpec BufSizeProofs.
Import ListNotations.
Local Open Scope nat_scope.

Lemma block_requests : forall n, requests_at_most (block_parser n) n.
Proof.
  intros n d dat d' k [E|[s E]]; cbn [block_parser ps_event] in E; destruct (length dat <? n); try discriminate E.
  injection E as _ <-. lia.
Qed.

Lemma block_local : forall n, local_seeks (block_parser n).
Proof.
  intros n d dat d' s ev E. cbn [block_parser ps_event] in E. destruct (Nat.ltb_spec (length dat) n); [discriminate E|].
  injection E as _ <- _. exists (Z.of_nat n). split; [lia|reflexivity].
Qed.

Lemma c89_slow_source_exact : forall src cap,
  requests_at_most (block_parser (length src)) (length src) /\
  exists c', read_event (parser_demuxer (block_parser (length src)) (acc_buffered cursor_io)) (acc_buffered cursor_io) (length src + 1)
      (context_new tt (with_capacity cap (slow_source src))) = Ret (c', Some (Okay (NewPacket (block_packet src)))) /\
    length (abuf (c_reader c')) = cap + length src * length src.
Proof.
  intros src cap. split; [apply block_requests|].
  destruct (slow_growth src (length src) (with_capacity cap (slow_source src)) cap (mk_info None None [])) as [a [H [L [I E]]]].
  - apply new_rep; reflexivity.
  - cbn [with_capacity abuf]. apply repeat_length.
  - lia.
  - cbn [with_capacity inner]. unfold slow_source. f_equal. lia.
  - pose proof (rp_tell _ _ _ _ _ H) as Ht. rewrite I in Ht. cbn [cur_pos Nat.add] in Ht. change (aend a - apos a) with (buffered a) in Ht.
    assert (Hd : data a = Ret src).
    { rewrite (data_rep src _ cur_pos a 0 H). cbn [skipn]. rewrite firstn_all2 by lia. reflexivity. }
    destruct (within_seek_same cursor_io src _ cur_pos (cursor_ok src) a 0 (Current (Z.of_nat (length src))) src H Hd) as [a' [q [Es [_ [_ [Eb _]]]]]].
    { exists (Z.of_nat (length src)). split; [lia|reflexivity]. } { lia. }
    exists (mk_dctx tt a' (mk_info None None [])). split; [|cbn [c_reader]; rewrite Eb; exact L].
    unfold context_new. rewrite (E 1). cbn [read_event]. unfold read_event_internal.
    cbn [parser_demuxer dm_event acc_buffered b_data b_seek b_fill b_grow c_demuxer c_reader c_info].
    rewrite Hd. cbn [obind]. cbn [block_parser ps_event]. rewrite Nat.ltb_irrefl. cbn [obind].
    rewrite Es. cbn [obind block_packet p_t default_time t_timebase g_streams find]. rewrite firstn_all. reflexivity.
Qed.

Lemma c89_buffer_bound_partial : forall (S P D : Type) (i : io S) src good tell (ps : parser P D) m cap r0 d n calls,
  source_ok i src good tell -> local_seeks ps -> requests_at_most ps m -> good r0 -> tell r0 = 0 ->
  exists c' o, read_events (parser_demuxer ps (acc_buffered i)) (acc_buffered i) n calls (context_new d (with_capacity cap r0)) = Ret (c', o) /\
    length (abuf (c_reader c')) <= cap + m * (length src + calls).
Proof.
  intros S P D i src good tell ps m cap r0 d n calls Hs HL Hm Hg Ht.
  destruct (events_size i src good tell Hs ps HL m Hm calls n (context_new d (with_capacity cap r0))) as [c' [o [E [H1 [_ H3]]]]].
  { exists 0. split; [apply new_rep; assumption|lia]. }
  exists c', o. split; [exact E|]. pose proof (inside_seen src good tell c' H1) as Hl.
  unfold buf_len in H3. cbn [context_new c_reader with_capacity abuf] in H3. rewrite repeat_length in H3.
  assert (Hsn : seen tell (context_new (P := P) d (with_capacity cap r0)) = 0) by exact Ht. rewrite Hsn in H3.
  rewrite Nat.mul_add_distr_l. assert (m * (seen tell c' - 0) <= m * length src) by (apply Nat.mul_le_mono_l; lia). lia.
Qed.

Lemma c89_bounded_buffer_refuted : forall k, exists src m cap c' e,
  requests_at_most (block_parser m) m /\
  read_event (parser_demuxer (block_parser m) (acc_buffered cursor_io)) (acc_buffered cursor_io) (length src + 1)
    (context_new tt (with_capacity cap (slow_source src))) = Ret (c', Some (Okay (NewPacket e))) /\
  k * (cap + m) < length (abuf (c_reader c')).
Proof.
  intros k. destruct (c89_slow_source_exact (repeat 7%N (1 + k)) 0) as [H [c' [E L]]].
  exists (repeat 7%N (1 + k)), (length (repeat 7%N (1 + k))), 0, c', (block_packet (repeat 7%N (1 + k))).
  split; [exact H|]. split; [exact E|]. rewrite L. rewrite repeat_length. lia.
Qed.
