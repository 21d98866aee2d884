(** Proofs for C189: messages. *)
From Coq Require Import List Arith NArith ZArith Bool Lia Permutation.
From Coq Require Import ZifyBool ZifyNat ZifyN.
From Verif Require Import Base BitModel BitSpec BitProofs BitQueueSpec BitQueueProofs WordBitModel WordSpec WordBitProofs ReleaseModel ReleaseBitModel ReleaseBitSpec
  ReleaseBitProofs CodebookModel CodebookSpec CodebookProofs CodebookProofs2 CodebookProofs3 CodebookProofs4 CodebookProofs5 CbQueueSpec CbQueueProofs CbBlockProofs CbBlockProofs2
  ReleaseCbModel ReleaseCbSpec ReleaseCbProofs ReleaseCbProofs2 WideCbModel WideCbProofs ReleaseLongSpec ReleaseLongProofs ReleaseLongProofs2.
Import ListNotations.
Local Open Scope nat_scope.
Ltac Zify.zify_post_hook ::= Z.div_mod_to_equations.

(** The lemmas of [CodebookProofs5] and [CbQueueProofs] for given tables. *)

Lemma tf_read_cb_hit : forall (S : Type) m (ds : list (desc S)) cb r p d,
  tables_for m ds cb ->
  inv (reader_for m) r p -> In d ds -> used d ->
  window (bits_of (reader_for m) (buffer r)) p (d_bits d) = word m d ->
  p + d_bits d + 64 <= 8 * length (buffer r) -> (N.of_nat (8 * length (buffer r)) < W32)%N ->
  exists r', read_cb (reader_for m) cb r = Ret (r', Okay (d_sym d)) /\
    inv (reader_for m) r' (p + d_bits d) /\ buffer r' = buffer r.
Proof.
  intros S m ds cb r p d Ht I Hd Hu Hw Hr H32.
  destruct Ht as [Hpf [Hcnt [[d0 [Hd0 Hu0]] [H255 [Hs [Hl [lo [hi Hsv]]]]]]]].
  apply In_nth_error in Hd. destruct Hd as [j Hj].
  assert (Lw : length (word m d) = d_bits d) by apply codeword_length.
  unfold read_cb. rewrite Hl. rewrite <- Lw.
  apply (decode_hit (reader_for m) cb 27 27 lo hi 0 _ r p (word m d) (rank ds j) (d_sym d) (le_n _) Hsv).
  - apply number_pf. exact Hpf.
  - apply number_nonempty.
  - apply items_idx. apply (number_idx S m). cbn [plus]. lia.
  - exact I.
  - apply number_in. exists j, d. repeat split; assumption.
  - rewrite Hs. apply rank_sym; assumption.
  - rewrite Lw. exact Hw.
  - rewrite Lw. exact Hr.
  - exact H32.
Qed.

Lemma tf_run_mixed_exact : forall (S : Type) m (ds : list (desc S)) cb,
  tables_for m ds cb ->
  forall steps r p, inv (reader_for m) r p -> 64 <= 8 * length (buffer r) ->
  (N.of_nat (8 * length (buffer r)) < W32)%N ->
  steps_within m ds (bits_of (reader_for m) (buffer r)) (8 * length (buffer r) - 64) p steps ->
  exists r', run_mixed (reader_for m) cb r steps =
      Ret (r', snd (spec_steps m (bits_of (reader_for m) (buffer r)) p steps)) /\
    inv (reader_for m) r' (fst (spec_steps m (bits_of (reader_for m) (buffer r)) p steps)) /\ buffer r' = buffer r.
Proof.
  intros S m ds cb Ht. induction steps as [|[op|d] steps IH]; intros r p I Hlen H32 Hw.
  - exists r. split; [reflexivity|]. split; [exact I|reflexivity].
  - cbn [steps_within] in Hw. destruct Hw as [Hok [Hp Hw]].
    destruct (run_op_exact (reader_for m) r p op I Hok ltac:(lia)) as [r1 [E1 [I1 B1]]].
    cbn [run_mixed spec_steps]. rewrite E1. cbn [obind].
    destruct (spec_op (reader_for m) (bits_of (reader_for m) (buffer r)) p op) as [p1 o1] eqn:Es. cbn [fst snd] in *.
    rewrite <- B1 in Hw, Hlen, H32. destruct (IH r1 p1 I1 Hlen H32 Hw) as [r2 [E2 [I2 B2]]].
    rewrite E2. cbn [obind]. rewrite B1 in *.
    destruct (spec_steps m (bits_of (reader_for m) (buffer r)) p1 steps) as [p2 os]. cbn [fst snd] in *.
    exists r2. split; [reflexivity|]. split; [exact I2|congruence].
  - cbn [steps_within] in Hw. destruct Hw as [Hd [Hu [Hp [Hword Hw]]]].
    destruct (tf_read_cb_hit S m ds cb r p d Ht I Hd Hu Hword ltac:(lia) H32) as [r1 [E1 [I1 B1]]].
    cbn [run_mixed spec_steps]. rewrite E1. cbn [obind].
    rewrite <- B1 in Hw, Hlen, H32. destruct (IH r1 _ I1 Hlen H32 Hw) as [r2 [E2 [I2 B2]]].
    rewrite E2. cbn [obind]. rewrite B1 in *.
    destruct (spec_steps m (bits_of (reader_for m) (buffer r)) (p + d_bits d) steps) as [p2 os]. cbn [fst snd] in *.
    exists r2. split; [reflexivity|]. split; [exact I2|congruence].
Qed.

Lemma tf_codebook_histories : forall (S : Type) m (ds : list (desc S)) cb buf steps,
  tables_for m ds cb ->
  bytes buf -> 8 <= length buf -> (N.of_nat (8 * length buf) < 2 ^ 32)%N ->
  steps_within m ds (bits_of (reader_for m) buf) (8 * length buf - 64) 0 steps ->
  exists r0 r, new (reader_for m) buf = Ret r0 /\
    run_mixed (reader_for m) cb r0 steps = Ret (r, snd (spec_steps m (bits_of (reader_for m) buf) 0 steps)) /\
    consumed r = Ret (fst (spec_steps m (bits_of (reader_for m) buf) 0 steps)).
Proof.
  intros S m ds cb buf steps Ht Hb Hlen H32 Hw.
  destruct (new_inv (reader_for m) buf Hb) as [r0 [E0 [I0 B0]]].
  rewrite <- B0 in Hlen, H32, Hw.
  destruct (tf_run_mixed_exact S m ds cb Ht steps r0 0 I0 ltac:(lia) H32 Hw) as [r [E [I _]]].
  exists r0, r. rewrite <- B0 at 2 3. split; [exact E0|]. split; [exact E|]. apply (consumed_inv _ _ _ I).
Qed.

Lemma tf_message_round_trip : forall (S : Type) m (ds msg : list (desc S)) cb,
  tables_for m ds cb ->
  Forall (fun d => In d ds /\ used d) msg ->
  (N.of_nat (8 * length (encode m msg)) < 2 ^ 32)%N ->
  exists r0 r, new (reader_for m) (encode m msg) = Ret r0 /\
    run_mixed (reader_for m) cb r0 (map Codeword msg) = Ret (r, map (fun d => Sym (Okay (d_sym d))) msg) /\
    consumed r = Ret (length (message_bits m msg)).
Proof.
  intros S m ds msg cb Ht Hmsg H32.
  set (l := message_bits m msg). set (n := (length l + 7) / 8 + 8).
  assert (Hbits : bits_of (reader_for m) (encode m msg) = l ++ repeat false (8 * n - length l)).
  { unfold encode. apply pack_bits. rewrite app_length, repeat_length. fold l n. lia. }
  assert (Hlen : length (encode m msg) = n) by apply pack_length.
  destruct (tf_codebook_histories S m ds cb (encode m msg) (map Codeword msg) Ht) as [r0 [r [E0 [E1 E2]]]].
  - apply pack_bytes.
  - rewrite Hlen. lia.
  - exact H32.
  - rewrite Hbits. apply (message_steps S m ds msg [] _ _ Hmsg). cbn [length plus]. fold l. rewrite Hlen. lia.
  - rewrite message_outputs in E1, E2. cbn [fst snd plus] in E1, E2. exists r0, r. split; [exact E0|]. split; assumption.
Qed.

Lemma tf_read_cb_queue : forall (S : Type) m (ds : list (desc S)) cb e buf r q,
  tables_for m ds cb -> bytes buf -> rep e buf r q ->
  match q_codeword e m ds (bits_of e buf) q with
  | Some (q', o) => exists r', read_cb e cb r = Ret (r', sym_result o) /\ rep e buf r' q'
  | None => read_cb e cb r = Panic
  end.
Proof.
  intros S m ds cb e buf r q Ht Hb R.
  destruct Ht as [Hpf [Hcnt [[d0 [Hd0 Hu0]] [H255 [Hs [Hl [lo [hi Hsv]]]]]]]].
  unfold read_cb, q_codeword. rewrite Hl. change 0%N with (N.of_nat 0).
  apply (read_loop_queue S cb e m buf Hb 26 27 27 lo hi 0 _ _ r q ltac:(lia) Hsv).
  - rewrite Hs. apply numbered_matching. intros j d Hj. unfold used_syms. rewrite Nat.add_0_l.
    apply (map_nth_error d_sym). exact Hj.
  - apply number_pf. exact Hpf.
  - apply number_nonempty.
  - apply In_nth_error in Hd0. destruct Hd0 as [j Hj].
    intros E. assert (Hi : In (word m d0, 0 + rank ds j) (items_of m (number 0 ds))).
    { apply number_in. exists j, d0. repeat split; assumption. }
    rewrite E in Hi. destruct Hi.
  - apply maxl_le. intros w i Hin. apply number_in in Hin. destruct Hin as [j [d [Hj [Hu [-> _]]]]].
    unfold word. rewrite codeword_length. apply nth_error_In in Hj. pose proof (H255 d Hj Hu). lia.
  - apply items_idx. apply (number_idx S m). cbn [plus]. lia.
  - exact R.
Qed.

Lemma tf_mixed_queue : forall (S : Type) m (ds : list (desc S)) cb e buf,
  tables_for m ds cb -> bytes buf ->
  forall steps r q, rep e buf r q -> Forall step_ok steps ->
  match q_steps e m ds (bits_of e buf) q steps with
  | Some (q', os) => exists r', run_mixed e cb r steps = Ret (r', os) /\ rep e buf r' q'
  | None => run_mixed e cb r steps = Panic
  end.
Proof.
  intros S m ds cb e buf Ht Hb. induction steps as [|[op|d] steps IH]; intros r q R Hok; cbn [q_steps run_mixed].
  - exists r. split; [reflexivity|exact R].
  - inversion Hok as [|? ? H1 H2]; subst. cbn [step_ok q_step] in *. pose proof (q_op_rep e buf r q op Hb R H1) as G.
    destruct (q_op e (bits_of e buf) q op) as [[q1 o]|].
    + destruct G as [r1 [E R1]]. rewrite E. cbn [obind]. specialize (IH r1 q1 R1 H2).
      destruct (q_steps e m ds (bits_of e buf) q1 steps) as [[q2 os]|].
      * destruct IH as [r2 [E2 R2]]. rewrite E2. cbn [obind]. exists r2. split; [reflexivity|exact R2].
      * rewrite IH. reflexivity.
    + rewrite G. reflexivity.
  - inversion Hok as [|? ? H1 H2]; subst. cbn [q_step] in *.
    pose proof (tf_read_cb_queue S m ds cb e buf r q Ht Hb R) as G.
    destruct (q_codeword e m ds (bits_of e buf) q) as [[q1 o]|].
    + destruct G as [r1 [E R1]]. rewrite E. cbn [obind]. specialize (IH r1 q1 R1 H2).
      destruct o as [s|]; cbn [sym_result];
        (destruct (q_steps e m ds (bits_of e buf) q1 steps) as [[q2 os]|];
         [destruct IH as [r2 [E2 R2]]; rewrite E2; cbn [obind]; exists r2; split; [reflexivity|exact R2]
         |rewrite IH; reflexivity]).
    + rewrite G. reflexivity.
Qed.

Lemma tf_codeword_queue_exact : forall (S : Type) m (ds : list (desc S)) cb e buf steps,
  tables_for m ds cb -> bytes buf -> Forall step_ok steps ->
  exists r0, new e buf = Ret r0 /\
  match q_mixed e m ds buf steps with
  | Some (q, outs) => exists r, run_mixed e cb r0 steps = Ret (r, outs) /\
      left r = length (waiting q) /\ consumed r = Ret (fetched q - length (waiting q))
  | None => run_mixed e cb r0 steps = Panic
  end.
Proof.
  intros S m ds cb e buf steps Ht Hb Hok. destruct (new_rep e buf Hb) as [r0 [E0 R0]].
  exists r0. split; [exact E0|]. pose proof (tf_mixed_queue S m ds cb e buf Ht Hb steps r0 _ R0 Hok) as G.
  unfold q_mixed. destruct (q_steps e m ds (bits_of e buf) _ steps) as [[q os]|]; [|exact G].
  destruct G as [r [E R]]. exists r. split; [exact E|]. split; [apply R|]. apply (rep_consumed e buf). exact R.
Qed.

Local Open Scope N_scope.

Lemma tf_message : forall (S : Type) m (ds msg : list (desc S)) cb, tables_for m ds cb -> Forall (fun d => In d ds /\ used d) msg -> N.of_nat (8 * length (encode m msg)) < 2 ^ 32 ->
  exists r, rc_mixed_from_new (reader_for m) cb (encode m msg) (map Codeword msg) = Ret (r, map (fun d => Sym (Okay (d_sym d))) msg) /\
    rb_consumed r = N.of_nat (length (message_bits m msg)).
Proof.
  intros S m ds msg cb Ht Hm Hlen. destruct (tf_message_round_trip S m ds msg cb Ht Hm Hlen) as [r0 [r [E0 [E1 E2]]]].
  assert (Hbytes : bytes (encode m msg)) by apply pack_bytes.
  assert (Hok : Forall step_ok (map (@Codeword S) msg)) by (apply Forall_forall; intros st Hst; apply in_map_iff in Hst; destruct Hst as [d [<- _]]; exact I).
  assert (Hcount : (length msg <= 8 * length (encode m msg))%nat).
  { apply Nat.le_trans with (length (message_bits m msg)).
    - apply message_count. eapply Forall_impl; [|exact Hm]. intros d [_ H]. exact H.
    - unfold encode. cbv zeta. rewrite pack_length. generalize (length (message_bits m msg)). clear. intros n. lia. }
  change (2 ^ 32) with 4294967296 in Hlen.
  assert (Hb : 8 * N.of_nat (length (encode m msg)) + steps_skip (map Codeword msg) < 2 ^ 64).
  { rewrite message_skip. change (2 ^ 64) with 18446744073709551616. lia. }
  destruct (tf_mixed S m ds cb Ht (reader_for m) (encode m msg) (map Codeword msg) Hbytes Hok Hb) as [w [F1 [_ F3]]].
  destruct (tf_codeword_queue_exact S m ds cb (reader_for m) (encode m msg) (map Codeword msg) Ht Hbytes Hok) as [r0' [E0' Q]].
  rewrite E0 in E0'. injection E0' as <-. unfold rq_mixed, q_mixed in *.
  destruct (q_steps (reader_for m) m ds _ _ (map Codeword msg)) as [[q outs]|] eqn:D; [|rewrite E1 in Q; discriminate Q].
  rewrite (codewords_agree _ _ _ _ _ _ _ _ D) in F1, F3. cbn [fst snd] in *. destruct Q as [r2 [Q1 [_ Q3]]]. rewrite E1 in Q1.
  assert (outs = map (fun d => Sym (Okay (d_sym d))) msg /\ r2 = r) as [-> ->] by (split; congruence).
  rewrite E2 in Q3. assert (Q4 : (fetched q - length (waiting q) = length (message_bits m msg))%nat) by congruence. rewrite Q4 in F3.
  exists w. split; [exact F1|exact F3].
Qed.

Lemma seen_messages : forall (S : Type) ord (ds msg : list (desc S)), permuting ord -> seen_fit ds ->
  prefix_free MSB (map as_seen ds) -> small_enough MSB (map as_seen ds) -> (exists d, In d ds /\ used d) ->
  Forall (fun d => In d ds /\ used d) msg -> N.of_nat (8 * length (encode MSB (map as_seen msg))) < 2 ^ 32 ->
  exists cb r, rc_new_codebook ord ds MSB = Ret (Okay cb) /\
    rc_mixed_from_new BE cb (encode MSB (map as_seen msg)) (map Codeword (map as_seen msg)) = Ret (r, map (fun d => Sym (Okay (d_sym d))) msg) /\
    rb_consumed r = N.of_nat (length (message_bits MSB (map as_seen msg))).
Proof.
  intros S ord ds msg Hord Hf Hpf Hsm Hu Hm Hlen. destruct (seen_tables S ord ds Hord Hf Hpf Hsm Hu) as [cb [E Ht]].
  destruct (tf_message S MSB (map as_seen ds) (map as_seen msg) cb Ht) as [r [E1 E2]]; [|exact Hlen|].
  - apply Forall_forall. intros d Hd. apply in_map_iff in Hd as [d1 [<- Hd1]]. rewrite Forall_forall in Hm. destruct (Hm d1 Hd1) as [A B].
    split; [apply in_map; exact A|exact B].
  - exists cb, r. split; [exact E|]. split; [|exact E2]. change BE with (reader_for MSB). rewrite E1. do 2 f_equal. rewrite map_map. reflexivity.
Qed.
