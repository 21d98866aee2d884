(** The codebook properties. *)
From Coq Require Import List Arith NArith ZArith Bool Lia Permutation.
From Coq Require Import ZifyBool ZifyNat ZifyN.
From Verif Require Import Base ByteModel ByteSpec ByteProofs BitModel BitSpec BitProofs BitProofs2 CodebookModel
  CodebookSpec CodebookProofs CodebookProofs2 CodebookProofs3 CodebookProofs4 CbLevelSpec.
Import ListNotations.
Local Open Scope nat_scope.
Ltac Zify.zify_post_hook ::= Z.div_mod_to_equations.

(** ** Histories of calls and codeword reads *)

Lemma codebook_used : forall (S : Type) ord m (ds : list (desc S)) cb,
  new_codebook ord ds m = Ret (Okay cb) -> exists d, In d ds /\ used d.
Proof.
  intros S ord m ds cb H.
  destruct (existsb (fun d => 0 <? d_bits d) ds) eqn:E.
  - apply existsb_exists in E. destruct E as [d [Hd Hb]]. exists d. split; [exact Hd|].
    apply Nat.ltb_lt in Hb. exact Hb.
  - rewrite new_codebook_empty in H; [discriminate|]. intros d Hin Hu.
    assert (existsb (fun d => 0 <? d_bits d) ds = true); [|congruence].
    apply existsb_exists. exists d. split; [exact Hin|]. apply Nat.ltb_lt. exact Hu.
Qed.

Lemma built_levels : forall (S : Type) ord m (ds : list (desc S)) cb, permuting ord -> codes_fit m ds -> same_level m ds ->
  small_enough m ds -> new_codebook ord ds m = Ret (Okay cb) ->
  cb_syms cb = used_syms ds /\ cb_lut_bits cb = lbits (items_of m (number 0 ds)) /\
  exists lo hi, serves 27 (reader_for m) (cb_table cb) lo hi 0 (items_of m (number 0 ds)).
Proof.
  intros S ord m ds cb Hord Hf Hl Hs H.
  destruct (new_codebook_levels S ord m ds Hord Hf Hl Hs (codebook_used S ord m ds cb H)) as [cb' [lo [hi [E [H1 [H2 [_ H3]]]]]]].
  rewrite H in E. injection E as <-. split; [exact H1|]. split; [exact H2|]. exists lo, hi. exact H3.
Qed.

Lemma built : forall (S : Type) ord m (ds : list (desc S)) cb, permuting ord -> valid_description m ds ->
  new_codebook ord ds m = Ret (Okay cb) ->
  cb_syms cb = used_syms ds /\ cb_lut_bits cb = lbits (items_of m (number 0 ds)) /\
  exists lo hi, serves 27 (reader_for m) (cb_table cb) lo hi 0 (items_of m (number 0 ds)).
Proof.
  intros S ord m ds cb Hord Hv H.
  destruct (new_codebook_ok S ord m ds Hord Hv (codebook_used S ord m ds cb H)) as [cb' [lo [hi [E [H1 [H2 [_ H3]]]]]]].
  rewrite H in E. injection E as <-. split; [exact H1|]. split; [exact H2|]. exists lo, hi. exact H3.
Qed.

Lemma small_idx_items : forall (S : Type) m (ds : list (desc S)), small_enough m ds ->
  forall w i, In (w, i) (items_of m (number 0 ds)) -> (N.of_nat i < 2 ^ 24)%N.
Proof. intros S m ds [H _]. apply items_idx. apply (number_idx S m). cbn [plus]. lia. Qed.

Lemma valid_idx : forall (S : Type) m (ds : list (desc S)), valid_description m ds ->
  forall w i, In (w, i) (items_of m (number 0 ds)) -> (N.of_nat i < 2 ^ 24)%N.
Proof.
  intros S m ds [_ [_ [H _]]]. apply items_idx. apply (number_idx S m). cbn [plus]. lia.
Qed.

Lemma read_cb_hit : forall (S : Type) ord m (ds : list (desc S)) cb r p d,
  permuting ord -> valid_description m ds -> new_codebook ord ds m = Ret (Okay cb) ->
  inv (reader_for m) r p -> In d ds -> used d ->
  window (bits_of (reader_for m) (buffer r)) p (d_bits d) = word m d ->
  p + d_bits d + 64 <= 8 * length (buffer r) -> (N.of_nat (8 * length (buffer r)) < W32)%N ->
  exists r', read_cb (reader_for m) cb r = Ret (r', Okay (d_sym d)) /\
    inv (reader_for m) r' (p + d_bits d) /\ buffer r' = buffer r.
Proof.
  intros S ord m ds cb r p d Hord Hv Hcb I Hd Hu Hw Hr H32.
  destruct (built S ord m ds cb Hord Hv Hcb) as [Hs [Hl [lo [hi Hsv]]]].
  apply In_nth_error in Hd. destruct Hd as [j Hj].
  assert (Lw : length (word m d) = d_bits d) by apply codeword_length.
  unfold read_cb. rewrite Hl. rewrite <- Lw.
  apply (decode_hit (reader_for m) cb 27 27 lo hi 0 _ r p (word m d) (rank ds j) (d_sym d) (le_n _) Hsv).
  - apply number_pf. apply Hv.
  - apply number_nonempty.
  - apply (valid_idx S m ds Hv).
  - exact I.
  - apply number_in. exists j, d. repeat split; assumption.
  - rewrite Hs. apply rank_sym; assumption.
  - rewrite Lw. exact Hw.
  - rewrite Lw. exact Hr.
  - exact H32.
Qed.

Lemma run_mixed_exact : forall (S : Type) ord m (ds : list (desc S)) cb,
  permuting ord -> valid_description m ds -> new_codebook ord ds m = Ret (Okay cb) ->
  forall steps r p, inv (reader_for m) r p -> 64 <= 8 * length (buffer r) ->
  (N.of_nat (8 * length (buffer r)) < W32)%N ->
  steps_within m ds (bits_of (reader_for m) (buffer r)) (8 * length (buffer r) - 64) p steps ->
  exists r', run_mixed (reader_for m) cb r steps =
      Ret (r', snd (spec_steps m (bits_of (reader_for m) (buffer r)) p steps)) /\
    inv (reader_for m) r' (fst (spec_steps m (bits_of (reader_for m) (buffer r)) p steps)) /\ buffer r' = buffer r.
Proof.
  intros S ord m ds cb Hord Hv Hcb. induction steps as [|[op|d] steps IH]; intros r p I Hlen H32 Hw.
  - exists r. split; [reflexivity|]. split; [exact I|reflexivity].
  - cbn [steps_within] in Hw. destruct Hw as [Hok [Hp Hw]].
    destruct (run_op_exact (reader_for m) r p op I Hok ltac:(lia)) as [r1 [E1 [I1 B1]]].
    cbn [run_mixed spec_steps]. rewrite E1. cbn [obind].
    destruct (spec_op (reader_for m) (bits_of (reader_for m) (buffer r)) p op) as [p1 o1] eqn:Es. cbn [fst snd] in *.
    rewrite <- B1 in Hw, Hlen, H32. destruct (IH r1 p1 I1 Hlen H32 Hw) as [r2 [E2 [I2 B2]]].
    rewrite E2. cbn [obind]. rewrite B1 in *.
    destruct (spec_steps m (bits_of (reader_for m) (buffer r)) p1 steps) as [p2 os]. cbn [fst snd] in *.
    exists r2. split; [reflexivity|]. split; [exact I2|congruence].
  - cbn [steps_within] in Hw. destruct Hw as [Hd [Hu [Hp [Hword Hw]]]].
    destruct (read_cb_hit S ord m ds cb r p d Hord Hv Hcb I Hd Hu Hword ltac:(lia) H32) as [r1 [E1 [I1 B1]]].
    cbn [run_mixed spec_steps]. rewrite E1. cbn [obind].
    rewrite <- B1 in Hw, Hlen, H32. destruct (IH r1 _ I1 Hlen H32 Hw) as [r2 [E2 [I2 B2]]].
    rewrite E2. cbn [obind]. rewrite B1 in *.
    destruct (spec_steps m (bits_of (reader_for m) (buffer r)) (p + d_bits d) steps) as [p2 os]. cbn [fst snd] in *.
    exists r2. split; [reflexivity|]. split; [exact I2|congruence].
Qed.

Lemma codebook_histories : forall (S : Type) ord m (ds : list (desc S)) cb buf steps,
  permuting ord -> valid_description m ds -> new_codebook ord ds m = Ret (Okay cb) ->
  bytes buf -> 8 <= length buf -> (N.of_nat (8 * length buf) < 2 ^ 32)%N ->
  steps_within m ds (bits_of (reader_for m) buf) (8 * length buf - 64) 0 steps ->
  exists r0 r, new (reader_for m) buf = Ret r0 /\
    run_mixed (reader_for m) cb r0 steps = Ret (r, snd (spec_steps m (bits_of (reader_for m) buf) 0 steps)) /\
    consumed r = Ret (fst (spec_steps m (bits_of (reader_for m) buf) 0 steps)).
Proof.
  intros S ord m ds cb buf steps Hord Hv Hcb Hb Hlen H32 Hw.
  destruct (new_inv (reader_for m) buf Hb) as [r0 [E0 [I0 B0]]].
  rewrite <- B0 in Hlen, H32, Hw.
  destruct (run_mixed_exact S ord m ds cb Hord Hv Hcb steps r0 0 I0 ltac:(lia) H32 Hw) as [r [E [I _]]].
  exists r0, r. rewrite <- B0 at 2 3. split; [exact E0|]. split; [exact E|]. apply (consumed_inv _ _ _ I).
Qed.

Lemma unknown_rejected : forall (S : Type) ord m (ds : list (desc S)) cb buf steps r0 r outs p,
  permuting ord -> valid_description m ds -> new_codebook ord ds m = Ret (Okay cb) ->
  bytes buf -> 8 <= length buf -> (N.of_nat (8 * length buf) < 2 ^ 32)%N ->
  steps_within m ds (bits_of (reader_for m) buf) (8 * length buf - 64) 0 steps ->
  new (reader_for m) buf = Ret r0 -> run_mixed (reader_for m) cb r0 steps = Ret (r, outs) ->
  p = fst (spec_steps m (bits_of (reader_for m) buf) 0 steps) ->
  (forall d, In d ds -> used d -> p + d_bits d + 64 <= 8 * length buf) ->
  (forall d, In d ds -> used d -> ~ is_prefix (word m d) (skipn p (bits_of (reader_for m) buf))) ->
  exists r', read_cb (reader_for m) cb r = Ret (r', Error InvalidCode).
Proof.
  intros S ord m ds cb buf steps r0 r outs p Hord Hv Hcb Hb Hlen H32 Hw E0 Er Hp Hfar Hno.
  destruct (new_inv (reader_for m) buf Hb) as [r0' [E0' [I0 B0]]]. rewrite E0 in E0'. injection E0' as <-.
  pose proof Hw as Hw'. rewrite <- B0 in Hlen, H32, Hw'.
  destruct (run_mixed_exact S ord m ds cb Hord Hv Hcb steps r0 0 I0 ltac:(lia) H32 Hw') as [r1 [E [I Br]]].
  rewrite Er in E. injection E as <- _. rewrite B0 in *. rewrite <- Hp in I.
  destruct (built S ord m ds cb Hord Hv Hcb) as [Hs [Hl [lo [hi Hsv]]]].
  unfold read_cb. rewrite Hl.
  destruct (codebook_used S ord m ds cb Hcb) as [d0 [Hd0 Hu0]].
  assert (Hin0 : exists i, In (word m d0, i) (items_of m (number 0 ds))).
  { apply In_nth_error in Hd0. destruct Hd0 as [j Hj]. exists (0 + rank ds j). apply number_in. exists j, d0. repeat split; assumption. }
  apply (decode_miss (reader_for m) cb 27 27 lo hi 0 _ r p (le_n _) Hsv).
  - destruct Hin0 as [i Hi]. intros E. rewrite E in Hi. destruct Hi.
  - apply (valid_idx S m ds Hv).
  - exact I.
  - intros w i Hin Hc. apply number_in in Hin. destruct Hin as [j [d [Hj [Hu [-> _]]]]].
    apply nth_error_In in Hj. apply (Hno d Hj Hu). apply prefix_firstn. unfold window in Hc. rewrite Br in Hc. exact Hc.
  - rewrite Br. 
    assert (Hm : maxl (items_of m (number 0 ds)) <= 8 * length buf - 64 - p).
    { apply maxl_le. intros w i Hin. apply number_in in Hin. destruct Hin as [j [d [Hj [Hu [-> _]]]]].
      apply nth_error_In in Hj. unfold word. rewrite codeword_length. pose proof (Hfar d Hj Hu). lia. }
    pose proof (Hfar d0 Hd0 Hu0). lia.
  - rewrite Br. exact H32.
Qed.

(** ** Packing *)

Lemma value_byte_bits : forall e l, length l = 8 -> byte_bits e (value e l) = l.
Proof.
  intros e l H.
  do 8 (destruct l as [|? l]; [discriminate H|]). destruct l; [|discriminate H].
  destruct e; repeat match goal with b : bool |- _ => destruct b end; reflexivity.
Qed.

Lemma pack_bits : forall e n l, length l = 8 * n -> bits_of e (pack e n l) = l.
Proof.
  intros e n. induction n as [|n IH]; intros l H.
  - destruct l; [reflexivity|discriminate].
  - cbn [pack]. unfold bits_of in *. cbn [flat_map]. rewrite value_byte_bits by (rewrite firstn_length; lia).
    rewrite IH by (rewrite skipn_length; lia). apply firstn_skipn.
Qed.

Lemma pack_length : forall e n l, length (pack e n l) = n.
Proof. intros e n. induction n as [|n IH]; intros l; cbn [pack length]; [reflexivity|]. rewrite IH. reflexivity. Qed.

Lemma pack_bytes : forall e n l, bytes (pack e n l).
Proof.
  intros e n. induction n as [|n IH]; intros l; cbn [pack]; [constructor|]. constructor; [|apply IH].
  unfold is_byte. eapply N.lt_le_trans; [apply value_bound|].
  change 256%N with (pow2 8). apply N.pow_le_mono_r; [lia|]. rewrite firstn_length. lia.
Qed.

Lemma message_steps : forall (S : Type) m (ds : list (desc S)) msg pre post limit,
  Forall (fun d => In d ds /\ used d) msg -> length pre + length (message_bits m msg) <= limit ->
  steps_within m ds (pre ++ message_bits m msg ++ post) limit (length pre) (map Codeword msg).
Proof.
  intros S m ds. induction msg as [|d msg IH]; intros pre post limit Hall Hlim; [exact I|].
  inversion_clear Hall as [|? ? [Hd Hu] Hall']. cbn [map steps_within].
  assert (Lw : length (word m d) = d_bits d) by apply codeword_length.
  unfold message_bits in Hlim. cbn [flat_map] in Hlim. rewrite app_length, Lw in Hlim.
  split; [exact Hd|]. split; [exact Hu|]. split; [lia|]. split.
  - unfold window, message_bits. cbn [flat_map]. rewrite skipn_app, skipn_all, Nat.sub_diag. cbn [skipn app].
    rewrite <- app_assoc, firstn_app, Lw, Nat.sub_diag, firstn_O, app_nil_r. rewrite <- Lw. apply firstn_all.
  - replace (pre ++ message_bits m (d :: msg) ++ post) with ((pre ++ word m d) ++ message_bits m msg ++ post).
    2:{ unfold message_bits. cbn [flat_map]. rewrite <- !app_assoc. reflexivity. }
    replace (length pre + d_bits d) with (length (pre ++ word m d)) by (rewrite app_length; lia).
    apply IH; [exact Hall'|]. rewrite app_length, Lw. unfold message_bits. lia.
Qed.

Lemma message_outputs : forall (S : Type) m l (msg : list (desc S)) p,
  spec_steps m l p (map Codeword msg) = (p + length (message_bits m msg), map (fun d => Sym (Okay (d_sym d))) msg).
Proof.
  intros S m l. induction msg as [|d msg IH]; intros p; cbn [map spec_steps].
  - cbn. rewrite Nat.add_0_r. reflexivity.
  - rewrite IH. unfold message_bits. cbn [flat_map]. rewrite app_length. unfold word at 2. rewrite codeword_length.
    f_equal. lia.
Qed.

Lemma message_round_trip : forall (S : Type) ord m (ds msg : list (desc S)) cb,
  permuting ord -> valid_description m ds -> new_codebook ord ds m = Ret (Okay cb) ->
  Forall (fun d => In d ds /\ used d) msg ->
  (N.of_nat (8 * length (encode m msg)) < 2 ^ 32)%N ->
  exists r0 r, new (reader_for m) (encode m msg) = Ret r0 /\
    run_mixed (reader_for m) cb r0 (map Codeword msg) = Ret (r, map (fun d => Sym (Okay (d_sym d))) msg) /\
    consumed r = Ret (length (message_bits m msg)).
Proof.
  intros S ord m ds msg cb Hord Hv Hcb Hmsg H32.
  set (l := message_bits m msg). set (n := (length l + 7) / 8 + 8).
  assert (Hbits : bits_of (reader_for m) (encode m msg) = l ++ repeat false (8 * n - length l)).
  { unfold encode. apply pack_bits. rewrite app_length, repeat_length. fold l n. lia. }
  assert (Hlen : length (encode m msg) = n) by apply pack_length.
  destruct (codebook_histories S ord m ds cb (encode m msg) (map Codeword msg) Hord Hv Hcb) as [r0 [r [E0 [E1 E2]]]].
  - apply pack_bytes.
  - rewrite Hlen. lia.
  - exact H32.
  - rewrite Hbits. apply (message_steps S m ds msg [] _ _ Hmsg). cbn [length plus]. fold l. rewrite Hlen. lia.
  - rewrite message_outputs in E1, E2. cbn [fst snd plus] in E1, E2. exists r0, r. split; [exact E0|]. split; assumption.
Qed.

(** ** Bounded caches *)

Definition cbound (r : reader) : Prop := bytes (buffer r) /\ (cache r < W64)%N.

Lemma cb_skip_rem : forall e r n, cbound r -> cbound (skip_rem e r n).
Proof.
  intros e r n [Hb Hc]. split; [rewrite skip_rem_buffer; exact Hb|].
  destruct e; cbn [skip_rem cache]; unfold checked_shr0, checked_shl0.
  - destruct (as_u32 n <? 64)%N; [|reflexivity]. pose proof (shiftr_le (cache r) (as_u32 n)). lia.
  - destruct (as_u32 n <? 64)%N; [|reflexivity]. apply N.mod_upper_bound. discriminate.
Qed.

Lemma slice_bytes : forall l a b s, bytes l -> slice l a b = Ret s -> bytes s.
Proof.
  intros l a b s Hb H. unfold slice in H. destruct ((a <=? b) && (b <=? length l)); [|discriminate].
  injection H as <-. unfold bytes in *. apply Forall_firstn_bytes || idtac.
  rewrite Forall_forall in *. intros x Hx. apply Hb.
  rewrite <- (firstn_skipn a l). apply in_or_app. right.
  rewrite <- (firstn_skipn (b - a) (skipn a l)). apply in_or_app. left. exact Hx.
Qed.

Lemma cb_refill64 : forall e r r', cbound r -> refill64 e r = Ret r' -> cbound r'.
Proof.
  intros e r r' [Hb Hc] H. unfold refill64 in H. destruct (can_refill r) eqn:Ec; cbn [negb] in H.
  - destruct (refill64_some e r Hb Ec) as [r1 [E [I _]]]. unfold refill64 in E. rewrite Ec in E. cbn [negb] in E.
    rewrite E in H. injection H as <-. apply inv_winv in I. split; apply I.
  - injection H as <-. split; assumption.
Qed.

Lemma shl64_bound : forall a n x, shl64 a n = Ret x -> (x < W64)%N.
Proof.
  intros a n x H. unfold shl64 in H. destruct (n <? 64); [|discriminate]. injection H as <-.
  apply N.mod_upper_bound. discriminate.
Qed.

Lemma cb_refill32 : forall e r r', cbound r -> refill32 e r = Ret r' -> cbound r'.
Proof.
  intros e r r' [Hb Hc] H. unfold refill32 in H. destruct (can_refill r); cbn [negb] in H.
  2:{ injection H as <-. split; assumption. }
  destruct (fill32 e r) as [v| |]; try discriminate. cbn [obind] in H.
  destruct (build_cache e (cache r) v (left r)) as [c| |] eqn:Eb; try discriminate. cbn [obind] in H.
  injection H as <-. split; [exact Hb|]. cbn [cache]. unfold build_cache in Eb. unfold W64 in *.
  destruct e.
  - destruct (shl64 v (left r)) as [x| |] eqn:Ex; try discriminate. cbn [obind] in Eb. injection Eb as <-.
    apply lor_bound; [exact Hc|]. apply (shl64_bound _ _ _ Ex).
  - destruct (csub 32 (left r)) as [k| |]; try discriminate. cbn [obind] in Eb.
    destruct (shl64 v k) as [x| |] eqn:Ex; try discriminate. cbn [obind] in Eb. injection Eb as <-.
    apply lor_bound; [exact Hc|]. apply (shl64_bound _ _ _ Ex).
Qed.

Lemma cb_get_val : forall e r n r' v, cbound r -> get_val e r n = Ret (r', v) -> cbound r'.
Proof.
  intros e r n r' v Hc H. unfold get_val in H. destruct (peek_val e r n); try discriminate.
  cbn [obind] in H. injection H as <- _. apply cb_skip_rem. exact Hc.
Qed.

Ltac inv_ret H := cbn [obind] in H; try discriminate H.

Lemma cb_get_bits_32 : forall e r n r' v, cbound r -> get_bits_32 e r n = Ret (r', v) -> cbound r'.
Proof.
  intros e r n r' v Hc H. unfold get_bits_32 in H. destruct (n =? 0); [injection H as <- _; exact Hc|].
  destruct (if left r <=? n then refill32 e r else Ret r) as [r1| |] eqn:E1; inv_ret H.
  assert (H1 : cbound r1).
  { destruct (left r <=? n); [apply (cb_refill32 e r); assumption|injection E1 as <-; exact Hc]. }
  destruct (get_val e r1 n) as [[r2 v2]| |] eqn:E2; inv_ret H. injection H as <- _.
  apply (cb_get_val _ _ _ _ _ H1 E2).
Qed.

Lemma cb_get_bits_64 : forall e r n r' v, cbound r -> get_bits_64 e r n = Ret (r', v) -> cbound r'.
Proof.
  intros e r n r' v Hc H. unfold get_bits_64 in H. destruct (n =? 0); [injection H as <- _; exact Hc|].
  destruct (left r <? n).
  - destruct (get_val e r (left r)) as [[r1 v1]| |] eqn:E1; inv_ret H. cbn in H.
    destruct (refill64 e r1) as [r2| |] eqn:E2; inv_ret H.
    destruct (get_val e r2 (n - left r)) as [[r3 v3]| |] eqn:E3; inv_ret H. cbn in H.
    destruct (merge_val e v3 v1 (left r) (n - left r)); inv_ret H. injection H as <- _.
    apply (cb_get_val _ _ _ _ _ (cb_refill64 _ _ _ (cb_get_val _ _ _ _ _ Hc E1) E2) E3).
  - destruct (get_val e r n) as [[r1 v1]| |] eqn:E1; inv_ret H. cbn in H.
    destruct (merge_val e v1 0 0 n); inv_ret H. injection H as <- _. apply (cb_get_val _ _ _ _ _ Hc E1).
Qed.

Lemma cb_get_bit : forall e r r' v, cbound r -> get_bit e r = Ret (r', v) -> cbound r'.
Proof.
  intros e r r' v Hc H. unfold get_bit in H.
  destruct (if left r =? 0 then refill64 e r else Ret r) as [r1| |] eqn:E1; inv_ret H.
  assert (H1 : cbound r1).
  { destruct (left r =? 0); [apply (cb_refill64 e r); assumption|injection E1 as <-; exact Hc]. }
  destruct (get_val e r1 1) as [[r2 v2]| |] eqn:E2; inv_ret H. injection H as <- _.
  apply (cb_get_val _ _ _ _ _ H1 E2).
Qed.

Lemma cb_skip_bits : forall e r n r', cbound r -> skip_bits e r n = Ret r' -> cbound r'.
Proof.
  intros e r n r' Hc H. unfold skip_bits in H. destruct (left r <? n).
  - destruct (if 64 <? n - left r
         then (mk_reader (buffer r) (index r + (n - left r) / 8) (cache r) (left r),
               n - left r - (n - left r) / 8 * 8) else (r, n - left r)) as [r1 n2] eqn:E1.
    assert (H1 : cbound r1) by (destruct (64 <? n - left r); injection E1 as <- _; exact Hc).
    destruct (refill64 e (skip_rem e r1 n2)) as [r3| |] eqn:E3; inv_ret H. injection H as <-.
    apply cb_skip_rem. apply (cb_refill64 _ _ _ (cb_skip_rem _ _ _ H1) E3).
  - injection H as <-. apply cb_skip_rem. exact Hc.
Qed.

Lemma cb_run_op : forall e r op r' o, cbound r -> run_op e r op = Ret (r', o) -> cbound r'.
Proof.
  intros e r op r' o Hc H. destruct op; cbn [run_op] in H.
  - destruct (get_bit e r) as [[r1 v]| |] eqn:E; inv_ret H. injection H as <- _. apply (cb_get_bit _ _ _ _ Hc E).
  - destruct (get_bits_32 e r n) as [[r1 v]| |] eqn:E; inv_ret H. injection H as <- _. apply (cb_get_bits_32 _ _ _ _ _ Hc E).
  - destruct (get_bits_64 e r n) as [[r1 v]| |] eqn:E; inv_ret H. injection H as <- _. apply (cb_get_bits_64 _ _ _ _ _ Hc E).
  - unfold peek_bit in H. destruct (get_bit e r) as [[r1 v]| |] eqn:E; inv_ret H. injection H as <- _. exact Hc.
  - unfold peek_bits_32 in H. destruct (get_bits_32 e r n) as [[r1 v]| |] eqn:E; inv_ret H. injection H as <- _. exact Hc.
  - unfold peek_bits_64 in H. destruct (get_bits_64 e r n) as [[r1 v]| |] eqn:E; inv_ret H. injection H as <- _. exact Hc.
  - destruct (skip_bits e r n) as [r1| |] eqn:E; inv_ret H. injection H as <- _. apply (cb_skip_bits _ _ _ _ Hc E).
  - unfold align_bits in H. destruct (skip_bits e r (left r mod 8)) as [r1| |] eqn:E; inv_ret H.
    injection H as <- _. apply (cb_skip_bits _ _ _ _ Hc E).
  - destruct (consumed r); inv_ret H. injection H as <- _. exact Hc.
  - destruct (available r); inv_ret H. injection H as <- _. exact Hc.
Qed.

Lemma cb_new : forall e buf r, bytes buf -> new e buf = Ret r -> cbound r.
Proof.
  intros e buf r Hb H. unfold new in H. apply (cb_refill64 e (mk_reader buf 0 0 0)); [|exact H].
  split; [exact Hb|reflexivity].
Qed.

Lemma cb_read_loop : forall (S : Type) (e : endian) (cb : codebook S) fuel r idx lb r' s, cbound r ->
  read_loop fuel e cb r idx lb = Ret (r', s) -> cbound r'.
Proof.
  intros S e cb. induction fuel as [|fuel IH]; intros r idx lb r' s Hc H; [discriminate|]. cbn [read_loop] in H.
  destruct (peek_bits_32 e r lb) as [[r0 v]| |] eqn:Ep; inv_ret H.
  destruct (index_at (cb_table cb) (N.to_nat (v + idx))) as [x| |]; inv_ret H.
  destruct (x =? TABLE_FILL_VALUE)%N; [injection H as <- _; exact Hc|].
  destruct (available r) as [a| |]; inv_ret H.
  destruct (N.of_nat a mod W32 <? N.land x 127)%N; [injection H as <- _; exact Hc|].
  destruct (skip_bits e r (if negb (N.land x 128 =? 0)%N then lb else N.to_nat (N.land x 127))) as [r1| |] eqn:Es; inv_ret H.
  apply cb_skip_bits in Es; [|exact Hc].
  destruct (N.land x 128 =? 0)%N; cbn [negb] in H.
  - destruct (index_at (cb_syms cb) (N.to_nat (N.shiftr x 8))); inv_ret H. injection H as <- _. exact Es.
  - apply (IH _ _ _ _ _ Es H).
Qed.

(** The peeked value always fits. *)
Lemma peek_bound : forall e r n r' v, cbound r -> n <= 32 -> peek_bits_32 e r n = Ret (r', v) -> (v < pow2 n)%N.
Proof.
  intros e r n r' v Hc Hn H. unfold peek_bits_32, get_bits_32 in H.
  destruct (Nat.eqb_spec n 0) as [->|Hn0]; [injection H as _ <-; reflexivity|].
  destruct (if left r <=? n then refill32 e r else Ret r) as [r1| |] eqn:E1; inv_ret H.
  assert (H1 : cbound r1).
  { destruct (left r <=? n); [apply (cb_refill32 e r); assumption|injection E1 as <-; exact Hc]. }
  unfold get_val in H. destruct (peek_val e r1 n) as [x| |] eqn:Ex; inv_ret H. injection H as _ <-.
  assert (Hx : (x < pow2 n)%N).
  { unfold peek_val in Ex. rewrite as_u32_small in Ex by lia. destruct e.
    - injection Ex as <-. unfold checked_shl0, wrapping_sub.
      destruct (N.ltb_spec (N.of_nat n) 64); [|lia]. rewrite N.shiftl_1_l.
      assert (Hp : (pow2 n < W64)%N) by (unfold W64; apply N.pow_lt_mono_r; lia).
      pose proof (pow2_pos n). rewrite (N.mod_small (pow2 n)) by exact Hp.
      replace (pow2 n + W64 - 1)%N with (pow2 n - 1 + 1 * W64)%N by lia.
      rewrite N.mod_add by discriminate. rewrite N.mod_small by lia. rewrite land_mask.
      apply N.mod_upper_bound. lia.
    - destruct (N.leb_spec (N.of_nat n) 64); [|lia].
      assert (Ex' : checked_shr0 (cache r1) (64 - N.of_nat n) = x) by congruence. rewrite <- Ex'. unfold checked_shr0.
      destruct (N.ltb_spec (64 - N.of_nat n) 64); [|lia]. rewrite N.shiftr_div_pow2.
      apply N.div_lt_upper_bound; [apply N.pow_nonzero; lia|]. rewrite <- N.pow_add_r.
      replace (64 - N.of_nat n + N.of_nat n)%N with 64%N by lia. apply H1. }
  eapply N.le_lt_trans; [apply N.mod_le; discriminate|exact Hx].
Qed.

(** ** Independence of the iteration order *)

Lemma read_loop_same : forall (S : Type) (cb1 cb2 : codebook S) e et, cb_syms cb1 = cb_syms cb2 ->
  forall d fuel lo1 hi1 o1 lo2 hi2 o2 B r,
  serves d et (cb_table cb1) lo1 hi1 o1 B -> serves d et (cb_table cb2) lo2 hi2 o2 B -> lpf B ->
  (forall w i, In (w, i) B -> (N.of_nat i < 2 ^ 24)%N) -> cbound r ->
  read_loop fuel e cb1 r (N.of_nat o1) (lbits B) = read_loop fuel e cb2 r (N.of_nat o2) (lbits B).
Proof.
  intros S cb1 cb2 e et Hsym. induction d as [|d IH]; intros fuel lo1 hi1 o1 lo2 hi2 o2 B r S1 S2 Hpf Hidx Hc; [destruct S1|].
  destruct fuel as [|fuel]; [reflexivity|]. cbn [read_loop].
  assert (HL : lbits B <= 10) by (unfold lbits; lia).
  destruct (peek_bits_32 e r (lbits B)) as [[r0 v]| |] eqn:Ep; cbn [obind]; try reflexivity.
  pose proof (peek_bound e r (lbits B) r0 v Hc ltac:(lia) Ep) as Hv.
  destruct (value_surj et v (lbits B) Hv) as [u [Lu Eu]].
  replace (N.to_nat (v + N.of_nat o1)) with (slot et o1 u) by (unfold slot; lia).
  replace (N.to_nat (v + N.of_nat o2)) with (slot et o2 u) by (unfold slot; lia).
  destruct (S1 u Lu) as [x1 [N1 C1]]. destruct (S2 u Lu) as [x2 [N2 C2]].
  rewrite (index_nth _ _ _ _ N1), (index_nth _ _ _ _ N2). cbn [obind]. rewrite Hsym.
  destruct C1 as [[w1 [i1 [In1 [Lw1 [Pw1 ->]]]]]|[[Hs1 [q1 [_ [_ [Q1 [-> V1]]]]]]|[-> [Hs1 Hn1]]]];
  destruct C2 as [[w2 [i2 [In2 [Lw2 [Pw2 ->]]]]]|[[Hs2 [q2 [_ [_ [Q2 [-> V2]]]]]]|[-> [Hs2 Hn2]]]].
  - assert (w1 = w2 /\ i1 = i2) as [-> ->].
    { apply (lastin_unique w1 i1 w2 i2 u B); assumption. }
    apply lastin_in in In2. destruct (lut_entry_fields (N.of_nat i2) (length w2) (Hidx _ _ In2) Lw2) as [_ [_ [F3 _]]].
    rewrite F3. reflexivity.
  - exfalso. apply lastin_in in In1. exact (no_short_levels u B w1 i1 Hpf Hs2 In1 Lw1 Pw1).
  - exfalso. apply lastin_in in In1. exact (Hn2 w1 i1 In1 Lw1 Pw1).
  - exfalso. apply lastin_in in In2. exact (no_short_levels u B w2 i2 Hpf Hs1 In2 Lw2 Pw2).
  - assert (Hlb : lbits (sub u B) <= 10) by (unfold lbits; lia).
    destruct (esc_entry_fields (N.of_nat q1) _ Q1 Hlb) as [F1 [F2 [F3 F4]]].
    destruct (esc_entry_fields (N.of_nat q2) _ Q2 Hlb) as [G1 [G2 [G3 G4]]].
    rewrite F1, F2, F3, F4, G1, G2, G3, G4. cbn [negb].
    destruct (available r) as [a| |]; cbn [obind]; try reflexivity.
    destruct (N.of_nat a mod W32 <? N.of_nat (lbits (sub u B)))%N; [reflexivity|].
    destruct (skip_bits e r (lbits B)) as [r1| |] eqn:Es; cbn [obind]; try reflexivity.
    rewrite Nnat.Nat2N.id.
    apply (IH fuel lo1 hi1 q1 lo2 hi2 q2 (sub u B) r1 V1 V2 (lpf_sub u B Hpf)).
    + intros w i Hin. apply sub_in in Hin. apply (Hidx (u ++ w)). apply Hin.
    + apply (cb_skip_bits _ _ _ _ Hc Es).
  - congruence.
  - exfalso. apply lastin_in in In2. exact (Hn1 w2 i2 In2 Lw2 Pw2).
  - congruence.
  - reflexivity.
Qed.

Lemma order_levels : forall (S : Type) ord1 ord2 m (ds : list (desc S)) cb1 cb2 e buf r0 steps,
  permuting ord1 -> permuting ord2 -> codes_fit m ds -> same_level m ds -> small_enough m ds ->
  new_codebook ord1 ds m = Ret (Okay cb1) -> new_codebook ord2 ds m = Ret (Okay cb2) ->
  bytes buf -> new e buf = Ret r0 ->
  run_mixed e cb1 r0 steps = run_mixed e cb2 r0 steps.
Proof.
  intros S ord1 ord2 m ds cb1 cb2 e buf r0 steps Ho1 Ho2 Hf Hlv Hsm H1 H2 Hb Hr.
  destruct (built_levels S ord1 m ds cb1 Ho1 Hf Hlv Hsm H1) as [A1 [A2 [lo1 [hi1 A3]]]].
  destruct (built_levels S ord2 m ds cb2 Ho2 Hf Hlv Hsm H2) as [B1 [B2 [lo2 [hi2 B3]]]].
  assert (Hcb : forall r, cbound r -> read_cb e cb1 r = read_cb e cb2 r).
  { intros r Hc. unfold read_cb. rewrite A2, B2.
    apply (read_loop_same S cb1 cb2 e (reader_for m) ltac:(congruence) 27 27 lo1 hi1 0 lo2 hi2 0 _ r A3 B3).
    - apply number_lpf. exact Hlv.
    - apply (small_idx_items S m ds Hsm).
    - exact Hc. }
  apply cb_new in Hr; [|exact Hb]. clear Hb. revert r0 Hr. induction steps as [|[op|d] steps IH]; intros r Hc; [reflexivity| |].
  - cbn [run_mixed]. destruct (run_op e r op) as [[r1 o]| |] eqn:Eo; cbn [obind]; try reflexivity.
    rewrite (IH r1 (cb_run_op _ _ _ _ _ Hc Eo)). reflexivity.
  - cbn [run_mixed]. rewrite <- (Hcb r Hc). destruct (read_cb e cb1 r) as [[r1 s]| |] eqn:Eo; cbn [obind]; try reflexivity.
    rewrite (IH r1 (cb_read_loop _ _ _ _ _ _ _ _ _ Hc Eo)). reflexivity.
Qed.

Lemma order_independent : forall (S : Type) ord1 ord2 m (ds : list (desc S)) cb1 cb2 e buf r0 steps,
  permuting ord1 -> permuting ord2 -> valid_description m ds ->
  new_codebook ord1 ds m = Ret (Okay cb1) -> new_codebook ord2 ds m = Ret (Okay cb2) ->
  bytes buf -> new e buf = Ret r0 ->
  run_mixed e cb1 r0 steps = run_mixed e cb2 r0 steps.
Proof.
  intros S ord1 ord2 m ds cb1 cb2 e buf r0 steps Ho1 Ho2 [Hf [Hp Hs]].
  apply (order_levels S ord1 ord2 m ds); try assumption. apply prefix_free_level. exact Hp.
Qed.

(** The construction succeeds or fails independently of the order as well. *)
Lemma construction_total : forall (S : Type) ord m (ds : list (desc S)), permuting ord -> valid_description m ds ->
  ((exists d, In d ds /\ used d) -> exists cb, new_codebook ord ds m = Ret (Okay cb)) /\
  ((forall d, In d ds -> ~ used d) -> new_codebook ord ds m = Ret (Error InvalidCodebook)).
Proof.
  intros S ord m ds Ho Hv. split.
  - intros Hu. destruct (new_codebook_ok S ord m ds Ho Hv Hu) as [cb [lo [hi [E _]]]]. exists cb. exact E.
  - apply new_codebook_empty.
Qed.

(** ** Codebooks without escapes *)

Lemma short_read : forall (S : Type) ord m (ds : list (desc S)) cb e r,
  permuting ord -> valid_description m ds -> new_codebook ord ds m = Ret (Okay cb) ->
  (forall d, In d ds -> d_bits d <= 10) -> cbound r ->
  forall r' res, read_cb e cb r = Ret (r', res) ->
  match res with
  | Okay s => exists d a, In d ds /\ used d /\ s = d_sym d /\ available r = Ret a /\ d_bits d <= a
  | Error err => err = InvalidCode /\ r' = r
  end.
Proof.
  intros S ord m ds cb e r Hord Hv Hcb Hsh Hc r' res H.
  destruct (built S ord m ds cb Hord Hv Hcb) as [Hs [Hl [lo [hi Hsv]]]].
  set (B := items_of m (number 0 ds)) in *.
  assert (Hno : forall u, sub u B = []).
  { intros u. destruct (sub u B) as [|x0 rest0] eqn:E; [reflexivity|]. exfalso.
    assert (Hn : sub u B <> []) by (rewrite E; discriminate). apply in_sub_long in Hn.
    assert (maxl B <= 10); [|lia]. apply maxl_le. intros w i Hin. apply number_in in Hin.
    destruct Hin as [j [d [Hj [_ [-> _]]]]]. unfold word. rewrite codeword_length. apply Hsh.
    apply nth_error_In in Hj. exact Hj. }
  unfold read_cb in H. rewrite Hl in H. cbn [read_loop] in H.
  assert (HL : lbits B <= 10) by (unfold lbits; lia).
  destruct (peek_bits_32 e r (lbits B)) as [[r0 v]| |] eqn:Ep; inv_ret H.
  pose proof (peek_bound e r (lbits B) r0 v Hc ltac:(lia) Ep) as Hvb.
  destruct (value_surj (reader_for m) v (lbits B) Hvb) as [u [Lu Eu]].
  replace (N.to_nat (v + 0)) with (slot (reader_for m) 0 u) in H by (unfold slot; lia).
  destruct (Hsv u Lu) as [x [Nx C]]. rewrite (index_nth _ _ _ _ Nx) in H. cbn [obind] in H.
  destruct C as [[w [i [Hin [Lw [Pw ->]]]]]|[[Hs1 _]|[-> _]]].
  - apply lastin_in in Hin. destruct (lut_entry_fields (N.of_nat i) (length w) (valid_idx S m ds Hv w i Hin) Lw) as [F1 [F2 [F3 F4]]].
    rewrite F1, F2, F3, F4 in H. cbn [negb] in H.
    destruct (available r) as [a| |] eqn:Ea; inv_ret H.
    destruct (N.ltb_spec (N.of_nat a mod W32) (N.of_nat (length w))) as [Hlt|Hge].
    + injection H as <- <-. split; reflexivity.
    + rewrite !Nnat.Nat2N.id in H.
      destruct (skip_bits e r (length w)) as [r1| |] eqn:Es; inv_ret H.
      apply number_in in Hin. destruct Hin as [j [d [Hj [Hu [-> ->]]]]].
      rewrite Hs in H. cbn [plus] in H. rewrite (index_nth _ _ _ _ (rank_sym S ds j d Hj Hu)) in H. cbn [obind] in H.
      injection H as <- <-. exists d, a. apply nth_error_In in Hj. split; [exact Hj|]. split; [exact Hu|].
      split; [reflexivity|]. split; [reflexivity|]. unfold word in Hge. rewrite codeword_length in Hge.
      pose proof (N.mod_le (N.of_nat a) W32 ltac:(discriminate)). lia.
  - rewrite Hno in Hs1. congruence.
  - rewrite N.eqb_refl in H. injection H as <- <-. split; reflexivity.
Qed.

Lemma short_read_history : forall (S : Type) ord m (ds : list (desc S)) cb e buf r0 steps r outs r' res,
  permuting ord -> valid_description m ds -> new_codebook ord ds m = Ret (Okay cb) ->
  (forall d, In d ds -> d_bits d <= 10) -> bytes buf -> new e buf = Ret r0 ->
  run_mixed e cb r0 steps = Ret (r, outs) -> read_cb e cb r = Ret (r', res) ->
  match res with
  | Okay s => exists d a, In d ds /\ used d /\ s = d_sym d /\ available r = Ret a /\ d_bits d <= a
  | Error err => err = InvalidCode /\ r' = r
  end.
Proof.
  intros S ord m ds cb e buf r0 steps r outs r' res Hord Hv Hcb Hsh Hb Hr Hrun Hread.
  assert (Hc : cbound r).
  { apply cb_new in Hr; [|exact Hb]. revert r0 outs Hr Hrun. induction steps as [|[op|d] steps IH]; intros r0 outs Hc Hrun; cbn [run_mixed] in Hrun.
    - injection Hrun as <- _. exact Hc.
    - destruct (run_op e r0 op) as [[r1 o]| |] eqn:Eo; inv_ret Hrun.
      destruct (run_mixed e cb r1 steps) as [[r2 os]| |] eqn:E2; inv_ret Hrun. injection Hrun as <- _.
      apply (IH r1 os); [apply (cb_run_op _ _ _ _ _ Hc Eo)|exact E2].
    - destruct (read_cb e cb r0) as [[r1 s]| |] eqn:Eo; inv_ret Hrun.
      destruct (run_mixed e cb r1 steps) as [[r2 os]| |] eqn:E2; inv_ret Hrun. injection Hrun as <- _.
      apply (IH r1 os); [apply (cb_read_loop _ _ _ _ _ _ _ _ _ Hc Eo)|exact E2]. }
  exact (short_read S ord m ds cb e r Hord Hv Hcb Hsh Hc r' res Hread).
Qed.

(** ** [reverse_bits] *)

Lemma rev_nibble : forall a b c d, index_at rev_tab (N.to_nat (value_le [a; b; c; d])) = Ret (value_be [a; b; c; d]).
Proof. intros [] [] [] []; reflexivity. Qed.

Lemma reverse_loop_spec : forall k l ret, length l = 4 * k -> (ret * pow2 (4 * k) + value_be l < W32)%N ->
  reverse_loop k ret (value_le l) = Ret (ret * pow2 (4 * k) + value_be l)%N.
Proof.
  induction k as [|k IH]; intros l ret Hl Hb.
  - destruct l; [|discriminate]. cbn [reverse_loop]. change (pow2 (4 * 0)) with 1%N. cbn. f_equal. lia.
  - destruct l as [|a [|b [|c [|d l]]]]; cbn [length] in Hl; try lia.
    change (a :: b :: c :: d :: l) with ([a; b; c; d] ++ l) in *.
    cbn [reverse_loop].
    assert (Hlow : (value_le [a; b; c; d] < 16)%N) by apply (value_bound LE [a; b; c; d]).
    assert (Hhi : (value_be [a; b; c; d] < 16)%N) by apply (value_bound BE [a; b; c; d]).
    assert (E1 : N.land (value_le ([a; b; c; d] ++ l)) 15 = value_le [a; b; c; d]).
    { change 15%N with (N.ones 4). rewrite N.land_ones, value_le_app. change (pow2 (length [a; b; c; d])) with (2 ^ 4)%N.
      rewrite N.mul_comm, N.mod_add by discriminate. apply N.mod_small. exact Hlow. }
    assert (E2 : N.shiftr (value_le ([a; b; c; d] ++ l)) 4 = value_le l).
    { rewrite N.shiftr_div_pow2, value_le_app. change (pow2 (length [a; b; c; d])) with (2 ^ 4)%N.
      rewrite N.mul_comm, N.div_add by discriminate. rewrite N.div_small by exact Hlow. reflexivity. }
    rewrite E1, E2, rev_nibble. cbn [obind].
    assert (Hk : length l = 4 * k) by lia.
    rewrite value_be_app, Hk in Hb |- *.
    replace (4 * S k) with (4 + 4 * k) in * by lia. rewrite pow2_add in *. change (pow2 4) with 16%N in *.
    pose proof (pow2_pos (4 * k)) as Hp. set (P := pow2 (4 * k)) in *.
    set (x := value_be [a; b; c; d]) in *. set (y := value_be l) in *.
    assert (E3 : N.lor (N.shiftl ret 4 mod W32) x = (ret * 16 + x)%N).
    { rewrite N.shiftl_mul_pow2. change (2 ^ 4)%N with 16%N.
      rewrite N.mod_small by nia. rewrite N.lor_comm. change 16%N with (pow2 4) at 1.
      rewrite lor_disjoint by exact Hhi. change (pow2 4) with 16%N. lia. }
    assert (E4 : ((ret * 16 + x) * P + y = ret * (16 * P) + (x * P + y))%N) by ring.
    rewrite E3, IH; fold P y; rewrite ?E4; [reflexivity|exact Hk|exact Hb].
Qed.

Lemma testbit_value_le : forall l i, N.testbit (value_le l) (N.of_nat i) = nth i l false.
Proof.
  induction l as [|b l IH]; intros i.
  - cbn [value_le nth]. rewrite N.bits_0. destruct i; reflexivity.
  - cbn [value_le]. rewrite N.add_comm. destruct i as [|i].
    + change (N.of_nat 0) with 0%N. rewrite N.testbit_0_r. reflexivity.
    + replace (N.of_nat (S i)) with (N.succ (N.of_nat i)) by lia. rewrite N.testbit_succ_r. apply IH.
Qed.

Lemma reverse_bits_spec : forall x, (x < 2 ^ 32)%N ->
  exists y, reverse_bits x = Ret y /\ (y < 2 ^ 32)%N /\
    (forall i, (i < 32)%N -> N.testbit y i = N.testbit x (31 - i)) /\ reverse_bits y = Ret x.
Proof.
  intros x Hx. destruct (value_surj LE x 32 Hx) as [l [Hl El]]. cbn [value] in El. subst x.
  assert (G : forall l, length l = 32 -> reverse_bits (value_le l) = Ret (value_be l)).
  { intros l0 H0. unfold reverse_bits. rewrite reverse_loop_spec; [f_equal; lia|lia|].
    pose proof (value_bound BE l0) as Hb. rewrite H0 in Hb. exact Hb. }
  exists (value_be l). split; [apply G; exact Hl|]. split.
  - pose proof (value_bound BE l) as Hb. rewrite Hl in Hb. exact Hb.
  - assert (E : value_be l = value_le (rev l)) by (rewrite <- value_be_rev, rev_involutive; reflexivity).
    rewrite E. split.
    + intros i Hi. rewrite <- (Nnat.N2Nat.id i). replace (31 - N.of_nat (N.to_nat i))%N with (N.of_nat (31 - N.to_nat i)) by lia.
      rewrite !testbit_value_le, rev_nth by lia. f_equal. lia.
    + rewrite G by (rewrite rev_length; exact Hl). rewrite value_be_rev. reflexivity.
Qed.

(** ** Buffers of 2^29 bytes *)

Lemma huge_buffer : forall e buf, bytes buf -> N.of_nat (length buf) = (2 ^ 29)%N ->
  exists r, new e buf = Ret r /\
    read_cb e (mk_codebook [1; 257]%N [0; 1] 1) r = Ret (r, Error InvalidCode).
Proof.
  intros e buf Hb Hlen. destruct (new_inv e buf Hb) as [r [E [I B]]]. exists r. split; [exact E|].
  unfold read_cb. cbn [read_loop cb_table cb_lut_bits].
  destruct (peek_result e r 0 1 I ltac:(lia)) as [k [Ep _]]. rewrite Ep. cbn [obind].
  set (v := value e _). assert (Hv : (v < 2)%N).
  { pose proof (peek_bound e r 1 r v) as Hpb. apply Hpb; [|lia|exact Ep].
    apply inv_winv in I. split; apply I. }
  rewrite (available_inv e r 0 I), B. cbn [obind].
  assert (Ha : (N.of_nat (8 * length buf - 0) mod W32 = 0)%N).
  { replace (N.of_nat (8 * length buf - 0)) with (8 * N.of_nat (length buf))%N by lia. rewrite Hlen. reflexivity. }
  rewrite Ha.
  assert (v = 0 \/ v = 1)%N as [->| ->] by lia; reflexivity.
Qed.
