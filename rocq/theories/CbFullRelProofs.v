(** Descriptions with any codewords in a build without overflow checks. *)
From Coq Require Import List Arith NArith ZArith Bool Lia Permutation.
From Coq Require Import ZifyBool ZifyNat ZifyN.
From Verif Require Import Base BitModel BitSpec BitQueueSpec BitQueueProofs WordBitModel WordSpec WordBitProofs ReleaseModel ReleaseBitModel ReleaseBitSpec
  ReleaseBitProofs CodebookModel CodebookSpec CodebookProofs CodebookProofs2 CodebookProofs3 CodebookProofs4 CodebookProofs5 CbQueueSpec CbQueueProofs
  ReleaseCbModel ReleaseCbSpec ReleaseCbProofs ReleaseCbProofs2 CbLevelSpec CbLevelProofs CbShadowSpec CbFullSpec CbFullProofs CbFullRelSpec.
Import ListNotations.
Local Open Scope N_scope.
Ltac Zify.zify_post_hook ::= Z.div_mod_to_equations.

Lemma rc_loop_any : forall (S : Type) (cb : codebook S) e m buf, bytes buf ->
  forall rounds d fuel lo hi off B codes r q, (rounds <= fuel)%nat -> N.of_nat off < 2 ^ 24 ->
  decides d false (reader_for m) (cb_table cb) lo hi off B -> matching (cb_syms cb) B codes -> nonempty B -> B <> [] ->
  (maxl B <= 10 * rounds)%nat -> small_items B -> rep e buf r q -> fine r ->
  budget r (N.of_nat (16 * rounds)) ->
  exists r', rc_read_loop fuel e cb (word_reader r) (N.of_nat off) (lbits B)
      = Ret (word_reader r', sym_result (snd (rq_decode_any rounds e m (bits_of e buf) q codes))) /\
    rep e buf r' (fst (rq_decode_any rounds e m (bits_of e buf) q codes)) /\ fine r' /\
    N.of_nat (index r') <= N.of_nat (Nat.max (index r) (length buf)) + N.of_nat (2 * rounds).
Proof.
  intros S cb e m buf Hb. induction rounds as [|rounds IH];
    intros d fuel lo hi off B codes r q Hf Hoff Hs Hm Hnw Hne Hmax Hidx R F Bu.
  - exfalso. destruct B as [|[w i] B]; [congruence|]. specialize (Hnw w i (or_introl eq_refl)).
    pose proof (maxl_in ((w, i) :: B) w i (or_introl eq_refl)). destruct w; [congruence|cbn in *; lia].
  - destruct d as [|d]; [destruct Hs|]. destruct fuel as [|fuel]; [lia|]. cbn [rc_read_loop rq_decode_any]. cbv zeta.
    assert (Eb : buffer r = buf) by (destruct R; assumption).
    assert (B0 : budget r 0) by (unfold budget in *; lia).
    assert (Stay : rep e buf r q /\ fine r /\ N.of_nat (index r) <= N.of_nat (Nat.max (index r) (length buf)) + N.of_nat (2 * Datatypes.S rounds)).
    { split; [exact R|]. split; [exact F|]. lia. }
    rewrite (matching_look _ _ _ _ Hm).
    assert (HL : (lbits B <= 10)%nat) by (unfold lbits; lia).
    destruct (rpeek_rep e buf r q (lbits B) Hb R F B0 ltac:(lia)) as [rp ->]. cbn [obind].
    set (u0 := snd (q_get32 (bits_of e buf) q (lbits B))).
    set (u := as_written e m u0).
    assert (Lu : length u = lbits B) by (unfold u, u0; rewrite as_written_length, q_get32_length; reflexivity).
    rewrite (value_as_written e m u0). fold u.
    assert (Hv : value (reader_for m) u < 1024) by (apply value_small; lia).
    unfold radd. rewrite N.mod_small by (change (2 ^ 24) with 16777216 in Hoff; rewrite W64_eq; lia).
    replace (N.to_nat (value (reader_for m) u + N.of_nat off)) with (slot (reader_for m) off u) by (unfold slot; lia).
    destruct (Hs u Lu) as [x [Nx C]]. rewrite (index_nth _ _ _ _ Nx). cbn [obind].
    pose proof (matching_longer _ _ _ _ u Hm) as Hml. unfold in_table.
    destruct C as [[Htop [w [i [Hin [Lw [Pw ->]]]]]]|[[Hs1 [_ [o [_ [_ [Ho [-> V]]]]]]]|[-> [Hs1 Hno]]]].
    + (* a codeword of at most ten bits *)
      pose proof Hin as Hla. apply lastin_in in Hin.
      destruct (lut_entry_fields (N.of_nat i) (length w) (Hidx w i Hin) Lw) as [F1 [F2 [F3 F4]]].
      rewrite F1, F2, F3, F4. cbn [negb].
      destruct (lastin_complete _ _ _ _ w i u Hm Hla Lw Pw) as [s [rest [-> Hsym]]].
      rewrite (proj1 (matching_nil _ _ _ _ Hml) (Htop eq_refl)).
      rewrite (ravail_rep e buf r q (length w) R F B0). destruct (renough (bits_of e buf) q (length w)); cbn [negb fst snd sym_result].
      * destruct (rskip_rep e buf r q (length w) Hb R F ltac:(unfold budget in *; lia)) as [r' [Er [R' [F' Hi]]]].
        rewrite Er. cbn [obind]. rewrite Nnat.Nat2N.id, (index_nth _ _ _ _ Hsym). cbn [obind]. exists r'. split; [reflexivity|].
        split; [exact R'|]. split; [exact F'|]. lia.
      * exists r. split; [reflexivity|exact Stay].
    + (* an escape *)
      assert (Hlb : (lbits (sub u B) <= 10)%nat) by (unfold lbits; lia).
      destruct (esc_entry_fields (N.of_nat o) _ Ho Hlb) as [F1 [F2 [F3 F4]]].
      rewrite F1, F2, F3, F4. cbn [negb].
      assert (Hln : longer u codes <> []) by (intros E; apply (matching_nil _ _ _ _ Hml) in E; congruence).
      assert (Elook : look_ahead (longer u codes) = lbits (sub u B)) by apply (matching_look _ _ _ _ Hml).
      rewrite (ravail_rep e buf r q (lbits (sub u B)) R F B0).
      destruct (rskip_rep e buf r q (lbits B) Hb R F ltac:(unfold budget in *; lia)) as [r' [Er [R' [F' Hi]]]].
      assert (G : exists r2, rc_read_loop fuel e cb (word_reader r') (N.of_nat o) (lbits (sub u B))
          = Ret (word_reader r2, sym_result (snd (rq_decode_any rounds e m (bits_of e buf) (q_skip (bits_of e buf) q (lbits B)) (longer u codes)))) /\
        rep e buf r2 (fst (rq_decode_any rounds e m (bits_of e buf) (q_skip (bits_of e buf) q (lbits B)) (longer u codes))) /\ fine r2 /\
        N.of_nat (index r2) <= N.of_nat (Nat.max (index r') (length buf)) + N.of_nat (2 * rounds)).
      { apply (IH d fuel lo hi o (sub u B) (longer u codes) r' _ ltac:(lia) Ho V Hml (nonempty_sub u B) Hs1).
        - pose proof (maxl_sub u B). lia.
        - apply small_sub. exact Hidx.
        - exact R'.
        - exact F'.
        - assert (Eb' : buffer r' = buf) by (destruct R'; assumption). unfold budget in *. rewrite Eb, Eb' in *. lia. }
      destruct (longer u codes) as [|c cs] eqn:El; [congruence|]. rewrite Elook.
      destruct (renough (bits_of e buf) q (lbits (sub u B))); cbn [negb fst snd sym_result].
      * rewrite Er. cbn [obind]. rewrite Nnat.Nat2N.id. destruct G as [r2 [G1 [G2 [G3 G4]]]]. exists r2. split; [exact G1|].
        split; [exact G2|]. split; [exact G3|]. lia.
      * exists r. split; [reflexivity|exact Stay].
    + (* nothing *)
      rewrite N.eqb_refl, (complete_none _ _ _ _ u Hm Hno), (proj1 (matching_nil _ _ _ _ Hml) Hs1).
      exists r. split; [reflexivity|exact Stay].
Qed.

Lemma rc_read_full : forall (S : Type) m (ds : list (desc S)) ks cb e buf r q,
  full_table m ds ks cb -> bytes buf -> rep e buf r q -> fine r -> budget r 416 ->
  exists r', rc_read_cb e cb (word_reader r) = Ret (word_reader r', sym_result (snd (rq_decode_full ks e m (bits_of e buf) q (all_codes m ds)))) /\
    rep e buf r' (fst (rq_decode_full ks e m (bits_of e buf) q (all_codes m ds))) /\ fine r' /\
    N.of_nat (index r') <= N.of_nat (Nat.max (index r) (length buf)) + 52.
Proof.
  intros S m ds ks cb e buf r q [Hsy [Hl Hent]] Hb R F Bu. unfold rc_read_cb. rewrite Hl.
  set (B := items_of m (number 0 ds)) in *. change 27%nat with (Datatypes.S 26). cbn [rc_read_loop]. unfold rq_decode_full. cbv zeta.
  assert (Eb : buffer r = buf) by (destruct R; assumption).
  assert (B0 : budget r 0) by (unfold budget in *; lia).
  assert (Stay : rep e buf r q /\ fine r /\ N.of_nat (index r) <= N.of_nat (Nat.max (index r) (length buf)) + 52).
  { split; [exact R|]. split; [exact F|]. lia. }
  assert (Hm : matching (used_syms ds) B (all_codes m ds)).
  { apply numbered_matching. intros j d Hj. unfold used_syms. rewrite Nat.add_0_l. apply (map_nth_error d_sym). exact Hj. }
  rewrite (matching_look _ _ _ _ Hm).
  assert (HL : (lbits B <= 10)%nat) by (unfold lbits; lia).
  destruct (rpeek_rep e buf r q (lbits B) Hb R F B0 ltac:(lia)) as [rp ->]. cbn [obind].
  set (u0 := snd (q_get32 (bits_of e buf) q (lbits B))).
  set (u := as_written e m u0).
  assert (Lu : length u = lbits B) by (unfold u, u0; rewrite as_written_length, q_get32_length; reflexivity).
  rewrite (value_as_written e m u0). fold u.
  assert (Hv : value (reader_for m) u < 1024) by (apply value_small; lia).
  unfold radd. rewrite N.mod_small by (rewrite W64_eq; lia).
  replace (N.to_nat (value (reader_for m) u + 0)) with (slot (reader_for m) 0 u) by (unfold slot; lia).
  destruct (Hent u Lu) as [x [Nx C]]. rewrite (index_nth _ _ _ _ Nx). cbn [obind].
  destruct (in_full m ks (all_codes m ds) u) as [|n s|rest]; cbn [ent] in C.
  - rewrite C, N.eqb_refl. exists r. split; [reflexivity|exact Stay].
  - destruct C as [i [-> [Hn [Hi Hsym]]]].
    destruct (lut_entry_fields (N.of_nat i) n Hi Hn) as [F1 [F2 [F3 F4]]].
    rewrite F1, F2, F3, F4. cbn [negb].
    rewrite (ravail_rep e buf r q n R F B0). destruct (renough (bits_of e buf) q n); cbn [negb fst snd sym_result].
    * destruct (rskip_rep e buf r q n Hb R F ltac:(unfold budget in *; lia)) as [r' [Er [R' [F' Hix]]]].
      rewrite Er. cbn [obind]. rewrite Nnat.Nat2N.id, Hsy, (index_nth _ _ _ _ Hsym). cbn [obind]. exists r'. split; [reflexivity|].
      split; [exact R'|]. split; [exact F'|]. lia.
    * exists r. split; [reflexivity|exact Stay].
  - destruct C as [P [d [lo [hi [o [Hmp [HPne [Hnn [Hix [Hmax [Ho [-> HD]]]]]]]]]]]].
    assert (Hlb : (lbits P <= 10)%nat) by (unfold lbits; lia).
    destruct (esc_entry_fields (N.of_nat o) _ Ho Hlb) as [F1 [F2 [F3 F4]]].
    rewrite F1, F2, F3, F4. cbn [negb]. rewrite (matching_look _ _ _ _ Hmp).
    rewrite (ravail_rep e buf r q (lbits P) R F B0). destruct (renough (bits_of e buf) q (lbits P)); cbn [negb fst snd sym_result].
    * destruct (rskip_rep e buf r q (lbits B) Hb R F ltac:(unfold budget in *; lia)) as [r' [Er [R' [F' Hi]]]].
      rewrite Er. cbn [obind]. rewrite Nnat.Nat2N.id. rewrite <- Hsy in Hmp.
      destruct (rc_loop_any S cb e m buf Hb 25 d 26 lo hi o P rest r' _ ltac:(lia) Ho HD Hmp Hnn HPne ltac:(lia) Hix R' F') as [r2 [G1 [G2 [G3 G4]]]].
      { assert (Eb' : buffer r' = buf) by (destruct R'; assumption). unfold budget in *. rewrite Eb, Eb' in *. lia. }
      exists r2. split; [exact G1|]. split; [exact G2|]. split; [exact G3|]. lia.
    * exists r. split; [reflexivity|exact Stay].
Qed.

Lemma rc_steps_full : forall (S : Type) m (ds : list (desc S)) ks cb e buf, full_table m ds ks cb -> bytes buf ->
  forall steps r q, rep e buf r q -> fine r -> budget r (steps_skip steps) -> Forall step_ok steps ->
  exists r', rc_run_mixed e cb (word_reader r) steps = Ret (word_reader r', snd (rq_steps_full ks e m ds (bits_of e buf) q steps)) /\
    rep e buf r' (fst (rq_steps_full ks e m ds (bits_of e buf) q steps)) /\ fine r' /\ 8 * N.of_nat (index r') < W64.
Proof.
  intros S m ds ks cb e buf Hcb Hb. induction steps as [|st steps IH]; intros r q R F B Hok.
  - exists r. split; [reflexivity|]. split; [exact R|]. split; [exact F|]. unfold budget in B. lia.
  - inversion Hok as [|? ? H1 H2]; subst. assert (Eb : buffer r = buf) by (destruct R; assumption).
    assert (G : exists r1, (forall k, rc_run_mixed e cb (word_reader r) (st :: k) =
        (let! (r2, os) := rc_run_mixed e cb (word_reader r1) k in Ret (r2, snd (rq_step_full ks e m ds (bits_of e buf) q st) :: os))) /\
      rep e buf r1 (fst (rq_step_full ks e m ds (bits_of e buf) q st)) /\ fine r1 /\ budget r1 (steps_skip steps)).
    { destruct st as [op|d]; cbn [step_ok rq_step_full] in *.
      - assert (K : steps_skip (Call op :: steps) = op_skip op + steps_skip steps) by (destruct op; cbn [steps_skip op_skip]; lia). rewrite K in B.
        destruct (op_queue e buf r q op Hb R F ltac:(unfold budget in *; lia) H1) as [r1 [E [R1 [F1 Hi]]]]. exists r1.
        destruct (rq_op e (bits_of e buf) q op) as [q1 o]. cbn [fst snd] in *. split; [intros k; cbn [rc_run_mixed]; rewrite E; reflexivity|].
        split; [exact R1|]. split; [exact F1|]. assert (Eb1 : buffer r1 = buf) by (destruct R1; assumption). unfold budget in *. rewrite Eb, Eb1 in *. lia.
      - cbn [steps_skip] in B.
        destruct (rc_read_full S m ds ks cb e buf r q Hcb Hb R F ltac:(unfold budget in *; lia)) as [r1 [E [R1 [F1 Hi]]]]. exists r1.
        destruct (rq_decode_full ks e m (bits_of e buf) q (all_codes m ds)) as [q1 o]. cbn [fst snd] in *. split; [intros k; cbn [rc_run_mixed]; rewrite E; reflexivity|].
        split; [exact R1|]. split; [exact F1|]. assert (Eb1 : buffer r1 = buf) by (destruct R1; assumption). unfold budget in *. rewrite Eb, Eb1 in *. lia. }
    destruct G as [r1 [E [R1 [F1 B1]]]]. destruct (IH r1 _ R1 F1 B1 H2) as [r2 [E2 [R2 [F2 Hi2]]]]. exists r2.
    rewrite E, E2. cbn [obind rq_steps_full]. destruct (rq_step_full ks e m ds (bits_of e buf) q st) as [q1 o]. cbn [fst snd] in *.
    destruct (rq_steps_full ks e m ds (bits_of e buf) q1 steps) as [q2 os]. cbn [fst snd] in *. split; [reflexivity|]. split; [exact R2|]. split; assumption.
Qed.

Lemma full_table_release : forall (S : Type) m (ds : list (desc S)) ks cb, full_table m ds ks cb -> release_reads_like m ds ks cb.
Proof.
  intros S m ds ks cb Hcb e buf steps Hb Hok B. change (2 ^ 64) with W64 in B. destruct (new_rep e buf Hb) as [r0 [E0 R0]].
  set (r00 := mk_reader buf 0 0%N 0). assert (F0 : fine r00) by (split; cbn; lia).
  assert (B0 : budget r00 (steps_skip steps)) by (unfold budget, r00; cbn [index buffer]; lia).
  assert (W0 : within r00 r0 0) by (exact (refill64_within e r00 r0 F0 E0)).
  unfold rc_mixed_from_new, rb_new. change (mk_wreader buf 0 0 0) with (word_reader r00).
  rewrite (refill64_release e (word_reader r00) (word_reader r0)).
  - cbn [obind]. assert (Br : budget r0 (steps_skip steps)) by (destruct W0 as [W1 [_ [_ W2]]]; unfold budget in *; rewrite W1 in *; lia).
    destruct (rc_steps_full S m ds ks cb e buf Hcb Hb steps r0 _ R0 (within_fine _ _ _ W0) Br Hok) as [r [E [R [F Hi]]]].
    exists (word_reader r). unfold rq_mixed_full. split; [exact E|]. split; [cbn [w_left word_reader]; destruct R as [_ _ R3 _ _ _]; rewrite R3; reflexivity|].
    exact (consumed_exact e buf r _ R Hi).
  - rewrite refill64_word; [unfold r00; unfold new in E0; rewrite E0; reflexivity|].
    apply roomy_safe; [exact F0|]. apply (budget_roomy r00 (steps_skip steps)); [exact B0|lia].
Qed.

Lemma fit_u8 : forall (S : Type) m (ds : list (desc S)), codes_fit m ds -> lengths_u8 ds.
Proof.
  intros S m ds Hf. apply Forall_forall. intros d Hd. destruct (Nat.eq_dec (d_bits d) 0) as [->|N0]; [lia|].
  destruct (Hf d Hd ltac:(unfold used; lia)) as [Hle _]. destruct m; cbn [longest] in Hle; lia.
Qed.

Lemma release_full_exact : forall (S : Type) ord m (ds : list (desc S)), permuting ord -> codes_fit m ds -> small_enough m ds ->
  (exists d, In d ds /\ used d) ->
  exists cb ks, rc_new_codebook ord ds m = Ret (Okay cb) /\ Permutation ks (blocked_keys m ds) /\ release_reads_like m ds ks cb.
Proof.
  intros S ord m ds Hord Hf Hs Hu. destruct (full_exact_table S ord m ds Hord Hf Hs Hu) as [cb [ks [H1 [_ [H3 H4]]]]].
  exists cb, ks. split; [apply release_construction; [exact Hord|exact (fit_u8 S m ds Hf)|exact H1]|].
  split; [exact H3|]. apply full_table_release. exact H4.
Qed.

Lemma release_full_order : forall (S : Type) m (ds : list (desc S)) ks, codes_fit m ds -> small_enough m ds ->
  (exists d, In d ds /\ used d) -> Permutation ks (blocked_keys m ds) ->
  exists ord cb, permuting ord /\ rc_new_codebook ord ds m = Ret (Okay cb) /\ release_reads_like m ds ks cb.
Proof.
  intros S m ds ks Hf Hs Hu Hp. destruct (full_order_table S m ds ks Hf Hs Hu Hp) as [ord [cb [H1 [H2 H3]]]].
  exists ord, cb. split; [exact H1|]. split; [apply release_construction; [exact H1|exact (fit_u8 S m ds Hf)|exact H2]|].
  apply full_table_release. exact H3.
Qed.

Lemma table_step : forall (S : Type) n e m l q (codes : pending S), q_decode_any (Datatypes.S n) false e m l q codes =
  match in_table codes (as_written e m (snd (q_get32 l q (look_ahead codes)))) with
  | Nothing => Some (q, None)
  | Word k s =>
      match enough l q k with
      | Some true => Some (q_skip l q k, Some s)
      | Some false => Some (q, None)
      | None => None
      end
  | GoOn rest =>
      match enough l q (look_ahead rest) with
      | Some true => q_decode_any n false e m l (q_skip l q (look_ahead codes)) rest
      | Some false => Some (q, None)
      | None => None
      end
  end.
Proof.
  intros S n e m l q codes. cbn [q_decode_any]. unfold in_table.
  destruct (rev (complete _ codes)) as [|[w s] r]; destruct (longer _ codes); reflexivity.
Qed.

Lemma any_agrees (S : Type) e m l : forall rounds q (codes : pending S) x,
  q_decode_any rounds false e m l q codes = Some x -> rq_decode_any rounds e m l q codes = x.
Proof.
  induction rounds as [|rounds IH]; intros q codes x E; [discriminate E|]. rewrite table_step in E. cbn [rq_decode_any].
  cbv zeta. destruct (in_table codes _) as [|k s|rest]; [congruence| |].
  - destruct (enough l q k) as [[|]|] eqn:En; try discriminate E; rewrite (enough_agrees _ _ _ _ En); congruence.
  - destruct (enough l q (look_ahead rest)) as [[|]|] eqn:En; try discriminate E; rewrite (enough_agrees _ _ _ _ En); [exact (IH _ _ _ E)|congruence].
Qed.

Lemma full_agrees (S : Type) ks e m l q (codes : pending S) x :
  q_decode_full ks e m l q codes = Some x -> rq_decode_full ks e m l q codes = x.
Proof.
  unfold q_decode_full, rq_decode_full. cbv zeta. intros E. destruct (in_full m ks codes _) as [|k s|rest]; [congruence| |].
  - destruct (enough l q k) as [[|]|] eqn:En; try discriminate E; rewrite (enough_agrees _ _ _ _ En); congruence.
  - destruct (enough l q (look_ahead rest)) as [[|]|] eqn:En; try discriminate E; rewrite (enough_agrees _ _ _ _ En); [|congruence].
    apply any_agrees. exact E.
Qed.

Lemma codewords_full_agree (S : Type) ks e m (ds : list (desc S)) buf msg x :
  q_mixed_full ks e m ds buf (map Codeword msg) = Some x -> rq_mixed_full ks e m ds buf (map Codeword msg) = x.
Proof.
  unfold q_mixed_full, rq_mixed_full. generalize (bits_of e buf). intros l. generalize (fetch64 l (mk_queue [] 0)). intros q. revert q x.
  induction msg as [|d msg IH]; intros q x E; cbn [map q_steps_full rq_steps_full q_step_full rq_step_full] in *; [congruence|].
  destruct (q_decode_full ks e m l q (all_codes m ds)) as [[q1 o]|] eqn:D; [|discriminate E].
  rewrite (full_agrees _ _ _ _ _ _ _ _ D). destruct o as [s|].
  - destruct (q_steps_full ks e m ds l q1 (map Codeword msg)) as [[q2 os]|] eqn:Q; [|discriminate E]. rewrite (IH _ _ Q). congruence.
  - destruct (q_steps_full ks e m ds l q1 (map Codeword msg)) as [[q2 os]|] eqn:Q; [|discriminate E]. rewrite (IH _ _ Q). congruence.
Qed.
