(** Descriptions in which a codeword may be a prefix of any other one. *)
From Coq Require Import List Arith NArith ZArith Bool Lia Permutation.
From Coq Require Import ZifyBool ZifyNat ZifyN.
From Verif Require Import Base BitModel BitSpec BitProofs BitProofs2 BitQueueSpec BitQueueProofs CodebookModel
  CodebookSpec CodebookProofs CodebookProofs2 CodebookProofs3 CodebookProofs4 CodebookProofs5 CbQueueSpec CbQueueProofs
  CbLevelSpec CbLevelProofs CbShadowSpec.
Import ListNotations.
Local Open Scope nat_scope.

Lemma shadow_covers : forall (S : Type) m (ds : list (desc S)), same_level m ds \/ long_first ds -> unblocked m ds.
Proof.
  intros S m ds [H|H]; [apply level_unblocked; exact H|].
  intros i j a b Ha Hb Hu Hs Hl Hp. exists j, b. split; [apply (H i j a b); assumption|]. split; [exact Hb|]. split; [exact Hl|reflexivity].
Qed.

Lemma any_constructed : forall (S : Type) ord m (ds : list (desc S)), permuting ord -> codes_fit m ds -> unblocked m ds ->
  small_enough m ds -> (exists d, In d ds /\ used d) ->
  exists cb, new_codebook ord ds m = Ret (Okay cb) /\ N.of_nat (length (cb_table cb)) = table_entries (words m ds).
Proof.
  intros S ord m ds Hord Hf Hl Hs Hu.
  destruct (new_codebook_decides S ord m ds Hord Hf Hl Hs Hu) as [cb [lo [hi [E [_ [_ [H3 _]]]]]]]. exists cb. split; assumption.
Qed.

Lemma built_any : forall (S : Type) ord m (ds : list (desc S)) cb, permuting ord -> codes_fit m ds -> unblocked m ds ->
  small_enough m ds -> new_codebook ord ds m = Ret (Okay cb) ->
  cb_syms cb = used_syms ds /\ cb_lut_bits cb = lbits (items_of m (number 0 ds)) /\
  exists lo hi, decides 27 true (reader_for m) (cb_table cb) lo hi 0 (items_of m (number 0 ds)).
Proof.
  intros S ord m ds cb Hord Hf Hl Hs H.
  destruct (new_codebook_decides S ord m ds Hord Hf Hl Hs (codebook_used S ord m ds cb H)) as [cb' [lo [hi [E [H1 [H2 [_ H3]]]]]]].
  rewrite H in E. injection E as <-. split; [exact H1|]. split; [exact H2|]. exists lo, hi. exact H3.
Qed.

(** ** The bit queue *)

Lemma read_loop_any : forall (S : Type) (cb : codebook S) e m buf, bytes buf ->
  forall rounds top d fuel lo hi off B codes r q, rounds <= fuel ->
  decides d top (reader_for m) (cb_table cb) lo hi off B -> matching (cb_syms cb) B codes -> nonempty B -> B <> [] ->
  maxl B <= 10 * rounds -> (forall w i, In (w, i) B -> (N.of_nat i < 2 ^ 24)%N) -> rep e buf r q ->
  match q_decode_any rounds top e m (bits_of e buf) q codes with
  | Some (q', o) => exists r', read_loop fuel e cb r (N.of_nat off) (lbits B) = Ret (r', sym_result o) /\ rep e buf r' q'
  | None => read_loop fuel e cb r (N.of_nat off) (lbits B) = Panic
  end.
Proof.
  intros S cb e m buf Hb. induction rounds as [|rounds IH];
    intros top d fuel lo hi off B codes r q Hf Hs Hm Hnw Hne Hmax Hidx R.
  - exfalso. destruct B as [|[w i] B]; [congruence|]. specialize (Hnw w i (or_introl eq_refl)).
    pose proof (maxl_in ((w, i) :: B) w i (or_introl eq_refl)). destruct w; [congruence|cbn in *; lia].
  - destruct d as [|d]; [destruct Hs|]. destruct fuel as [|fuel]; [lia|]. cbn [read_loop q_decode_any].
    rewrite (matching_look _ _ _ _ Hm).
    assert (HL : lbits B <= 10) by (unfold lbits; lia).
    rewrite (peek32_rep e buf r q (lbits B) Hb R ltac:(lia)). cbn [obind].
    set (u0 := snd (q_get32 (bits_of e buf) q (lbits B))).
    set (u := as_written e m u0).
    assert (Lu : length u = lbits B) by (unfold u, u0; rewrite as_written_length, q_get32_length; reflexivity).
    rewrite (value_as_written e m u0). fold u.
    replace (N.to_nat (value (reader_for m) u + N.of_nat off)) with (slot (reader_for m) off u) by (unfold slot; lia).
    destruct (Hs u Lu) as [x [Nx C]]. rewrite (index_nth _ _ _ _ Nx). cbn [obind].
    pose proof (matching_longer _ _ _ _ u Hm) as Hml.
    destruct C as [[Htop [w [i [Hin [Lw [Pw ->]]]]]]|[[Hs1 [Hns [o [_ [_ [Ho [-> V]]]]]]]|[-> [Hs1 Hno]]]].
    + (* a codeword of at most ten bits *)
      pose proof Hin as Hla. apply lastin_in in Hin.
      destruct (lut_entry_fields (N.of_nat i) (length w) (Hidx w i Hin) Lw) as [F1 [F2 [F3 F4]]].
      rewrite F1, F2, F3, F4. cbn [negb].
      destruct (lastin_complete _ _ _ _ w i u Hm Hla Lw Pw) as [s [rest [Ec Hsym]]]. rewrite Ec.
      match goal with |- match ?X with _ => _ end =>
        assert (EX : X = match enough (bits_of e buf) q (length w) with
                         | Some true => Some (q_skip (bits_of e buf) q (length w), Some s)
                         | Some false => Some (q, None)
                         | None => None
                         end) end.
      { destruct top; [destruct (longer u codes); reflexivity|].
        rewrite (proj1 (matching_nil _ _ _ _ Hml) (Htop eq_refl)). reflexivity. }
      rewrite EX. clear EX.
      pose proof (available_enough e buf r q (length w) R) as Ha.
      destruct (enough (bits_of e buf) q (length w)) as [[|]|].
      * destruct Ha as [a [-> Hlt]]. cbn [obind]. rewrite Hlt. cbn [negb].
        rewrite !Nnat.Nat2N.id. destruct (q_skip_rep e buf r q (length w) Hb R) as [r' [Er R']].
        rewrite Er. cbn [obind]. rewrite (index_nth _ _ _ _ Hsym). cbn [obind]. exists r'. split; [reflexivity|exact R'].
      * destruct Ha as [a [-> Hlt]]. cbn [obind]. rewrite Hlt. cbn [negb]. exists r. split; [reflexivity|exact R].
      * rewrite Ha. reflexivity.
    + (* an escape *)
      assert (Hlb : lbits (sub u B) <= 10) by (unfold lbits; lia).
      destruct (esc_entry_fields (N.of_nat o) _ Ho Hlb) as [F1 [F2 [F3 F4]]].
      rewrite F1, F2, F3, F4. cbn [negb].
      assert (Hln : longer u codes <> []) by (intros E; apply (matching_nil _ _ _ _ Hml) in E; congruence).
      assert (Elook : look_ahead (longer u codes) = lbits (sub u B)) by apply (matching_look _ _ _ _ Hml).
      assert (G : match (match enough (bits_of e buf) q (lbits (sub u B)) with
                         | Some true => q_decode_any rounds false e m (bits_of e buf) (q_skip (bits_of e buf) q (lbits B)) (longer u codes)
                         | Some false => Some (q, None)
                         | None => None
                         end) with
        | Some (q', o0) => exists r', (let! avail := available r in
            if (N.of_nat avail mod W32 <? N.of_nat (lbits (sub u B)))%N then Ret (r, Error InvalidCode)
            else let! r'0 := skip_bits e r (lbits B) in
                 read_loop fuel e cb r'0 (N.of_nat o) (N.to_nat (N.of_nat (lbits (sub u B))))) = Ret (r', sym_result o0) /\ rep e buf r' q'
        | None => (let! avail := available r in
            if (N.of_nat avail mod W32 <? N.of_nat (lbits (sub u B)))%N then Ret (r, Error InvalidCode)
            else let! r'0 := skip_bits e r (lbits B) in
                 read_loop fuel e cb r'0 (N.of_nat o) (N.to_nat (N.of_nat (lbits (sub u B))))) = Panic
        end).
      { pose proof (available_enough e buf r q (lbits (sub u B)) R) as Ha.
        destruct (enough (bits_of e buf) q (lbits (sub u B))) as [[|]|].
        - destruct Ha as [a [-> Hlt]]. cbn [obind]. rewrite Hlt. cbn [negb].
          destruct (q_skip_rep e buf r q (lbits B) Hb R) as [r' [Er R']]. rewrite Er. cbn [obind].
          rewrite Nnat.Nat2N.id.
          apply (IH false d fuel lo hi o (sub u B) (longer u codes) r' _ ltac:(lia) V Hml (nonempty_sub u B) Hs1).
          + pose proof (maxl_sub u B). lia.
          + intros w i Hin. apply sub_in in Hin. apply (Hidx (u ++ w)). apply Hin.
          + exact R'.
        - destruct Ha as [a [-> Hlt]]. cbn [obind]. rewrite Hlt. cbn [negb]. exists r. split; [reflexivity|exact R].
        - rewrite Ha. reflexivity. }
      destruct (rev (complete u codes)) as [|[w1 s1] rest] eqn:Ec.
      * destruct (longer u codes) as [|c cs] eqn:El; [congruence|]. rewrite Elook. exact G.
      * destruct top.
        -- exfalso. assert (H1 : In (w1, s1) (complete u codes)) by (apply in_rev; rewrite Ec; left; reflexivity).
           apply complete_in in H1. destruct H1 as [Hc1 [L1 P1]].
           destruct (matching_in_rev _ _ _ _ w1 s1 Hm Hc1) as [i1 [Hin1 _]].
           exact (Hns eq_refl w1 i1 Hin1 L1 P1).
        -- destruct (longer u codes) as [|c cs] eqn:El; [congruence|]. rewrite Elook. exact G.
    + (* nothing *)
      rewrite N.eqb_refl.
      destruct (complete u codes) as [|[w1 s1] rest] eqn:Ec.
      2:{ exfalso. assert (H1 : In (w1, s1) (complete u codes)) by (rewrite Ec; left; reflexivity).
          apply complete_in in H1. destruct H1 as [Hc1 [L1 P1]].
          destruct (matching_in_rev _ _ _ _ w1 s1 Hm Hc1) as [i1 [Hin1 _]]. exact (Hno w1 i1 Hin1 L1 P1). }
      cbn [rev]. apply (matching_nil _ _ _ _ Hml) in Hs1. rewrite Hs1. exists r. split; [reflexivity|exact R].
Qed.

Lemma read_cb_any : forall (S : Type) ord m (ds : list (desc S)) cb e buf r q,
  permuting ord -> codes_fit m ds -> unblocked m ds -> small_enough m ds -> new_codebook ord ds m = Ret (Okay cb) -> bytes buf -> rep e buf r q ->
  match q_decode_any 26 true e m (bits_of e buf) q (all_codes m ds) with
  | Some (q', o) => exists r', read_cb e cb r = Ret (r', sym_result o) /\ rep e buf r' q'
  | None => read_cb e cb r = Panic
  end.
Proof.
  intros S ord m ds cb e buf r q Hord Hf Hlv Hsm Hcb Hb R.
  destruct (built_any S ord m ds cb Hord Hf Hlv Hsm Hcb) as [Hs [Hl [lo [hi Hsv]]]].
  unfold read_cb. rewrite Hl. change 0%N with (N.of_nat 0).
  apply (read_loop_any S cb e m buf Hb 26 true 27 27 lo hi 0 _ _ r q ltac:(lia) Hsv).
  - rewrite Hs. apply numbered_matching. intros j d Hj. unfold used_syms. rewrite Nat.add_0_l.
    apply (map_nth_error d_sym). exact Hj.
  - apply number_nonempty.
  - destruct (codebook_used S ord m ds cb Hcb) as [d0 [Hd0 Hu0]]. apply In_nth_error in Hd0. destruct Hd0 as [j Hj].
    intros E. assert (Hi : In (word m d0, 0 + rank ds j) (items_of m (number 0 ds))).
    { apply number_in. exists j, d0. repeat split; assumption. }
    rewrite E in Hi. destruct Hi.
  - apply maxl_le. intros w i Hin. apply number_in in Hin. destruct Hin as [j [d [Hj [Hu [-> _]]]]].
    unfold word. rewrite codeword_length. apply nth_error_In in Hj.
    destruct (Hf d Hj Hu) as [Hle _]. destruct m; cbn [longest] in Hle; lia.
  - apply (small_idx_items S m ds Hsm).
  - exact R.
Qed.

Lemma mixed_any : forall (S : Type) ord m (ds : list (desc S)) cb e buf,
  permuting ord -> codes_fit m ds -> unblocked m ds -> small_enough m ds -> new_codebook ord ds m = Ret (Okay cb) -> bytes buf ->
  forall steps r q, rep e buf r q -> Forall step_ok steps ->
  match q_steps_any e m ds (bits_of e buf) q steps with
  | Some (q', os) => exists r', run_mixed e cb r steps = Ret (r', os) /\ rep e buf r' q'
  | None => run_mixed e cb r steps = Panic
  end.
Proof.
  intros S ord m ds cb e buf Hord Hf Hlv Hsm Hcb Hb. induction steps as [|[op|d] steps IH]; intros r q R Hok; cbn [q_steps_any run_mixed].
  - exists r. split; [reflexivity|exact R].
  - inversion Hok as [|? ? H1 H2]; subst. cbn [step_ok q_step_any] in *. pose proof (q_op_rep e buf r q op Hb R H1) as G.
    destruct (q_op e (bits_of e buf) q op) as [[q1 o]|].
    + destruct G as [r1 [E R1]]. rewrite E. cbn [obind]. specialize (IH r1 q1 R1 H2).
      destruct (q_steps_any e m ds (bits_of e buf) q1 steps) as [[q2 os]|].
      * destruct IH as [r2 [E2 R2]]. rewrite E2. cbn [obind]. exists r2. split; [reflexivity|exact R2].
      * rewrite IH. reflexivity.
    + rewrite G. reflexivity.
  - inversion Hok as [|? ? H1 H2]; subst. cbn [q_step_any] in *.
    pose proof (read_cb_any S ord m ds cb e buf r q Hord Hf Hlv Hsm Hcb Hb R) as G.
    destruct (q_decode_any 26 true e m (bits_of e buf) q (all_codes m ds)) as [[q1 o]|].
    + destruct G as [r1 [E R1]]. rewrite E. cbn [obind]. specialize (IH r1 q1 R1 H2).
      destruct o as [s|]; cbn [sym_result];
        (destruct (q_steps_any e m ds (bits_of e buf) q1 steps) as [[q2 os]|];
         [destruct IH as [r2 [E2 R2]]; rewrite E2; cbn [obind]; exists r2; split; [reflexivity|exact R2]
         |rewrite IH; reflexivity]).
    + rewrite G. reflexivity.
Qed.

Lemma any_queue_exact : forall (S : Type) ord m (ds : list (desc S)) cb e buf steps,
  permuting ord -> codes_fit m ds -> unblocked m ds -> small_enough m ds -> new_codebook ord ds m = Ret (Okay cb) -> bytes buf -> Forall step_ok steps ->
  exists r0, new e buf = Ret r0 /\
  match q_mixed_any e m ds buf steps with
  | Some (q, outs) => exists r, run_mixed e cb r0 steps = Ret (r, outs) /\
      left r = length (waiting q) /\ consumed r = Ret (fetched q - length (waiting q))
  | None => run_mixed e cb r0 steps = Panic
  end.
Proof.
  intros S ord m ds cb e buf steps Hord Hf Hlv Hsm Hcb Hb Hok. destruct (new_rep e buf Hb) as [r0 [E0 R0]].
  exists r0. split; [exact E0|]. pose proof (mixed_any S ord m ds cb e buf Hord Hf Hlv Hsm Hcb Hb steps r0 _ R0 Hok) as G.
  unfold q_mixed_any. destruct (q_steps_any e m ds (bits_of e buf) _ steps) as [[q os]|]; [|exact G].
  destruct G as [r [E R]]. exists r. split; [exact E|]. split; [apply R|]. apply (rep_consumed e buf). exact R.
Qed.

(** ** Independence of the iteration order *)

Lemma read_loop_same_any : forall (S : Type) (cb1 cb2 : codebook S) e et, cb_syms cb1 = cb_syms cb2 ->
  forall d top fuel lo1 hi1 o1 lo2 hi2 o2 B r,
  decides d top et (cb_table cb1) lo1 hi1 o1 B -> decides d top et (cb_table cb2) lo2 hi2 o2 B ->
  (forall w i, In (w, i) B -> (N.of_nat i < 2 ^ 24)%N) -> cbound r ->
  read_loop fuel e cb1 r (N.of_nat o1) (lbits B) = read_loop fuel e cb2 r (N.of_nat o2) (lbits B).
Proof.
  intros S cb1 cb2 e et Hsym. induction d as [|d IH]; intros top fuel lo1 hi1 o1 lo2 hi2 o2 B r S1 S2 Hidx Hc; [destruct S1|].
  destruct fuel as [|fuel]; [reflexivity|]. cbn [read_loop].
  assert (HL : lbits B <= 10) by (unfold lbits; lia).
  destruct (peek_bits_32 e r (lbits B)) as [[r0 v]| |] eqn:Ep; cbn [obind]; try reflexivity.
  pose proof (peek_bound e r (lbits B) r0 v Hc ltac:(lia) Ep) as Hv.
  destruct (value_surj et v (lbits B) Hv) as [u [Lu Eu]].
  replace (N.to_nat (v + N.of_nat o1)) with (slot et o1 u) by (unfold slot; lia).
  replace (N.to_nat (v + N.of_nat o2)) with (slot et o2 u) by (unfold slot; lia).
  destruct (S1 u Lu) as [x1 [N1 C1]]. destruct (S2 u Lu) as [x2 [N2 C2]].
  rewrite (index_nth _ _ _ _ N1), (index_nth _ _ _ _ N2). cbn [obind]. rewrite Hsym.
  destruct C1 as [[T1 [w1 [i1 [In1 [Lw1 [Pw1 ->]]]]]]|[[Hs1 [P1 [q1 [_ [_ [Q1 [-> V1]]]]]]]|[-> [Hs1 Hn1]]]];
  destruct C2 as [[T2 [w2 [i2 [In2 [Lw2 [Pw2 ->]]]]]]|[[Hs2 [P2 [q2 [_ [_ [Q2 [-> V2]]]]]]]|[-> [Hs2 Hn2]]]].
  - assert (w1 = w2 /\ i1 = i2) as [-> ->].
    { apply (lastin_unique w1 i1 w2 i2 u B); assumption. }
    apply lastin_in in In2. destruct (lut_entry_fields (N.of_nat i2) (length w2) (Hidx _ _ In2) Lw2) as [_ [_ [F3 _]]].
    rewrite F3. reflexivity.
  - exfalso. apply lastin_in in In1. destruct top; [exact (P2 eq_refl w1 i1 In1 Lw1 Pw1)|exact (Hs2 (T1 eq_refl))].
  - exfalso. apply lastin_in in In1. exact (Hn2 w1 i1 In1 Lw1 Pw1).
  - exfalso. apply lastin_in in In2. destruct top; [exact (P1 eq_refl w2 i2 In2 Lw2 Pw2)|exact (Hs1 (T2 eq_refl))].
  - assert (Hlb : lbits (sub u B) <= 10) by (unfold lbits; lia).
    destruct (esc_entry_fields (N.of_nat q1) _ Q1 Hlb) as [F1 [F2 [F3 F4]]].
    destruct (esc_entry_fields (N.of_nat q2) _ Q2 Hlb) as [G1 [G2 [G3 G4]]].
    rewrite F1, F2, F3, F4, G1, G2, G3, G4. cbn [negb].
    destruct (available r) as [a| |]; cbn [obind]; try reflexivity.
    destruct (N.of_nat a mod W32 <? N.of_nat (lbits (sub u B)))%N; [reflexivity|].
    destruct (skip_bits e r (lbits B)) as [r1| |] eqn:Es; cbn [obind]; try reflexivity.
    rewrite Nnat.Nat2N.id.
    apply (IH false fuel lo1 hi1 q1 lo2 hi2 q2 (sub u B) r1 V1 V2).
    + intros w i Hin. apply sub_in in Hin. apply (Hidx (u ++ w)). apply Hin.
    + apply (cb_skip_bits _ _ _ _ Hc Es).
  - congruence.
  - exfalso. apply lastin_in in In2. exact (Hn1 w2 i2 In2 Lw2 Pw2).
  - congruence.
  - reflexivity.
Qed.

Lemma order_any : forall (S : Type) ord1 ord2 m (ds : list (desc S)) cb1 cb2 e buf r0 steps,
  permuting ord1 -> permuting ord2 -> codes_fit m ds -> unblocked m ds -> small_enough m ds ->
  new_codebook ord1 ds m = Ret (Okay cb1) -> new_codebook ord2 ds m = Ret (Okay cb2) ->
  bytes buf -> new e buf = Ret r0 ->
  run_mixed e cb1 r0 steps = run_mixed e cb2 r0 steps.
Proof.
  intros S ord1 ord2 m ds cb1 cb2 e buf r0 steps Ho1 Ho2 Hf Hlv Hsm H1 H2 Hb Hr.
  destruct (built_any S ord1 m ds cb1 Ho1 Hf Hlv Hsm H1) as [A1 [A2 [lo1 [hi1 A3]]]].
  destruct (built_any S ord2 m ds cb2 Ho2 Hf Hlv Hsm H2) as [B1 [B2 [lo2 [hi2 B3]]]].
  assert (Hcb : forall r, cbound r -> read_cb e cb1 r = read_cb e cb2 r).
  { intros r Hc. unfold read_cb. rewrite A2, B2.
    apply (read_loop_same_any S cb1 cb2 e (reader_for m) ltac:(congruence) 27 true 27 lo1 hi1 0 lo2 hi2 0 _ r A3 B3).
    - apply (small_idx_items S m ds Hsm).
    - exact Hc. }
  apply cb_new in Hr; [|exact Hb]. clear Hb. revert r0 Hr. induction steps as [|[op|d] steps IH]; intros r Hc; [reflexivity| |].
  - cbn [run_mixed]. destruct (run_op e r op) as [[r1 o]| |] eqn:Eo; cbn [obind]; try reflexivity.
    rewrite (IH r1 (cb_run_op _ _ _ _ _ Hc Eo)). reflexivity.
  - cbn [run_mixed]. rewrite <- (Hcb r Hc). destruct (read_cb e cb1 r) as [[r1 s]| |] eqn:Eo; cbn [obind]; try reflexivity.
    rewrite (IH r1 (cb_read_loop _ _ _ _ _ _ _ _ _ Hc Eo)). reflexivity.
Qed.
