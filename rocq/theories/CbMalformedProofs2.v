(** Codebooks of short codewords that need not be prefix-free: the last match wins. *)
From Coq Require Import List Arith NArith ZArith Bool Lia Permutation.
From Coq Require Import ZifyBool ZifyNat ZifyN.
From Verif Require Import Base ByteModel ByteSpec ByteProofs BitModel BitSpec BitProofs BitProofs2 CodebookModel
  CodebookSpec CodebookProofs CodebookProofs2 CodebookProofs3 CodebookProofs4 CodebookProofs5 CodebookProofs6
  CbMalformedSpec CbMalformedProofs.
Import ListNotations.
Local Open Scope nat_scope.
Ltac Zify.zify_post_hook ::= Z.div_mod_to_equations.

Lemma starts_spec : forall w l, starts w l = true <-> is_prefix w l.
Proof.
  intros w l. unfold starts. rewrite prefix_firstn. destruct (list_eq_dec bool_dec (firstn (length w) l) w); split; intros; congruence.
Qed.

(** The last match with its index among the used entries. *)
Fixpoint lm {S : Type} (m : mode) (ds : list (desc S)) (k : nat) (u : list bool) : option (nat * desc S) :=
  match ds with
  | [] => None
  | d :: ds' =>
      match lm m ds' (if 0 <? d_bits d then k + 1 else k) u with
      | Some x => Some x
      | None => if (0 <? d_bits d) && starts (word m d) u then Some (k, d) else None
      end
  end.

Lemma lm_last : forall (S : Type) m (ds : list (desc S)) k u, last_match m ds u = option_map snd (lm m ds k u).
Proof.
  intros S m. induction ds as [|d ds IH]; intros k u; cbn [last_match lm]; [reflexivity|].
  rewrite (IH (if 0 <? d_bits d then k + 1 else k) u). destruct (lm m ds _ u) as [x|]; cbn [option_map]; [reflexivity|].
  destruct (_ && _); reflexivity.
Qed.

Lemma lm_index : forall (S : Type) m (ds : list (desc S)) k u i d, lm m ds k u = Some (i, d) ->
  k <= i /\ i < k + nused ds /\ In d ds /\ used d /\ is_prefix (word m d) u /\ nth_error (used_syms ds) (i - k) = Some (d_sym d).
Proof.
  intros S m. unfold nused, used_syms. induction ds as [|d0 ds IH]; intros k u i d H; cbn [lm] in H; [discriminate|].
  cbn [filter]. destruct (lm m ds (if 0 <? d_bits d0 then k + 1 else k) u) as [[i' d']|] eqn:E.
  - injection H as -> ->. destruct (IH _ _ _ _ E) as [H1 [H2 [H3 [H4 [H5 H6]]]]].
    destruct (0 <? d_bits d0); cbn [length map].
    + split; [lia|]. split; [lia|]. split; [right; exact H3|]. split; [exact H4|]. split; [exact H5|].
      replace (i - k) with (Datatypes.S (i - (k + 1))) by lia. exact H6.
    + split; [lia|]. split; [lia|]. split; [right; exact H3|]. split; [exact H4|]. split; [exact H5|exact H6].
  - destruct (Nat.ltb_spec 0 (d_bits d0)); cbn [andb] in H; [|discriminate].
    destruct (starts (word m d0) u) eqn:Es; [|discriminate]. injection H as <- <-. cbn [length map].
    split; [lia|]. split; [lia|]. split; [left; reflexivity|]. split; [assumption|].
    split; [apply starts_spec; exact Es|]. rewrite Nat.sub_diag. reflexivity.
Qed.

Lemma pass1_short : forall (S : Type) m (ds : list (desc S)) mb k, (forall d, In d ds -> d_bits d <= 10) ->
  new_pass1 m ds mb k [] = Ret (Nat.max mb (list_max (map d_bits ds)), []).
Proof.
  intros S m. induction ds as [|d ds IH]; intros mb k H; cbn [new_pass1].
  - cbn [map list_max fold_right]. rewrite Nat.max_0_r. reflexivity.
  - change MAX_LUT_BITS with 10. destruct (Nat.ltb_spec 10 (d_bits d)) as [Hl|_];
      [specialize (H d (or_introl eq_refl)); lia|]. cbn [obind].
    rewrite IH by (intros d' Hd; apply H; right; exact Hd). cbn [map list_max fold_right]. fold (list_max (map d_bits ds)).
    f_equal. f_equal. lia.
Qed.

Lemma pass2_short : forall (S : Type) m L (ds : list (desc S)) t k cc, codes_fit m ds -> L <= 10 ->
  (forall d, In d ds -> d_bits d <= L) -> (N.of_nat (k + nused ds) < 2 ^ 32)%N -> length t = N.to_nat (pow2 L) ->
  exists t', new_pass2 t m L ds (N.of_nat k) cc = Ret (t', cc) /\ length t' = length t /\
    forall u, length u = L -> nth_error t' (slot (reader_for m) 0 u) =
      match lm m ds k u with
      | Some (i, d) => Some (lut_entry (N.of_nat i) (d_bits d))
      | None => nth_error t (slot (reader_for m) 0 u)
      end.
Proof.
  intros S m L. unfold nused. induction ds as [|d ds IH]; intros t k cc Hf HL HM H32 Ht; cbn [new_pass2].
  - exists t. split; [reflexivity|]. split; reflexivity.
  - assert (Hf' : codes_fit m ds) by (intros d' Hin; apply Hf; right; exact Hin).
    assert (HM' : forall d, In d ds -> d_bits d <= L) by (intros d' Hin; apply HM; right; exact Hin).
    pose proof (HM d (or_introl eq_refl)) as HdL. cbn [filter length lm] in *. change MAX_LUT_BITS with 10.
    destruct (Nat.eqb_spec (d_bits d) 0) as [E0|E0].
    { destruct (Nat.ltb_spec 0 (d_bits d)); [lia|]. cbn [andb].
      destruct (IH t k cc Hf' HL HM' H32 Ht) as [t' [E [L' Q]]]. exists t'. split; [exact E|]. split; [exact L'|].
      intros u Lu. rewrite (Q u Lu). destruct (lm m ds k u) as [[i d']|]; reflexivity. }
    destruct (Nat.ltb_spec 0 (d_bits d)); [|lia]. cbn [length andb] in *.
    destruct (Hf d (or_introl eq_refl)) as [F1 [F2 _]]; [unfold used; lia|].
    assert (Hadd : add32 (N.of_nat k) 1 = Ret (N.of_nat (k + 1))).
    { rewrite add32_small; [f_equal; lia|]. change (pow2 32) with (2 ^ 32)%N. lia. }
    destruct (Nat.leb_spec (d_bits d) 10); [|lia].
    destruct (fill_short_spec m t 0 (d_code d) (d_bits d) L (N.of_nat k) HdL HL F2 ltac:(lia)) as [t1 [E [L1 [Hyes [Hno _]]]]].
    rewrite E. cbn [obind]. rewrite Hadd. cbn [obind].
    destruct (IH t1 (k + 1) cc Hf' HL HM' ltac:(lia) ltac:(lia)) as [t' [E' [L' Q]]].
    exists t'. split; [exact E'|]. split; [lia|]. intros u Lu. rewrite (Q u Lu).
    destruct (lm m ds (k + 1) u) as [[i d']|]; [reflexivity|].
    destruct (starts (word m d) u) eqn:Es.
    + apply starts_spec in Es. apply Hyes; assumption.
    + apply Hno; [exact Lu|]. intros Hp. apply starts_spec in Hp. unfold word in Es. congruence.
Qed.

Lemma short_built : forall (S : Type) ord m (ds : list (desc S)), permuting ord -> codes_fit m ds ->
  (forall d, In d ds -> d_bits d <= 10) -> (N.of_nat (nused ds) < 2 ^ 32)%N -> (exists d, In d ds /\ used d) ->
  exists cb, new_codebook ord ds m = Ret (Okay cb) /\ cb_syms cb = used_syms ds /\ cb_lut_bits cb = list_max (map d_bits ds) /\
    forall u, length u = cb_lut_bits cb -> nth_error (cb_table cb) (slot (reader_for m) 0 u) =
      match lm m ds 0 u with
      | Some (i, d) => Some (lut_entry (N.of_nat i) (d_bits d))
      | None => Some TABLE_FILL_VALUE
      end.
Proof.
  intros S ord m ds Hord Hf Hsh H32 [d0 [Hd0 Hu0]]. unfold new_codebook. rewrite (pass1_short S m ds 0 0 Hsh).
  cbn [obind Nat.max]. set (L := list_max (map d_bits ds)).
  assert (HM : forall d, In d ds -> d_bits d <= L) by (intros d Hd; apply list_max_in; apply in_map; exact Hd).
  assert (HL : L <= 10).
  { apply list_max_le. apply Forall_forall. intros x Hx. apply in_map_iff in Hx. destruct Hx as [d [<- Hd]]. apply Hsh. exact Hd. }
  assert (HL1 : 1 <= L) by (unfold used in Hu0; specialize (HM d0 Hd0); lia).
  destruct (Nat.eqb_spec L 0); [lia|]. change MAX_LUT_BITS with 10. destruct (Nat.ltb_spec 10 L); [lia|].
  rewrite shl32_one by lia. cbn [obind].
  destruct (pass2_short S m L ds (repeat TABLE_FILL_VALUE (N.to_nat (pow2 L))) 0 [] Hf HL HM H32 (repeat_length _ _))
    as [t' [E [L' Q]]]. change (N.of_nat 0) with 0%N in E. rewrite E. cbn [obind].
  rewrite (Permutation_nil (Hord [] [])). cbn [build_all obind].
  eexists. split; [reflexivity|]. cbn [cb_syms cb_lut_bits cb_table]. split; [reflexivity|]. split; [reflexivity|].
  intros u Lu. rewrite (Q u Lu). destruct (lm m ds 0 u) as [[i d]|]; [reflexivity|].
  apply nth_error_repeat. pose proof (slot_bound (reader_for m) 0 u). rewrite Lu in *. lia.
Qed.

Lemma short_exact : forall (S : Type) ord m (ds : list (desc S)) cb e r, permuting ord -> codes_fit m ds ->
  (forall d, In d ds -> d_bits d <= 10) -> (N.of_nat (nused ds) <= 2 ^ 24)%N -> (exists d, In d ds /\ used d) ->
  new_codebook ord ds m = Ret (Okay cb) -> cbound r ->
  read_cb e cb r = read_last m ds (list_max (map d_bits ds)) e r.
Proof.
  intros S ord m ds cb e r Hord Hf Hsh H24 Hu Hcb Hc.
  destruct (short_built S ord m ds Hord Hf Hsh ltac:(change (2 ^ 32)%N with 4294967296%N; change (2 ^ 24)%N with 16777216%N in H24; lia) Hu)
    as [cb' [E [Hs [HL Q]]]].
  rewrite E in Hcb. injection Hcb as ->. unfold read_cb, read_last. rewrite <- HL. cbn [read_loop].
  assert (HL10 : cb_lut_bits cb <= 10).
  { rewrite HL. apply list_max_le. apply Forall_forall. intros x Hx. apply in_map_iff in Hx. destruct Hx as [d [<- Hd]]. apply Hsh. exact Hd. }
  destruct (peek_bits_32 e r (cb_lut_bits cb)) as [[r0 v]| |] eqn:Ep; cbn [obind]; try reflexivity.
  pose proof (peek_bound e r (cb_lut_bits cb) r0 v Hc ltac:(lia) Ep) as Hv.
  set (u := codeword m v (cb_lut_bits cb)).
  assert (Lu : length u = cb_lut_bits cb) by apply codeword_length.
  assert (Eu : value (reader_for m) u = v) by (apply value_codeword; exact Hv).
  replace (N.to_nat (v + 0)) with (slot (reader_for m) 0 u) by (unfold slot; lia).
  specialize (Q u Lu). rewrite (lm_last S m ds 0 u).
  destruct (lm m ds 0 u) as [[i d]|] eqn:El; cbn [option_map snd].
  - rewrite (index_nth _ _ _ _ Q). cbn [obind].
    destruct (lm_index S m ds 0 u i d El) as [_ [Hi [Hd [_ [_ Hsym]]]]]. rewrite Nat.sub_0_r in Hsym.
    destruct (lut_entry_fields (N.of_nat i) (d_bits d)) as [F1 [F2 [F3 F4]]]; [lia|apply Hsh; exact Hd|].
    rewrite F1, F2, F3, F4. cbn [negb]. unfold W32.
    destruct (available r) as [a| |]; cbn [obind]; try reflexivity.
    destruct (_ <? _)%N; [reflexivity|]. rewrite !Nnat.Nat2N.id.
    destruct (skip_bits e r (d_bits d)) as [r1| |]; cbn [obind]; try reflexivity.
    rewrite Hs, (index_nth _ _ _ _ Hsym). reflexivity.
  - rewrite (index_nth _ _ _ _ Q). cbn [obind]. rewrite N.eqb_refl. reflexivity.
Qed.

Lemma cb_mixed : forall (S : Type) e (cb : codebook S) steps r0 r outs, cbound r0 ->
  run_mixed e cb r0 steps = Ret (r, outs) -> cbound r.
Proof.
  intros S e cb. induction steps as [|[op|d] steps IH]; intros r0 r outs Hc H; cbn [run_mixed] in H.
  - injection H as <- _. exact Hc.
  - destruct (run_op e r0 op) as [[r1 o]| |] eqn:Eo; inv_ret H.
    destruct (run_mixed e cb r1 steps) as [[r2 os]| |] eqn:E2; inv_ret H. injection H as <- _.
    apply (IH r1 r2 os); [apply (cb_run_op _ _ _ _ _ Hc Eo)|exact E2].
  - destruct (read_cb e cb r0) as [[r1 s]| |] eqn:Eo; inv_ret H.
    destruct (run_mixed e cb r1 steps) as [[r2 os]| |] eqn:E2; inv_ret H. injection H as <- _.
    apply (IH r1 r2 os); [apply (cb_read_loop _ _ _ _ _ _ _ _ _ Hc Eo)|exact E2].
Qed.

Lemma last_match_prefix : forall (S : Type) m L (ds : list (desc S)) a b, (forall d, In d ds -> d_bits d <= L) ->
  firstn L a = firstn L b -> last_match m ds a = last_match m ds b.
Proof.
  intros S m L. induction ds as [|d ds IH]; intros a b H E; cbn [last_match]; [reflexivity|].
  rewrite (IH a b) by (try exact E; intros d' Hd; apply H; right; exact Hd).
  destruct (last_match m ds b); [reflexivity|].
  replace (starts (word m d) a) with (starts (word m d) b); [reflexivity|].
  unfold starts. assert (Hl : length (word m d) <= L) by (unfold word; rewrite codeword_length; apply H; left; reflexivity).
  replace (firstn (length (word m d)) a) with (firstn (length (word m d)) b); [reflexivity|].
  rewrite <- (Nat.min_l (length (word m d)) L) by exact Hl. rewrite <- !firstn_firstn, E. reflexivity.
Qed.

Lemma read_last_at : forall (S : Type) m (ds : list (desc S)) L r p, (forall d, In d ds -> d_bits d <= L) -> L <= 10 ->
  inv (reader_for m) r p -> p + L + 64 <= 8 * length (buffer r) -> (N.of_nat (8 * length (buffer r)) < 2 ^ 32)%N ->
  match last_match m ds (skipn p (bits_of (reader_for m) (buffer r))) with
  | Some d => exists r', read_last m ds L (reader_for m) r = Ret (r', Okay (d_sym d)) /\
      inv (reader_for m) r' (p + d_bits d) /\ buffer r' = buffer r /\ d_bits d <= L
  | None => read_last m ds L (reader_for m) r = Ret (r, Error InvalidCode)
  end.
Proof.
  intros S m ds L r p HM HL I Hp H32. set (e := reader_for m) in *.
  destruct (peek_result e r p L I ltac:(lia)) as [k [Ep [Hk [Hpk Hx]]]].
  assert (k = L) by lia. subst k. rewrite Nat.sub_diag in Ep. cbn [zeros repeat] in Ep. rewrite app_nil_r in Ep.
  set (u := window (bits_of e (buffer r)) p L) in *.
  assert (Lu : length u = L) by (apply window_length; rewrite bits_of_length; lia).
  unfold read_last. rewrite Ep. cbn [obind].
  assert (Ecw : codeword m (value e u) L = u) by (rewrite <- Lu; apply codeword_value).
  rewrite Ecw.
  rewrite (last_match_prefix S m L ds u (skipn p (bits_of e (buffer r))) HM).
  2:{ unfold u, window. rewrite firstn_firstn, Nat.min_id. reflexivity. }
  destruct (last_match m ds (skipn p (bits_of e (buffer r)))) as [d|] eqn:El; [|reflexivity].
  rewrite (lm_last S m ds 0) in El. destruct (lm m ds 0 _) as [[i d']|] eqn:E; cbn [option_map snd] in El; [|discriminate].
  injection El as ->. destruct (lm_index S m ds 0 _ i d E) as [_ [_ [Hd _]]]. pose proof (HM d Hd) as HdL.
  rewrite (available_inv e r p I). cbn [obind].
  destruct (N.ltb_spec (N.of_nat (8 * length (buffer r) - p) mod 2 ^ 32) (N.of_nat (d_bits d))) as [Hlt|_].
  { exfalso. rewrite N.mod_small in Hlt by lia. lia. }
  destruct (skip_bits_exact e r p (d_bits d) I ltac:(lia)) as [r' [Er [I' B']]]. rewrite Er. cbn [obind].
  exists r'. split; [reflexivity|]. split; [exact I'|]. split; [exact B'|exact HdL].
Qed.

Lemma last_wins_run : forall (S : Type) ord m (ds : list (desc S)) cb, permuting ord -> codes_fit m ds ->
  (forall d, In d ds -> d_bits d <= 10) -> (N.of_nat (nused ds) <= 2 ^ 24)%N -> (exists d, In d ds /\ used d) ->
  new_codebook ord ds m = Ret (Okay cb) ->
  forall steps r p, (forall s, In s steps -> exists d, s = Codeword d) -> inv (reader_for m) r p ->
  p + 10 * length steps + 64 <= 8 * length (buffer r) ->
  (N.of_nat (8 * length (buffer r)) < 2 ^ 32)%N ->
  exists r', run_mixed (reader_for m) cb r steps = Ret (r', fst (last_wins m ds (bits_of (reader_for m) (buffer r)) (length steps) p)) /\
    inv (reader_for m) r' (snd (last_wins m ds (bits_of (reader_for m) (buffer r)) (length steps) p)).
Proof.
  intros S ord m ds cb Hord Hf Hsh H24 Hu Hcb. induction steps as [|s steps IH]; intros r p Hst I Hp H32.
  - exists r. split; [reflexivity|exact I].
  - destruct (Hst s (or_introl eq_refl)) as [d0 ->]. cbn [run_mixed length last_wins] in *.
    assert (Hst' : forall s, In s steps -> exists d, s = Codeword d) by (intros s Hs; apply Hst; right; exact Hs).
    assert (Hc : cbound r) by (apply winv_cbound; apply (inv_winv _ _ _ I)).
    rewrite (short_exact S ord m ds cb (reader_for m) r Hord Hf Hsh H24 Hu Hcb Hc).
    set (L := list_max (map d_bits ds)).
    assert (HM : forall d, In d ds -> d_bits d <= L) by (intros d Hd; apply list_max_in; apply in_map; exact Hd).
    assert (HL : L <= 10).
    { apply list_max_le. apply Forall_forall. intros x Hx. apply in_map_iff in Hx. destruct Hx as [d [<- Hd]]. apply Hsh. exact Hd. }
    pose proof (read_last_at S m ds L r p HM HL I ltac:(lia) H32) as Hr.
    destruct (last_match m ds (skipn p (bits_of (reader_for m) (buffer r)))) as [d|].
    + destruct Hr as [r1 [E1 [I1 [B1 Hd]]]]. rewrite E1. cbn [obind].
      destruct (IH r1 (p + d_bits d) Hst' I1) as [r2 [E2 I2]]; [rewrite B1; lia|rewrite B1; exact H32|].
      rewrite E2. cbn [obind]. rewrite B1 in *. destruct (last_wins m ds _ (length steps) (p + d_bits d)) as [outs p'].
      cbn [fst snd] in *. exists r2. split; [reflexivity|exact I2].
    + rewrite Hr. cbn [obind]. destruct (IH r p Hst' I ltac:(lia) H32) as [r2 [E2 I2]].
      rewrite E2. cbn [obind]. destruct (last_wins m ds _ (length steps) p) as [outs p'].
      cbn [fst snd] in *. exists r2. split; [reflexivity|exact I2].
Qed.
