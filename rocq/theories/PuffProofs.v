(** Proofs for C192. *)
From Coq Require Import List Arith NArith ZArith Bool Lia.
From Coq Require Import ZifyBool ZifyNat ZifyN.
From Verif Require Import Base BitModel BitSpec BitProofs CodebookModel CodebookSpec CodebookProofs CodebookProofs2 CodebookProofs3 CodebookProofs4 CodebookProofs5
  CompleteSpec CompleteProofs ReleaseLongProofs2 CanonSpec CanonProofs PuffSpec.
Import ListNotations.
Local Open Scope nat_scope.

Definition at_off (ls : list nat) (b k : nat) : list nat := filter (fun i => nth (i - k) ls 0 =? b) (seq k (length ls)).

Lemma at_off_cons : forall l ls b k, at_off (l :: ls) b k = if l =? b then k :: at_off ls b (S k) else at_off ls b (S k).
Proof.
  intros l ls b k. unfold at_off. cbn [length seq filter]. rewrite Nat.sub_diag. change (nth 0 (l :: ls) 0) with l.
  assert (E : filter (fun i => nth (i - k) (l :: ls) 0 =? b) (seq (S k) (length ls)) = filter (fun i => nth (i - S k) ls 0 =? b) (seq (S k) (length ls))).
  { apply filter_ext_in. intros i Hi. apply in_seq in Hi. replace (i - k) with (S (i - S k)) by lia. reflexivity. }
  rewrite E. reflexivity.
Qed.

Lemma at_off_length : forall b ls k, length (at_off ls b k) = count_occ Nat.eq_dec ls b.
Proof.
  intros b. induction ls as [|l ls IH]; intros k; [reflexivity|]. rewrite at_off_cons. cbn [count_occ].
  destruct (Nat.eq_dec l b) as [E|E]; destruct (Nat.eqb_spec l b) as [F|F]; try contradiction; cbn [length]; rewrite IH; reflexivity.
Qed.

Lemma at_off_nth : forall b ls k n i, nth_error (at_off ls b k) n = Some i ->
  k <= i /\ i - k < length ls /\ nth (i - k) ls 0 = b /\ count_occ Nat.eq_dec (firstn (i - k) ls) b = n.
Proof.
  intros b. induction ls as [|l ls IH]; intros k n i H; [destruct n; discriminate H|]. rewrite at_off_cons in H.
  destruct (Nat.eqb_spec l b) as [F|F].
  - destruct n as [|n]; cbn [nth_error] in H.
    + injection H as <-. rewrite Nat.sub_diag. cbn. repeat split; solve [lia | exact F].
    + destruct (IH _ _ _ H) as [A [B [C D]]]. replace (i - k) with (S (i - S k)) by lia. cbn [nth firstn length count_occ].
      destruct (Nat.eq_dec l b); [|contradiction]. repeat split; try lia.
  - destruct (IH _ _ _ H) as [A [B [C D]]]. replace (i - k) with (S (i - S k)) by lia. cbn [nth firstn length count_occ].
    destruct (Nat.eq_dec l b); [contradiction|]. repeat split; try lia.
Qed.

Lemma symbols_at : forall ls b, symbols_of ls b = at_off ls b 0.
Proof. intros ls b. unfold symbols_of, at_off. apply filter_ext. intros i. rewrite Nat.sub_0_r. reflexivity. Qed.

Lemma symbols_count : forall ls b, length (symbols_of ls (S b)) = with_length ls (S b).
Proof. intros ls b. rewrite symbols_at. apply at_off_length. Qed.

Lemma symbols_nth : forall ls b n i, nth_error (symbols_of ls (S b)) n = Some i ->
  i < length ls /\ nth i ls 0 = S b /\ with_length (firstn i ls) (S b) = n.
Proof.
  intros ls b n i H. rewrite symbols_at in H. destruct (at_off_nth _ _ _ _ _ H) as [_ [A [B C]]]. rewrite Nat.sub_0_r in *. auto.
Qed.

Lemma before_less : forall b ls i, i < length ls -> nth i ls 0 = b -> count_occ Nat.eq_dec (firstn i ls) b < count_occ Nat.eq_dec ls b.
Proof.
  intros b. induction ls as [|l ls IH]; intros i Hi Hn; [cbn in Hi; lia|]. destruct i as [|i]; cbn [firstn count_occ nth] in *.
  - destruct (Nat.eq_dec l b); [lia|contradiction].
  - cbn [length] in Hi. pose proof (IH i ltac:(lia) Hn). destruct (Nat.eq_dec l b); lia.
Qed.

Lemma value_be_snoc : forall l b, value_be (l ++ [b]) = (2 * value_be l + (if b then 1 else 0))%N.
Proof. intros l b. unfold value_be. rewrite fold_left_app. reflexivity. Qed.

Lemma app_eq_app_length : forall (A : Type) (x y u v : list A), length x = length y -> x ++ u = y ++ v -> x = y /\ u = v.
Proof.
  intros A. induction x as [|a x IH]; intros [|b y] u v Hl E; try discriminate Hl; [auto|]. injection Hl as Hl. injection E as -> E.
  destruct (IH y u v Hl E) as [-> ->]. auto.
Qed.

(** What is found is the symbol whose codeword comes next. *)
Lemma puff_sound : forall ls bits pre i l,
  (first_code ls (S (length pre)) <= 2 * value_be pre)%N ->
  puff_decode ls (length pre) (value_be pre) (first_code ls (S (length pre))) bits = Some (i, l) ->
  i < length ls /\ 0 < l /\ nth i ls 0 = l /\ is_prefix (codeword MSB (canonical_code ls i) l) (pre ++ bits).
Proof.
  intros ls. induction bits as [|b bits IH]; intros pre i l Hf H; [discriminate H|]. cbn [puff_decode] in H.
  set (code' := (2 * value_be pre + (if b then 1 else 0))%N) in *.
  assert (Hc : value_be (pre ++ [b]) = code') by (apply value_be_snoc).
  assert (Hl : length (pre ++ [b]) = S (length pre)) by (rewrite app_length; cbn; lia).
  destruct (N.ltb_spec code' (first_code ls (S (length pre)) + N.of_nat (length (symbols_of ls (S (length pre)))))) as [Hlt|Hge].
  - destruct (nth_error _ _) as [i'|] eqn:E in H; [|discriminate H]. injection H as <- <-.
    destruct (symbols_nth _ _ _ _ E) as [A [B C]]. split; [exact A|]. split; [lia|]. split; [exact B|].
    assert (Hcode : canonical_code ls i' = code').
    { unfold canonical_code. rewrite B, C. clear - Hf. rewrite N2Nat.id. unfold code' in *. lia. }
    exists bits. rewrite Hcode, <- Hc, <- Hl. pose proof (codeword_value MSB (pre ++ [b])) as V. cbn [reader_for value] in V. rewrite V, <- app_assoc. reflexivity.
  - rewrite symbols_count in *. rewrite <- Hl, <- Hc in H.
    change (2 * (first_code ls (length (pre ++ [b])) + N.of_nat (with_length ls (length (pre ++ [b])))))%N with (first_code ls (S (length (pre ++ [b])))) in H.
    apply IH in H.
    + rewrite <- app_assoc in H. exact H.
    + rewrite Hl, Hc. remember (S (length pre)) as n. cbn [first_code]. lia.
Qed.

(** If nothing is found no codeword comes next. *)
Lemma puff_none : forall ls bits pre i,
  (first_code ls (S (length pre)) <= 2 * value_be pre)%N ->
  puff_decode ls (length pre) (value_be pre) (first_code ls (S (length pre))) bits = None ->
  (canonical_code ls i < pow2 (nth i ls 0%nat))%N -> length pre < nth i ls 0 -> ~ is_prefix (codeword MSB (canonical_code ls i) (nth i ls 0)) (pre ++ bits).
Proof.
  intros ls. induction bits as [|b bits IH]; intros pre i Hf H Hfit Hlen [c E].
  - apply (f_equal (@length bool)) in E. rewrite !app_length, codeword_length in E. cbn in E. lia.
  - cbn [puff_decode] in H. set (code' := (2 * value_be pre + (if b then 1 else 0))%N) in *.
    assert (Hc : value_be (pre ++ [b]) = code') by (apply value_be_snoc).
    assert (Hl : length (pre ++ [b]) = S (length pre)) by (rewrite app_length; cbn; lia).
    destruct (N.ltb_spec code' (first_code ls (S (length pre)) + N.of_nat (length (symbols_of ls (S (length pre)))))) as [Hlt|Hge].
    + destruct (nth_error _ _) eqn:E' in H; [discriminate H|]. apply nth_error_None in E'. unfold code' in *. lia.
    + rewrite symbols_count in *. destruct (Nat.eq_dec (nth i ls 0) (S (length pre))) as [Eq|Hne].
      * assert (Hi : i < length ls). { destruct (Nat.lt_ge_cases i (length ls)) as [K|K]; [exact K|]. rewrite nth_overflow in Hlen by exact K. lia. }
        assert (Hw : codeword MSB (canonical_code ls i) (nth i ls 0) = pre ++ [b]).
        { replace (pre ++ b :: bits) with ((pre ++ [b]) ++ bits) in E by (rewrite <- app_assoc; reflexivity).
          assert (K : length (pre ++ [b]) = length (codeword MSB (canonical_code ls i) (nth i ls 0))) by (rewrite codeword_length; congruence).
          symmetry. exact (proj1 (app_eq_app_length _ _ _ _ _ K E)). }
        apply (f_equal value_be) in Hw. rewrite Hc in Hw. pose proof (value_codeword MSB _ _ Hfit) as V. cbn [reader_for value] in V. rewrite V in Hw.
        unfold canonical_code in Hw. rewrite Eq in Hw. pose proof (before_less (S (length pre)) ls i Hi Eq) as K. unfold with_length in Hw, Hge. cbn [Nat.eqb] in Hw, Hge. lia.
      * rewrite <- Hl, <- Hc in H.
        change (2 * (first_code ls (length (pre ++ [b])) + N.of_nat (with_length ls (length (pre ++ [b])))))%N with (first_code ls (S (length (pre ++ [b])))) in H.
        refine (IH (pre ++ [b]) i _ H Hfit _ _).
        -- rewrite Hl, Hc. remember (S (length pre)) as n. cbn [first_code]. lia.
        -- lia.
        -- exists c. rewrite <- app_assoc. exact E.
Qed.

Lemma puff_some : forall ls bits i l, puff ls bits = Some (i, l) ->
  i < length ls /\ 0 < l /\ nth i ls 0 = l /\ is_prefix (codeword MSB (canonical_code ls i) l) bits.
Proof. intros ls bits i l H. exact (puff_sound ls bits [] i l (N.le_refl _) H). Qed.

Lemma puff_nothing : forall ls bits i, room_for ls -> puff ls bits = None -> 0 < nth i ls 0 -> ~ is_prefix (codeword MSB (canonical_code ls i) (nth i ls 0)) bits.
Proof. intros ls bits i Hk H Hp. exact (puff_none ls bits [] i (N.le_refl _) H (code_fits ls i Hk Hp) Hp). Qed.

Lemma puff_reads : forall ord m ls cb buf steps r0 r outs p,
  permuting ord -> Forall (fun l => l <= 32) ls -> room_for ls -> (N.of_nat (length ls) <= 2 ^ 24)%N ->
  (N.of_nat (length ls * ((list_max ls - 1) / 10)) < 2 ^ 14)%N -> new_codebook ord (canonical m ls) m = Ret (Okay cb) ->
  bytes buf -> 8 <= length buf -> (N.of_nat (8 * length buf) < 2 ^ 32)%N ->
  steps_within m (canonical m ls) (bits_of (reader_for m) buf) (8 * length buf - 64) 0 steps ->
  new (reader_for m) buf = Ret r0 -> run_mixed (reader_for m) cb r0 steps = Ret (r, outs) ->
  p = fst (spec_steps m (bits_of (reader_for m) buf) 0 steps) -> p + list_max ls + 64 <= 8 * length buf ->
  match puff ls (skipn p (bits_of (reader_for m) buf)) with
  | Some (i, l) => exists r', read_cb (reader_for m) cb r = Ret (r', Okay i) /\ consumed r' = Ret (p + l)
  | None => exists r', read_cb (reader_for m) cb r = Ret (r', Error InvalidCode)
  end.
Proof.
  intros ord m ls cb buf steps r0 r outs p Hord H32 Hk Hn Hs Hcb Hb Hlen Hbig Hw E0 Er Hp Hfar.
  pose proof (canonical_valid m ls H32 Hk Hn Hs) as Hv. destruct (puff _ _) as [[i l]|] eqn:E.
  - destruct (puff_some _ _ _ _ E) as [Hi [Hl [Eb [c Hc]]]].
    assert (Hi' : i < length (canonical m ls)) by (rewrite canonical_length; exact Hi).
    pose proof (nth_error_nth' (canonical m ls) (mk_desc 0%N 0 0) Hi') as En. set (d := nth i (canonical m ls) (mk_desc 0%N 0 0)) in *.
    destruct (canonical_nth m ls i d En) as [_ [Ed [Es Wd]]].
    destruct (new_inv (reader_for m) buf Hb) as [r0' [E0' [I0 B0]]]. rewrite E0 in E0'. injection E0' as <-.
    pose proof Hw as Hw'. pose proof Hlen as Hlen'. pose proof Hbig as Hbig'. rewrite <- B0 in Hlen', Hbig', Hw'.
    destruct (run_mixed_exact nat ord m (canonical m ls) cb Hord Hv Hcb steps r0 0 I0 ltac:(lia) Hbig' Hw') as [r1 [E1 [I Br]]].
    rewrite Er in E1. injection E1 as <- _. rewrite B0 in *. rewrite <- Hp in I. pose proof (max_ge ls i) as Hmax.
    destruct (read_cb_hit nat ord m (canonical m ls) cb r p d Hord Hv Hcb I (nth_error_In _ _ En)) as [r' [E' [I' B']]].
    + unfold used. rewrite Ed, Eb. exact Hl.
    + rewrite Br, Wd, Ed. unfold window. rewrite Hc, Eb. rewrite firstn_app, codeword_length, Nat.sub_diag, firstn_O, app_nil_r.
      apply firstn_all2. rewrite codeword_length. apply le_n.
    + rewrite Br, Ed. clear - Hmax Hfar. lia.
    + rewrite Br. exact Hbig.
    + exists r'. rewrite E', Es. split; [reflexivity|]. rewrite Ed, Eb in I'. apply (consumed_inv _ _ _ I').
  - apply (unknown_rejected nat ord m (canonical m ls) cb buf steps r0 r outs p); try assumption.
    + intros d Hd _. apply In_nth_error in Hd as [i Hi]. destruct (canonical_nth m ls i d Hi) as [_ [-> _]]. pose proof (max_ge ls i). lia.
    + intros d Hd Hu. apply In_nth_error in Hd as [i Hi]. destruct (canonical_nth m ls i d Hi) as [_ [Ed [_ Wd]]]. rewrite Wd. apply puff_nothing; try assumption.
      unfold used in Hu. lia.
Qed.

Lemma two_prefixes : forall a b c, is_prefix a c -> is_prefix b c -> is_prefix a b \/ is_prefix b a.
Proof.
  intros a b c Ha Hb. destruct (Nat.le_ge_cases (length a) (length b)) as [H|H].
  - left. exact (prefix_comparable a b c Ha Hb H).
  - right. exact (prefix_comparable b a c Hb Ha H).
Qed.

Lemma puff_exact : forall ls bits i l, room_for ls ->
  (puff ls bits = Some (i, l) <-> 0 < l /\ nth i ls 0 = l /\ is_prefix (codeword MSB (canonical_code ls i) l) bits).
Proof.
  intros ls bits i l Hk. split; [intros H; destruct (puff_some _ _ _ _ H) as [_ K]; exact K|]. intros [Hl [E Hp]].
  destruct (puff ls bits) as [[i' l']|] eqn:Ep.
  - destruct (puff_some _ _ _ _ Ep) as [Hi' [Hl' [E' Hp']]]. destruct (Nat.eq_dec i i') as [->|Hne]; [rewrite <- E, <- E'; reflexivity|]. exfalso.
    assert (Hi : i < length ls). { destruct (Nat.lt_ge_cases i (length ls)) as [K|K]; [exact K|]. rewrite nth_overflow in E by exact K. lia. }
    assert (G : forall j, j < length ls -> nth_error (canonical MSB ls) j = Some (nth j (canonical MSB ls) (mk_desc 0%N 0 0))).
    { intros j Hj. apply nth_error_nth'. rewrite canonical_length. exact Hj. }
    pose proof (G i Hi) as Gi. pose proof (G i' Hi') as Gi'. destruct (canonical_nth _ _ _ _ Gi) as [_ [Bi [_ Wi]]]. destruct (canonical_nth _ _ _ _ Gi') as [_ [Bi' [_ Wi']]].
    assert (Ui : used (nth i (canonical MSB ls) (mk_desc 0%N 0 0))) by (unfold used; rewrite Bi, E; exact Hl).
    assert (Ui' : used (nth i' (canonical MSB ls) (mk_desc 0%N 0 0))) by (unfold used; rewrite Bi', E'; exact Hl').
    rewrite <- E in Hp. rewrite <- E' in Hp'. rewrite <- Wi in Hp. rewrite <- Wi' in Hp'.
    destruct (two_prefixes _ _ _ Hp Hp') as [K|K].
    + exact (canonical_pf MSB ls Hk i i' _ _ Gi Gi' Hne Ui Ui' K).
    + exact (canonical_pf MSB ls Hk i' i _ _ Gi' Gi (not_eq_sym Hne) Ui' Ui K).
  - exfalso. subst l. exact (puff_nothing ls bits i Hk Ep Hl Hp).
Qed.
