(** Proofs for C188: the Kraft sum of a prefix code. *)
From Coq Require Import List Arith NArith ZArith Bool Lia.
From Coq Require Import ZifyBool ZifyNat ZifyN.
From Verif Require Import Base BitModel BitSpec BitProofs CodebookModel CodebookSpec CodebookProofs CodebookProofs5 CompleteSpec.
Import ListNotations.
Local Open Scope nat_scope.

(** ** Sets of words *)

Definition pfree (ws : list (list bool)) : Prop :=
  forall i j a b, nth_error ws i = Some a -> nth_error ws j = Some b -> i <> j -> ~ is_prefix a b.

Fixpoint share (L : nat) (ws : list (list bool)) : N :=
  match ws with
  | [] => 0
  | w :: ws' => 2 ^ N.of_nat (L - length w) + share L ws'
  end.

(** The tails of the words beginning with [b]. *)
Fixpoint after (b : bool) (ws : list (list bool)) : list (list bool) :=
  match ws with
  | [] => []
  | [] :: ws' => after b ws'
  | (x :: w) :: ws' => if Bool.eqb x b then w :: after b ws' else after b ws'
  end.

Lemma after_in : forall b ws w, In w (after b ws) <-> In (b :: w) ws.
Proof.
  intros b ws w. induction ws as [|[|x v] ws IH]; cbn [after In].
  - tauto.
  - rewrite IH. split; [tauto|]. intros [H|H]; [discriminate|exact H].
  - destruct (Bool.eqb x b) eqn:E.
    + apply eqb_prop in E as ->. cbn [In]. rewrite IH. split; intros [H|H]; auto; [left; congruence|left; congruence].
    + rewrite IH. split; [tauto|]. intros [H|H]; [|exact H]. injection H as -> _. rewrite eqb_reflx in E. discriminate.
Qed.

(** Words of [after] come from different places. *)
Lemma after_nth : forall b ws i w, nth_error (after b ws) i = Some w ->
  exists k, nth_error ws k = Some (b :: w) /\ i <= k /\ i = length (after b (firstn k ws)).
Proof.
  intros b ws. induction ws as [|[|x v] ws IH]; intros i w H; cbn [after] in H.
  - destruct i; discriminate.
  - destruct (IH i w H) as [k [Hk [Hle Hi]]]. exists (S k). cbn [nth_error firstn after]. split; [exact Hk|]. split; [lia|exact Hi].
  - destruct (Bool.eqb x b) eqn:E.
    + apply eqb_prop in E as ->. destruct i as [|i].
      * injection H as ->. exists 0. repeat split; auto.
      * cbn [nth_error] in H. destruct (IH i w H) as [k [Hk [Hle Hi]]]. exists (S k). cbn [nth_error firstn after].
        rewrite eqb_reflx. cbn [length]. split; [exact Hk|]. split; lia.
    + destruct (IH i w H) as [k [Hk [Hle Hi]]]. exists (S k). cbn [nth_error firstn after]. rewrite E. split; [exact Hk|]. split; [lia|exact Hi].
Qed.

Lemma after_pfree : forall b ws, pfree ws -> pfree (after b ws).
Proof.
  intros b ws H i j u v Hi Hj Hne [c Hp].
  destruct (after_nth b ws i u Hi) as [ki [Ki [_ Ei]]]. destruct (after_nth b ws j v Hj) as [kj [Kj [_ Ej]]].
  apply (H ki kj (b :: u) (b :: v) Ki Kj).
  - intros ->. apply Hne. congruence.
  - exists c. cbn. rewrite Hp. reflexivity.
Qed.

Lemma after_len : forall b L ws, Forall (fun w => length w <= S L) ws -> Forall (fun w => length w <= L) (after b ws).
Proof.
  intros b L ws H. rewrite Forall_forall in *. intros w Hw. apply after_in in Hw. specialize (H _ Hw). cbn in H. lia.
Qed.

Lemma share_split : forall L ws, ~ In [] ws -> share (S L) ws = (share L (after false ws) + share L (after true ws))%N.
Proof.
  intros L ws. induction ws as [|[|x v] ws IH]; intros H; [reflexivity|exfalso; apply H; left; reflexivity|].
  cbn [share length after]. rewrite IH by (intros X; apply H; right; exact X). replace (S L - S (length v)) with (L - length v) by lia.
  destruct x; cbn [Bool.eqb share]; lia.
Qed.

(** The empty word stands alone. *)
Lemma empty_alone : forall ws, pfree ws -> In [] ws -> ws = [[]].
Proof.
  intros ws H Hin. apply In_nth_error in Hin as [k Hk]. destruct ws as [|a [|b ws]].
  - destruct k; discriminate.
  - destruct k as [|[|k]]; [|discriminate|discriminate]. injection Hk as ->. reflexivity.
  - exfalso. destruct k as [|k].
    + injection Hk as ->. apply (H 0 1 [] b); auto. exists b. reflexivity.
    + apply (H (S k) 0 [] a Hk); auto. exists a. reflexivity.
Qed.

Lemma kraft_inequality : forall L ws, pfree ws -> Forall (fun w => length w <= L) ws -> (share L ws <= 2 ^ N.of_nat L)%N.
Proof.
  induction L as [|L IH]; intros ws Hp Hl.
  - destruct ws as [|w ws]; [cbn; lia|]. rewrite (empty_alone (w :: ws) Hp); [cbn; lia|].
    left. inversion Hl as [|? ? Hw]; subst. destruct w; [reflexivity|cbn in Hw; lia].
  - destruct (in_dec (list_eq_dec bool_dec) [] ws) as [Hin|Hin].
    + rewrite (empty_alone ws Hp Hin). cbn [share length]. rewrite Nat.sub_0_r. lia.
    + rewrite (share_split L ws Hin).
      pose proof (IH _ (after_pfree false _ Hp) (after_len false _ _ Hl)). pose proof (IH _ (after_pfree true _ Hp) (after_len true _ _ Hl)).
      rewrite Nat2N.inj_succ, N.pow_succ_r'. lia.
Qed.

(** A full share: every string has a word at its beginning. *)
Lemma kraft_covers : forall L ws, pfree ws -> Forall (fun w => length w <= L) ws -> share L ws = (2 ^ N.of_nat L)%N ->
  forall s, L <= length s -> exists w, In w ws /\ is_prefix w s.
Proof.
  induction L as [|L IH]; intros ws Hp Hl Hs s Hlen.
  - destruct ws as [|w ws]; [discriminate Hs|]. inversion Hl as [|? ? Hw]; subst. destruct w; [|cbn in Hw; lia].
    exists []. split; [left; reflexivity|]. exists s. reflexivity.
  - destruct (in_dec (list_eq_dec bool_dec) [] ws) as [Hin|Hin].
    + exists []. split; [exact Hin|]. exists s. reflexivity.
    + rewrite (share_split L ws Hin) in Hs. rewrite Nat2N.inj_succ, N.pow_succ_r' in Hs.
      pose proof (kraft_inequality L _ (after_pfree false _ Hp) (after_len false _ _ Hl)) as H0.
      pose proof (kraft_inequality L _ (after_pfree true _ Hp) (after_len true _ _ Hl)) as H1.
      destruct s as [|b s]; [cbn in Hlen; lia|]. cbn [length] in Hlen.
      assert (Hb : share L (after b ws) = (2 ^ N.of_nat L)%N) by (destruct b; lia).
      destruct (IH _ (after_pfree b _ Hp) (after_len b _ _ Hl) Hb s ltac:(lia)) as [w [Hw [c Hc]]].
      exists (b :: w). split; [apply after_in; exact Hw|]. exists c. cbn. rewrite Hc. reflexivity.
Qed.

(** A share that is not full: some string has none. *)
Lemma kraft_misses : forall L ws, pfree ws -> Forall (fun w => length w <= L) ws -> (share L ws < 2 ^ N.of_nat L)%N ->
  exists s, length s = L /\ forall w t, In w ws -> ~ is_prefix w (s ++ t).
Proof.
  induction L as [|L IH]; intros ws Hp Hl Hs.
  - destruct ws as [|w ws]; [exists []; split; [reflexivity|intros ? ? []]|]. cbn [share Nat.sub] in Hs. change (2 ^ N.of_nat 0)%N with 1%N in Hs. lia.
  - destruct (in_dec (list_eq_dec bool_dec) [] ws) as [Hin|Hin].
    + rewrite (empty_alone ws Hp Hin) in Hs. cbn [share length] in Hs. rewrite Nat.sub_0_r in Hs. lia.
    + rewrite (share_split L ws Hin) in Hs. rewrite Nat2N.inj_succ, N.pow_succ_r' in Hs.
      assert (Hb : exists b, (share L (after b ws) < 2 ^ N.of_nat L)%N).
      { destruct (N.lt_ge_cases (share L (after false ws)) (2 ^ N.of_nat L)) as [H|H]; [exists false; exact H|exists true; lia]. }
      destruct Hb as [b Hb]. destruct (IH _ (after_pfree b _ Hp) (after_len b _ _ Hl) Hb) as [s [Ls Hno]].
      exists (b :: s). split; [cbn; lia|]. intros w t Hw [c Hc]. destruct w as [|x w]; [contradiction|].
      cbn in Hc. injection Hc as -> Hc. apply (Hno w t); [apply after_in; exact Hw|]. exists c. exact Hc.
Qed.

(** ** Descriptions *)

Lemma words_pfree : forall (S : Type) m (ds : list (desc S)), prefix_free m ds -> pfree (words m ds).
Proof.
  intros S m ds. unfold words. induction ds as [|d ds IH]; intros H; [intros i j a b Hi; destruct i; discriminate|].
  assert (Hds : prefix_free m ds) by (intros i j a b Hi Hj Hne; apply (H (Datatypes.S i) (Datatypes.S j)); auto).
  cbn [filter]. destruct (0 <? d_bits d) eqn:Eu; [|apply IH; exact Hds]. cbn [map].
  assert (Hd : forall w k, nth_error (map (word m) (filter (fun d => 0 <? d_bits d) ds)) k = Some w ->
            exists e i, nth_error ds i = Some e /\ used e /\ w = word m e).
  { intros w k Hk. apply nth_error_In, in_map_iff in Hk as [e [<- He]]. apply filter_In in He as [He Hue].
    apply In_nth_error in He as [i Hi]. exists e, i. split; [exact Hi|]. split; [unfold used; lia|reflexivity]. }
  assert (Hu : used d) by (unfold used; lia).
  intros i j a b Hi Hj Hne. destruct i as [|i], j as [|j]; cbn [nth_error] in Hi, Hj.
  - congruence.
  - injection Hi as <-. destruct (Hd _ _ Hj) as [e [k [Hk [Hue ->]]]]. apply (H 0 (Datatypes.S k)); auto.
  - injection Hj as <-. destruct (Hd _ _ Hi) as [e [k [Hk [Hue ->]]]]. apply (H (Datatypes.S k) 0); auto.
  - apply (IH Hds i j); auto.
Qed.

Lemma word_len : forall (S : Type) m (d : desc S), length (word m d) = d_bits d.
Proof. intros. apply codeword_length. Qed.

Lemma longest_le : forall (S : Type) (ds : list (desc S)) d, In d ds -> d_bits d <= longest_word ds.
Proof.
  intros S ds d H. unfold longest_word. pose proof (proj1 (list_max_le (map d_bits ds) _) (le_n _)) as F.
  rewrite Forall_forall in F. apply F. apply in_map. exact H.
Qed.

Lemma words_len : forall (S : Type) m (ds : list (desc S)), Forall (fun w => length w <= longest_word ds) (words m ds).
Proof.
  intros S m ds. rewrite Forall_forall. intros w H. apply in_map_iff in H as [d [<- H]]. apply filter_In in H as [H _].
  rewrite word_len. apply longest_le. exact H.
Qed.

Lemma share_sum : forall (S : Type) m L (ds : list (desc S)),
  share L (words m ds) =
    fold_right N.add 0%N (map (fun d => if 0 <? d_bits d then (2 ^ N.of_nat (L - d_bits d))%N else 0%N) ds).
Proof.
  intros S m L ds. unfold words. induction ds as [|d ds IH]; [reflexivity|]. cbn [filter map fold_right]. destruct (0 <? d_bits d).
  - cbn [map share]. rewrite IH, word_len. reflexivity.
  - rewrite IH. reflexivity.
Qed.

Lemma words_in : forall (S : Type) m (ds : list (desc S)) w, In w (words m ds) -> exists d, In d ds /\ used d /\ w = word m d.
Proof.
  intros S m ds w H. apply in_map_iff in H as [d [<- H]]. apply filter_In in H as [H Hu]. exists d. unfold used. split; [exact H|]. split; [lia|reflexivity].
Qed.

Lemma kraft_bound : forall (S : Type) m (ds : list (desc S)), prefix_free m ds -> (kraft_sum ds <= 2 ^ N.of_nat (longest_word ds))%N.
Proof.
  intros S m ds H. unfold kraft_sum. rewrite <- (share_sum S m). apply kraft_inequality; [apply words_pfree; exact H|apply words_len].
Qed.

Lemma complete_covers : forall (S : Type) m (ds : list (desc S)) s, prefix_free m ds -> complete ds -> longest_word ds <= length s ->
  exists d, In d ds /\ used d /\ is_prefix (word m d) s.
Proof.
  intros S m ds s Hp Hc Hl.
  destruct (kraft_covers (longest_word ds) (words m ds) (words_pfree S m ds Hp) (words_len S m ds)) with (s := s) as [w [Hw Hps]].
  - rewrite share_sum. exact Hc.
  - exact Hl.
  - apply words_in in Hw as [d [Hd [Hu ->]]]. exists d. auto.
Qed.

Lemma covers_window : forall (S : Type) m (ds : list (desc S)) l p, prefix_free m ds -> complete ds -> p + longest_word ds <= length l ->
  exists d, In d ds /\ used d /\ d_bits d <= longest_word ds /\ window l p (d_bits d) = word m d.
Proof.
  intros S m ds l p Hp Hc Hl. destruct (complete_covers S m ds (skipn p l) Hp Hc) as [d [Hd [Hu [c Hw]]]].
  - rewrite skipn_length. lia.
  - exists d. split; [exact Hd|]. split; [exact Hu|]. split; [apply longest_le; exact Hd|].
    unfold window. rewrite Hw. rewrite <- (word_len S m d). rewrite firstn_app, firstn_all, Nat.sub_diag, firstn_O, app_nil_r. reflexivity.
Qed.

(** ** Reading *)

Lemma steps_app : forall (S : Type) m (ds : list (desc S)) l limit st1 st2 p,
  steps_within m ds l limit p (st1 ++ st2) <->
  steps_within m ds l limit p st1 /\ steps_within m ds l limit (fst (spec_steps m l p st1)) st2.
Proof.
  intros S m ds l limit. induction st1 as [|[op|d] st1 IH]; intros st2 p; cbn [app steps_within spec_steps].
  - cbn [fst]. tauto.
  - destruct (spec_op (reader_for m) l p op) as [p1 o]. cbn [fst]. rewrite IH. destruct (spec_steps m l p1 st1) as [p2 os]. cbn [fst]. tauto.
  - rewrite IH. destruct (spec_steps m l (p + d_bits d) st1) as [p2 os]. cbn [fst]. tauto.
Qed.

Lemma complete_reads : forall (S : Type) ord m (ds : list (desc S)) cb buf steps r0 r outs p,
  permuting ord -> valid_description m ds -> complete ds -> new_codebook ord ds m = Ret (Okay cb) ->
  bytes buf -> 8 <= length buf -> (N.of_nat (8 * length buf) < 2 ^ 32)%N ->
  steps_within m ds (bits_of (reader_for m) buf) (8 * length buf - 64) 0 steps ->
  new (reader_for m) buf = Ret r0 -> run_mixed (reader_for m) cb r0 steps = Ret (r, outs) ->
  p = fst (spec_steps m (bits_of (reader_for m) buf) 0 steps) ->
  p + longest_word ds + 64 <= 8 * length buf ->
  exists d r', In d ds /\ used d /\ window (bits_of (reader_for m) buf) p (d_bits d) = word m d /\
    read_cb (reader_for m) cb r = Ret (r', Okay (d_sym d)) /\ consumed r' = Ret (p + d_bits d).
Proof.
  intros S ord m ds cb buf steps r0 r outs p Hord Hv Hc Hcb Hb Hlen H32 Hw E0 Er Hp Hfar.
  destruct (covers_window S m ds (bits_of (reader_for m) buf) p) as [d [Hd [Hu [Hle Hwin]]]]; [apply Hv|exact Hc|rewrite bits_of_length; lia|].
  destruct (new_inv (reader_for m) buf Hb) as [r0' [E0' [I0 B0]]]. rewrite E0 in E0'. injection E0' as <-.
  pose proof Hw as Hw'. pose proof Hlen as Hlen'. pose proof H32 as H32'. rewrite <- B0 in Hlen', H32', Hw'.
  destruct (run_mixed_exact S ord m ds cb Hord Hv Hcb steps r0 0 I0 ltac:(lia) H32' Hw') as [r1 [E [I Br]]].
  rewrite Er in E. injection E as <- _. rewrite B0 in *. rewrite <- Hp in I.
  destruct (read_cb_hit S ord m ds cb r p d Hord Hv Hcb I Hd Hu) as [r' [E' [I' B']]].
  - rewrite Br. exact Hwin.
  - rewrite Br. lia.
  - rewrite Br. exact H32.
  - exists d, r'. split; [exact Hd|]. split; [exact Hu|]. split; [exact Hwin|]. split; [exact E'|]. apply (consumed_inv _ _ _ I').
Qed.

Lemma greedy : forall (S : Type) m (ds : list (desc S)) l limit, prefix_free m ds -> complete ds -> limit <= length l ->
  forall n p, p + n * longest_word ds <= limit ->
  exists msg, length msg = n /\ Forall (fun d => In d ds /\ used d) msg /\
    length (message_bits m msg) <= n * longest_word ds /\ window l p (length (message_bits m msg)) = message_bits m msg.
Proof.
  intros S m ds l limit Hp Hc Hl. induction n as [|n IH]; intros p Hn.
  - exists []. repeat split; auto.
  - cbn [Nat.mul] in Hn. destruct (covers_window S m ds l p Hp Hc ltac:(lia)) as [d [Hd [Hu [Hle Hw]]]].
    destruct (IH (p + d_bits d) ltac:(lia)) as [msg [Ln [Hall [Hlm Hm]]]].
    exists (d :: msg). split; [cbn; lia|]. split; [constructor; auto|].
    unfold message_bits in *. cbn [flat_map]. rewrite app_length, word_len. split; [cbn [Nat.mul]; lia|].
    rewrite window_split, Hw, Hm. reflexivity.
Qed.

Lemma complete_decodes : forall (S : Type) ord m (ds : list (desc S)) cb buf n,
  permuting ord -> valid_description m ds -> complete ds -> new_codebook ord ds m = Ret (Okay cb) ->
  bytes buf -> (N.of_nat (8 * length buf) < 2 ^ 32)%N -> n * longest_word ds + 64 <= 8 * length buf ->
  exists msg r0 r, length msg = n /\ Forall (fun d => In d ds /\ used d) msg /\
    message_bits m msg = firstn (length (message_bits m msg)) (bits_of (reader_for m) buf) /\
    new (reader_for m) buf = Ret r0 /\
    run_mixed (reader_for m) cb r0 (map Codeword msg) = Ret (r, map (fun d => Sym (Okay (d_sym d))) msg) /\
    consumed r = Ret (length (message_bits m msg)).
Proof.
  intros S ord m ds cb buf n Hord Hv Hc Hcb Hb H32 Hn. set (l := bits_of (reader_for m) buf).
  assert (Ll : length l = 8 * length buf) by apply bits_of_length.
  destruct (greedy S m ds l (8 * length buf - 64) ltac:(apply Hv) Hc ltac:(lia) n 0 ltac:(lia)) as [msg [Ln [Hall [Hlm Hm]]]].
  assert (Hf : message_bits m msg = firstn (length (message_bits m msg)) l) by (symmetry; exact Hm).
  destruct (codebook_histories S ord m ds cb buf (map Codeword msg) Hord Hv Hcb Hb ltac:(lia) H32) as [r0 [r [E0 [E1 E2]]]].
  - fold l. rewrite <- (firstn_skipn (length (message_bits m msg)) l). rewrite <- Hf.
    apply (message_steps S m ds msg [] _ _ Hall). cbn [length plus]. lia.
  - rewrite message_outputs in E1, E2. cbn [fst snd plus] in E1, E2. exists msg, r0, r. fold l. repeat (split; [assumption|]). assumption.
Qed.

Lemma incomplete_rejects : forall (S : Type) ord m (ds : list (desc S)) cb,
  permuting ord -> valid_description m ds -> ~ complete ds -> new_codebook ord ds m = Ret (Okay cb) ->
  exists buf r0 r', bytes buf /\ longest_word ds + 64 <= 8 * length buf /\ length buf <= longest_word ds + 8 /\
    new (reader_for m) buf = Ret r0 /\ read_cb (reader_for m) cb r0 = Ret (r', Error InvalidCode).
Proof.
  intros S ord m ds cb Hord Hv Hc Hcb.
  assert (Hlt : (share (longest_word ds) (words m ds) < 2 ^ N.of_nat (longest_word ds))%N).
  { pose proof (kraft_bound S m ds ltac:(apply Hv)) as H. unfold kraft_sum in H. rewrite <- (share_sum S m) in H.
    unfold complete, kraft_sum in Hc. rewrite <- (share_sum S m) in Hc. lia. }
  destruct (kraft_misses _ _ (words_pfree S m ds ltac:(apply Hv)) (words_len S m ds) Hlt) as [s [Ls Hno]].
  set (L := longest_word ds) in *. set (n := (L + 7) / 8 + 8).
  set (buf := pack (reader_for m) n (s ++ repeat false (8 * n - L))).
  assert (Hn : L + 64 <= 8 * n) by (unfold n; lia).
  assert (Hbits : bits_of (reader_for m) buf = s ++ repeat false (8 * n - L)).
  { apply pack_bits. rewrite app_length, repeat_length. lia. }
  assert (Hlen : length buf = n) by apply pack_length.
  assert (HL : L <= 255).
  { unfold L, longest_word. apply list_max_le. rewrite Forall_forall. intros b Hin. apply in_map_iff in Hin as [d [<- Hd]].
    destruct (Nat.eq_dec (d_bits d) 0) as [->|Hu]; [lia|]. destruct Hv as [Hf _]. destruct (Hf d Hd ltac:(unfold used; lia)) as [Hb _].
    unfold longest in Hb. destruct m; lia. }
  destruct (new_inv (reader_for m) buf (pack_bytes _ _ _)) as [r0 [E0 _]].
  destruct (unknown_rejected S ord m ds cb buf [] r0 r0 [] 0 Hord Hv Hcb) as [r' E'].
  - apply pack_bytes.
  - lia.
  - rewrite Hlen. change (2 ^ 32)%N with 4294967296%N. unfold n. lia.
  - exact I.
  - exact E0.
  - reflexivity.
  - reflexivity.
  - intros d Hd Hu. pose proof (longest_le S ds d Hd). fold L in H. lia.
  - intros d Hd Hu. cbn [skipn]. rewrite Hbits. apply Hno. unfold words. apply in_map. apply filter_In. split; [exact Hd|]. unfold used in Hu. lia.
  - exists buf, r0, r'. split; [apply pack_bytes|]. split; [lia|]. split; [unfold n in Hlen; lia|]. split; assumption.
Qed.
