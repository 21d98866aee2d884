(** The size of the table, small descriptions, and what goes wrong beyond 2^24. *)
From Coq Require Import List Arith NArith ZArith Bool Lia Permutation.
From Coq Require Import ZifyBool ZifyNat ZifyN.
From Verif Require Import Base ByteModel BitModel BitSpec BitProofs BitProofs2 CodebookModel CodebookSpec
  CodebookProofs CodebookProofs2 CodebookSizeProofs CodebookProofs3 CodebookProofs4 CodebookProofs5
  CodebookSparse CodebookLargeSpec.
Import ListNotations.
Local Open Scope nat_scope.

(** ** The size of the table *)

Lemma table_length : forall (S : Type) ord m (ds : list (desc S)) cb, permuting ord -> valid_description m ds ->
  new_codebook ord ds m = Ret (Okay cb) -> N.of_nat (length (cb_table cb)) = table_entries (words m ds).
Proof.
  intros S ord m ds cb Ho Hv H.
  destruct (new_codebook_ok S ord m ds Ho Hv (codebook_used S ord m ds cb H)) as [cb' [lo [hi [E [_ [_ [L _]]]]]]].
  rewrite H in E. injection E as <-. exact L.
Qed.

Lemma list_sum_le : forall (A : Type) (f : A -> nat) k l, (forall x, In x l -> f x <= k) ->
  list_sum (map f l) <= k * length l.
Proof.
  intros A f k. induction l as [|x l IH]; intros H; [cbn; lia|]. cbn [map length].
  change (list_sum (f x :: map f l)) with (f x + list_sum (map f l)).
  pose proof (H x (or_introl eq_refl)). specialize (IH (fun y Hy => H y (or_intror Hy))). lia.
Qed.

Lemma words_length : forall (S : Type) m (ds : list (desc S)), length (words m ds) <= length ds.
Proof.
  intros S m ds. unfold words. rewrite map_length. induction ds as [|d ds IH]; [apply Nat.le_refl|].
  cbn [filter]. destruct (0 <? d_bits d); cbn [length]; lia.
Qed.

Lemma words_short : forall (S : Type) m (ds : list (desc S)) L w, (forall d, In d ds -> d_bits d <= L) -> In w (words m ds) -> length w <= L.
Proof.
  intros S m ds L w H Hw. unfold words in Hw. apply in_map_iff in Hw. destruct Hw as [d [<- Hd]].
  apply filter_In in Hd. destruct Hd as [Hd Hu]. unfold word. rewrite codeword_length.
  apply (H d Hd).
Qed.

Lemma few_codes : forall (S : Type) m (ds : list (desc S)) L, codes_fit m ds -> prefix_free m ds ->
  (forall d, In d ds -> d_bits d <= L) -> (N.of_nat (length ds) <= 2 ^ 24)%N ->
  (N.of_nat (length ds * ((L - 1) / 10)) < 2 ^ 14)%N -> valid_description m ds.
Proof.
  intros S m ds L Hf Hp HL Hl0 Hl. change (2 ^ 24)%N with 16777216%N in Hl0. change (2 ^ 14)%N with 16384%N in Hl. split; [exact Hf|]. split; [exact Hp|].
  pose proof (words_length S m ds) as Hw. change (2 ^ 24)%N with 16777216%N.
  split; [change (2 ^ 24)%N with 16777216%N; lia|]. change (2 ^ 24)%N with 16777216%N.
  pose proof (table_entries_le (words m ds)) as Ht.
  pose proof (list_sum_le _ (fun w : list bool => (length w - 1) / 10) ((L - 1) / 10) (words m ds)) as Hs.
  assert (Hx : list_sum (map (fun w : list bool => (length w - 1) / 10) (words m ds)) <= (L - 1) / 10 * length (words m ds)).
  { apply Hs. intros w Hin. pose proof (words_short S m ds L w HL Hin).
    apply Nat.div_le_mono; lia. }
  assert (Hy : (L - 1) / 10 * length (words m ds) <= (L - 1) / 10 * length ds) by (apply Nat.mul_le_mono_l; exact Hw).
  lia.
Qed.

(** ** Table entries are 32-bit words *)

Definition word32 (t : list N) : Prop := Forall (fun x => (x < W32)%N) t.

Lemma entry_bound : forall x b, b <= 10 -> (lut_entry x b < W32)%N /\ (esc_entry x b < W32)%N.
Proof.
  intros x b Hb. assert (H1 : (N.shiftl x 8 mod W32 < W32)%N) by (apply N.mod_lt; discriminate).
  assert (H2 : (N.of_nat b < W32)%N) by (unfold W32; change (2 ^ 32)%N with 4294967296%N; lia).
  unfold lut_entry, esc_entry, W32 in *. split; [apply lor_bound; assumption|].
  apply lor_bound; [|exact H2]. apply lor_bound; [exact H1|reflexivity].
Qed.

Lemma word32_update : forall t i v, word32 t -> (v < W32)%N -> word32 (update t i v).
Proof.
  intros t. induction t as [|x t IH]; intros i v H Hv; [constructor|]. inversion_clear H as [|? ? Hx Ht].
  destruct i as [|i]; cbn [update]; constructor; try assumption. apply IH; assumption.
Qed.

Lemma word32_store : forall t i v t', word32 t -> (v < W32)%N -> store t i v = Ret t' -> word32 t'.
Proof.
  intros t i v t' H Hv E. unfold store in E. destruct (i <? length t); [|discriminate]. injection E as <-.
  apply word32_update; assumption.
Qed.

Lemma word32_fill_loop : forall off idx v n t j t', word32 t -> (v < W32)%N -> fill_loop t off idx v j n = Ret t' -> word32 t'.
Proof.
  intros off idx v. induction n as [|n IH]; intros t j t' H Hv E; cbn [fill_loop] in E.
  - injection E as <-. exact H.
  - destruct (idx j) as [i| |]; try discriminate. cbn [obind] in E.
    destruct (store t (N.to_nat i + off) v) as [t1| |] eqn:E1; try discriminate. cbn [obind] in E.
    apply (IH t1 _ t' (word32_store _ _ _ _ H Hv E1) Hv E).
Qed.

Lemma csub_le : forall a b c, csub a b = Ret c -> b <= a /\ c = a - b.
Proof.
  intros a b c E. unfold csub in E. destruct (Nat.leb_spec b a); [|discriminate]. injection E as <-.
  split; [assumption|reflexivity].
Qed.

Lemma word32_fill_lut : forall t m off code bits lut_bits symidx (esc : bool) t', word32 t ->
  (if esc then bits else lut_bits) <= 10 -> fill_lut t m off code bits lut_bits symidx esc = Ret t' -> word32 t'.
Proof.
  intros t m off code bits lut_bits symidx esc t' H Hb E.
  destruct esc.
  - destruct (entry_bound symidx bits Hb) as [_ He].
    unfold fill_lut, fill_lut_msb, fill_lut_lsb in E. cbn [negb] in E. destruct m; apply (word32_store _ _ _ _ H He E).
  - destruct m; unfold fill_lut, fill_lut_msb, fill_lut_lsb in E; cbn [negb] in E;
      destruct (csub lut_bits bits) as [n| |] eqn:En; try discriminate; cbn [obind] in E;
      destruct (shl32 1 n) as [a| |]; try discriminate; cbn [obind] in E;
      apply csub_le in En; destruct En as [En _]; pose proof (proj1 (entry_bound symidx bits (Nat.le_trans _ _ _ En Hb))) as He.
    + destruct (shl32 code n) as [b| |]; try discriminate. cbn [obind] in E.
      apply (word32_fill_loop _ _ _ _ _ _ _ H He E).
    + destruct (csub lut_bits n) as [b| |]; try discriminate. cbn [obind] in E.
      apply (word32_fill_loop _ _ _ _ _ _ _ H He E).
Qed.

Lemma word32_short : forall t m off code bits lut_bits symidx t', word32 t -> lut_bits <= 10 ->
  fill_lut t m off code bits lut_bits symidx false = Ret t' -> word32 t'.
Proof. intros t m off code bits lut_bits symidx t' H Hb. exact (word32_fill_lut t m off code bits lut_bits symidx false t' H Hb). Qed.

Lemma word32_repeat : forall n, word32 (repeat TABLE_FILL_VALUE n).
Proof. intros n. apply Forall_forall. intros x Hx. apply repeat_spec in Hx. subst x. reflexivity. Qed.

Lemma word32_alloc : forall t m cur key b t' b', word32 t -> alloc_bucket t m cur key b = Ret (t', b') -> word32 t'.
Proof.
  intros t m cur key b t' b' H E. unfold alloc_bucket, resize_table in E.
  destruct (shl32 1 (Nat.min (b_maxlen b) MAX_LUT_BITS)) as [a| |]; try discriminate. cbn [obind] in E.
  match type of E with obind ?x _ = _ => destruct x as [t1| |] eqn:E1; try discriminate end.
  cbn [obind] in E. injection E as <- <-.
  assert (H1 : word32 (t ++ repeat TABLE_FILL_VALUE (N.to_nat a))) by (apply Forall_app; split; [exact H|apply word32_repeat]).
  refine (word32_fill_lut _ _ _ _ _ _ _ _ _ H1 _ E1). apply Nat.le_min_r.
Qed.

Lemma word32_pass1 : forall m off maxlen codes t cc t' cc', maxlen <= 10 -> word32 t ->
  esc_pass1 t m off maxlen codes cc = Ret (t', cc') -> word32 t'.
Proof.
  intros m off maxlen. induction codes as [|c codes IH]; intros t cc t' cc' Hm H E; cbn [esc_pass1] in E.
  - injection E as <- <-. exact H.
  - destruct (c_bits c <=? MAX_LUT_BITS).
    + match type of E with obind ?x _ = _ => destruct x as [t1| |] eqn:E1; try discriminate end. cbn [obind] in E.
      apply (IH t1 cc t' cc' Hm (word32_short _ _ _ _ _ _ _ _ H Hm E1) E).
    + destruct (add_long_code cc m c) as [cc1| |]; try discriminate. cbn [obind] in E. apply (IH t cc1 t' cc' Hm H E).
Qed.

Lemma word32_pass2 : forall m cur cc t t' cc', word32 t -> esc_pass2 t m cur cc = Ret (t', cc') -> word32 t'.
Proof.
  intros m cur. induction cc as [|[k b] cc IH]; intros t t' cc' H E; cbn [esc_pass2] in E.
  - injection E as <- <-. exact H.
  - destruct (alloc_bucket t m cur k b) as [[t1 b1]| |] eqn:E1; try discriminate. cbn [obind] in E.
    destruct (esc_pass2 t1 m cur cc) as [[t2 cc2]| |] eqn:E2; try discriminate. cbn [obind] in E. injection E as <- <-.
    apply (IH t1 t2 cc2 (word32_alloc _ _ _ _ _ _ _ H E1) E2).
Qed.

Lemma word32_build_all : forall build, (forall t k b t', word32 t -> build t k b = Ret t' -> word32 t') ->
  forall cc t t', word32 t -> build_all build t cc = Ret t' -> word32 t'.
Proof.
  intros build Hb. induction cc as [|[k b] cc IH]; intros t t' H E; cbn [build_all] in E.
  - injection E as <-. exact H.
  - destruct (build t k b) as [t1| |] eqn:E1; try discriminate. cbn [obind] in E. apply (IH t1 t' (Hb _ _ _ _ H E1) E).
Qed.

Lemma word32_build : forall ord m fuel path t b t', word32 t -> build_esc_lut fuel ord path t m b = Ret t' -> word32 t'.
Proof.
  intros ord m. induction fuel as [|fuel IH]; intros path t b t' H E; cbn [build_esc_lut] in E; [discriminate|].
  destruct (esc_pass1 t m (b_offset b) (Nat.min (b_maxlen b) MAX_LUT_BITS) (b_codes b) []) as [[t1 cc]| |] eqn:E1; try discriminate.
  cbn [obind] in E.
  destruct (esc_pass2 t1 m (b_offset b) (ord path cc)) as [[t2 cc2]| |] eqn:E2; try discriminate. cbn [obind] in E.
  apply (word32_build_all (fun t key b' => build_esc_lut fuel ord (key :: path) t m b')) with (cc := cc2) (t := t2).
  - intros t0 k b0 t0' H0 E0. apply (IH (k :: path) t0 b0 t0' H0 E0).
  - apply (word32_pass2 _ _ _ _ _ _ (word32_pass1 _ _ _ _ _ _ _ _ (Nat.le_min_r _ _) H E1) E2).
  - exact E.
Qed.

Lemma word32_new2 : forall (S : Type) m maxbits (ds : list (desc S)) t symidx cc t' cc', maxbits <= 10 -> word32 t ->
  new_pass2 t m maxbits ds symidx cc = Ret (t', cc') -> word32 t'.
Proof.
  intros S m maxbits. induction ds as [|d ds IH]; intros t symidx cc t' cc' Hm H E; cbn [new_pass2] in E.
  - injection E as <- <-. exact H.
  - destruct (d_bits d =? 0); [apply (IH _ _ _ _ _ Hm H E)|].
    match type of E with obind ?x _ = _ => destruct x as [[t1 cc1]| |] eqn:E1; try discriminate end. cbn [obind] in E.
    destruct (add32 symidx 1) as [y| |]; try discriminate. cbn [obind] in E. apply (IH t1 y cc1 t' cc' Hm); [|exact E].
    destruct (d_bits d <=? MAX_LUT_BITS).
    + match type of E1 with obind ?x _ = _ => destruct x as [t2| |] eqn:E2; try discriminate end. cbn [obind] in E1.
      injection E1 as <- <-. apply (word32_short _ _ _ _ _ _ _ _ H Hm E2).
    + destruct (extract_lut_part (d_code d) (d_bits d) MAX_LUT_BITS m) as [k| |]; try discriminate. cbn [obind] in E1.
      destruct (index_at t (N.to_nat k)) as [x| |]; try discriminate. cbn [obind] in E1.
      destruct (x =? TABLE_FILL_VALUE)%N; [|injection E1 as <- <-; exact H].
      destruct (find_bucket cc k) as [b|]; [|injection E1 as <- <-; exact H].
      destruct (alloc_bucket t m 0 k b) as [[t2 b2]| |] eqn:E2; try discriminate. cbn [obind] in E1.
      injection E1 as <- <-. apply (word32_alloc _ _ _ _ _ _ _ H E2).
Qed.

Lemma word32_codebook : forall (S : Type) ord m (ds : list (desc S)) cb, new_codebook ord ds m = Ret (Okay cb) ->
  word32 (cb_table cb) /\ cb_syms cb = used_syms ds.
Proof.
  intros S ord m ds cb E. unfold new_codebook in E.
  destruct (new_pass1 m ds 0 0 []) as [[mb cc]| |]; try discriminate. cbn [obind] in E.
  destruct (mb =? 0); [discriminate|]. set (mx := if MAX_LUT_BITS <? mb then MAX_LUT_BITS else mb) in *.
  assert (Hmx : mx <= 10) by (unfold mx; change MAX_LUT_BITS with 10; destruct (Nat.ltb_spec 10 mb); lia).
  destruct (shl32 1 mx) as [n| |]; try discriminate. cbn [obind] in E.
  match type of E with obind ?x _ = _ => destruct x as [[t cc1]| |] eqn:E1; try discriminate end. cbn [obind] in E.
  match type of E with obind ?x _ = _ => destruct x as [t2| |] eqn:E2; try discriminate end. cbn [obind] in E.
  injection E as <-. cbn [cb_table cb_syms]. split; [|reflexivity].
  apply (word32_build_all (fun t key b => build_esc_lut 26 ord [key] t m b)) with (cc := ord [] cc1) (t := t); [| |exact E2].
  - intros t0 k b t0' H0 E0. apply (word32_build _ _ _ _ _ _ _ H0 E0).
  - apply (word32_new2 _ _ _ _ _ _ _ _ _ Hmx (word32_repeat _) E1).
Qed.

(** ** Only the first 2^24 symbols are ever read *)

Lemma read_loop_low : forall (S : Type) e (cb : codebook S) fuel r idx lut_bits r' s, word32 (cb_table cb) ->
  read_loop fuel e cb r idx lut_bits = Ret (r', Okay s) ->
  exists i, (i < 2 ^ 24)%N /\ nth_error (cb_syms cb) (N.to_nat i) = Some s.
Proof.
  intros S e cb. induction fuel as [|fuel IH]; intros r idx lut_bits r' s H E; cbn [read_loop] in E; [discriminate|].
  destruct (peek_bits_32 e r lut_bits) as [[r0 v]| |]; try discriminate. cbn [obind] in E.
  destruct (index_at (cb_table cb) (N.to_nat (v + idx))) as [x| |] eqn:Ex; try discriminate. cbn [obind] in E.
  destruct (x =? TABLE_FILL_VALUE)%N; [discriminate|].
  destruct (available r) as [a| |]; try discriminate. cbn [obind] in E.
  destruct (N.of_nat a mod W32 <? N.land x 127)%N; [discriminate|].
  match type of E with obind ?m _ = _ => destruct m as [r1| |]; try discriminate end. cbn [obind] in E.
  destruct (negb (N.land x 128 =? 0)%N); [apply (IH _ _ _ _ _ H E)|].
  destruct (index_at (cb_syms cb) (N.to_nat (N.shiftr x 8))) as [y| |] eqn:Ey; try discriminate. cbn [obind] in E.
  injection E as <- <-. exists (N.shiftr x 8). split.
  - unfold index_at in Ex. destruct (nth_error (cb_table cb) (N.to_nat (v + idx))) as [x0|] eqn:En; [|discriminate].
    injection Ex as ->. apply nth_error_In in En. unfold word32 in H. rewrite Forall_forall in H. specialize (H x En).
    rewrite N.shiftr_div_pow2. apply N.div_lt_upper_bound; [discriminate|]. exact H.
  - unfold index_at in Ey. destruct (nth_error (cb_syms cb) (N.to_nat (N.shiftr x 8))) as [z|]; [|discriminate].
    injection Ey as ->. reflexivity.
Qed.

Lemma first_symbols : forall (S : Type) ord m (ds : list (desc S)) cb e rounds r r' s,
  new_codebook ord ds m = Ret (Okay cb) -> read_loop rounds e cb r 0 (cb_lut_bits cb) = Ret (r', Okay s) ->
  exists i, (i < 2 ^ 24)%N /\ nth_error (map d_sym (filter (fun d => 0 <? d_bits d) ds)) (N.to_nat i) = Some s.
Proof.
  intros S ord m ds cb e rounds r r' s Hn Hr. destruct (word32_codebook S ord m ds cb Hn) as [Hw Hs].
  unfold used_syms in Hs. rewrite <- Hs. apply (read_loop_low S e cb rounds r 0%N (cb_lut_bits cb) r' s Hw Hr).
Qed.

(** ** Evenly spaced words *)

Lemma count_up_nth : forall n k i, i < n -> nth_error (count_up n k) i = Some (k + N.of_nat i)%N.
Proof.
  induction n as [|n IH]; intros k i H; [lia|]. destruct i as [|i]; cbn [count_up nth_error].
  - f_equal. lia.
  - rewrite IH by lia. f_equal. lia.
Qed.

Lemma count_up_length : forall n k, length (count_up n k) = n.
Proof. induction n as [|n IH]; intros k; cbn; [reflexivity|]. rewrite IH. reflexivity. Qed.

Lemma evenly_nth : forall n step bits i d, nth_error (evenly n step bits) i = Some d ->
  (N.of_nat i < n)%N /\ d = mk_desc (N.of_nat i * step)%N bits (N.of_nat i).
Proof.
  intros n step bits i d E. unfold evenly in E.
  assert (Hi : i < N.to_nat n).
  { rewrite <- (count_up_length (N.to_nat n) 0). rewrite <- (map_length (fun i0 => mk_desc (i0 * step)%N bits i0)).
    apply nth_error_Some. congruence. }
  rewrite (map_nth_error _ _ _ (count_up_nth _ 0%N i Hi)) in E. injection E as <-. split; [lia|reflexivity].
Qed.

Lemma evenly_in : forall n step bits i, (i < n)%N -> In (mk_desc (i * step)%N bits i) (evenly n step bits).
Proof.
  intros n step bits i Hi. unfold evenly. apply in_map_iff. exists i. split; [reflexivity|].
  apply (nth_error_In _ (N.to_nat i)). rewrite count_up_nth by lia. f_equal. lia.
Qed.

Lemma evenly_fit : forall m n step bits, bits <= longest m -> (n * step <= 2 ^ N.of_nat bits)%N ->
  (n * step <= 2 ^ 32)%N -> (0 < step)%N ->
  codes_fit m (evenly n step bits).
Proof.
  intros m n step bits Hb Hn Hn32 Hs d Hd _. apply In_nth_error in Hd. destruct Hd as [i E].
  apply evenly_nth in E. destruct E as [Hi ->]. cbn [d_bits d_code]. split; [exact Hb|].
  assert (Hc : (N.of_nat i * step < n * step)%N) by (apply N.mul_lt_mono_pos_r; assumption).
  split; apply (N.lt_le_trans _ _ _ Hc); assumption.
Qed.

Lemma evenly_prefix_free : forall m n step bits, (n * step <= 2 ^ N.of_nat bits)%N -> (0 < step)%N ->
  prefix_free m (evenly n step bits).
Proof.
  intros m n step bits Hn Hs i j a b Ha Hc Hij _ _ [c Hp].
  apply evenly_nth in Ha. apply evenly_nth in Hc. destruct Ha as [Hi ->], Hc as [Hj ->].
  unfold word in Hp. cbn [d_code d_bits] in Hp.
  assert (c = []).
  { apply (f_equal (@length bool)) in Hp. rewrite app_length, !codeword_length in Hp. destruct c; [reflexivity|cbn in Hp; lia]. }
  subst c. rewrite app_nil_r in Hp. apply (f_equal (value (reader_for m))) in Hp.
  assert (Hvi : (N.of_nat i * step < pow2 bits)%N)
    by (apply (N.lt_le_trans _ (n * step)); [apply N.mul_lt_mono_pos_r; assumption|exact Hn]).
  assert (Hvj : (N.of_nat j * step < pow2 bits)%N)
    by (apply (N.lt_le_trans _ (n * step)); [apply N.mul_lt_mono_pos_r; assumption|exact Hn]).
  rewrite !value_codeword in Hp by assumption. apply Hij.
  apply N.mul_cancel_r in Hp; lia.
Qed.

Lemma many_symbols : exists (ds : list (desc N)) d, codes_fit MSB ds /\ prefix_free MSB ds /\ In d ds /\ used d /\
  forall ord cb e rounds r r', new_codebook ord ds MSB = Ret (Okay cb) ->
    read_loop rounds e cb r 0 (cb_lut_bits cb) <> Ret (r', Okay (d_sym d)).
Proof.
  exists (evenly (2 ^ 24 + 1) 1 25), (mk_desc (2 ^ 24 * 1)%N 25 (2 ^ 24)%N).
  split; [apply evenly_fit; [cbn [longest]; lia|vm_compute; discriminate|vm_compute; discriminate|reflexivity]|].
  split; [apply evenly_prefix_free; [vm_compute; discriminate|reflexivity]|].
  split; [apply evenly_in; reflexivity|]. split; [unfold used; cbn [d_bits]; lia|].
  intros ord cb e rounds r r' Hn Hr. cbn [d_sym] in Hr.
  destruct (first_symbols N ord MSB _ cb e rounds r r' _ Hn Hr) as [i [Hi Hs]].
  assert (F : filter (fun d : desc N => 0 <? d_bits d) (evenly (2 ^ 24 + 1) 1 25) = evenly (2 ^ 24 + 1) 1 25).
  { unfold evenly. generalize (count_up (N.to_nat (2 ^ 24 + 1)) 0) as l. induction l as [|x l IH]; [reflexivity|].
    cbn [map filter d_bits]. change (0 <? 25) with true. cbv iota. rewrite IH. reflexivity. }
  rewrite F in Hs. destruct (nth_error (evenly (2 ^ 24 + 1) 1 25) (N.to_nat i)) as [d|] eqn:E.
  - rewrite (map_nth_error d_sym _ _ E) in Hs. apply evenly_nth in E. destruct E as [_ ->]. cbn [d_sym] in Hs.
    injection Hs as Hs. rewrite Nnat.N2Nat.id in Hs. subst i. exact (N.lt_irrefl _ Hi).
  - apply nth_error_None in E. rewrite <- (map_length d_sym) in E. apply nth_error_None in E. congruence.
Qed.

(** ** One table too many *)

(** The word 819, followed by zero bits. *)
Definition past_stream : list N := [51; 3]%N ++ repeat 0%N 78.

Definition reads_sparse (ds : list (desc N)) (buf : list N) (len x : N) : bool :=
  match sp_new ds, new LE buf with
  | Ret (Some (s, n)), Ret r0 =>
      match sp_read_loop 27 LE s (used_syms ds) r0 0 n with
      | Ret (_, Okay y) => (sp_len s =? len)%N && (y =? x)%N
      | _ => false
      end
  | _, _ => false
  end.

Lemma sparse_reads : forall ds buf len x, reads_sparse ds buf len x = true -> exists cb r0 r,
  new_codebook in_order ds LSB = Ret (Okay cb) /\ N.of_nat (length (cb_table cb)) = len /\
  new LE buf = Ret r0 /\ read_cb LE cb r0 = Ret (r, Okay x).
Proof.
  intros ds buf len x H. unfold reads_sparse in H.
  destruct (sp_new ds) as [[[s n]|]| |] eqn:En; try discriminate.
  destruct (new LE buf) as [r0| |] eqn:Er; try discriminate.
  destruct (sp_read_loop 27 LE s (used_syms ds) r0 0 n) as [[r [y|]]| |] eqn:Ex; try discriminate.
  apply andb_prop in H. destruct H as [HL H0]. apply N.eqb_eq in HL, H0. subst y.
  destruct (same_new N _ s n En) as [t [Ec HS]].
  exists (mk_codebook t (used_syms ds) n), r0, r. split; [exact Ec|].
  split; [cbn [cb_table]; destruct HS as [L _]; rewrite L, Nnat.N2Nat.id; exact HL|]. split; [reflexivity|].
  unfold read_cb. cbn [cb_lut_bits]. apply (same_read N LE s _ t n HS). exact Ex.
Qed.

Lemma past_reads : reads_sparse (evenly 820 1 210) past_stream (2 ^ 24 + 17408) 0 = true.
Proof. vm_compute. reflexivity. Qed.

Lemma permuting_in_order : permuting in_order.
Proof. intros path cc. apply Permutation_refl. Qed.

Lemma one_table_too_many : exists ord m (ds : list (desc N)) cb buf r0 d r s,
  permuting ord /\ codes_fit m ds /\ prefix_free m ds /\ (N.of_nat (length ds) < 2 ^ 24)%N /\
  new_codebook ord ds m = Ret (Okay cb) /\ N.of_nat (length (cb_table cb)) = (2 ^ 24 + 17408)%N /\
  bytes buf /\ (N.of_nat (8 * length buf) < 2 ^ 32)%N /\
  new (reader_for m) buf = Ret r0 /\ In d ds /\ used d /\
  window (bits_of (reader_for m) buf) 0 (d_bits d) = word m d /\ d_bits d + 64 <= 8 * length buf /\
  read_cb (reader_for m) cb r0 = Ret (r, Okay s) /\ s <> d_sym d.
Proof.
  destruct (sparse_reads _ _ _ _ past_reads) as [cb [r0 [r [Ec [HL [Er Ex]]]]]].
  exists in_order, LSB, (evenly 820 1 210), cb, past_stream, r0, (mk_desc (819 * 1)%N 210 819%N), r, 0%N.
  split; [exact permuting_in_order|].
  split; [apply evenly_fit; [cbn [longest]; lia|vm_compute; discriminate|vm_compute; discriminate|reflexivity]|].
  split; [apply evenly_prefix_free; [vm_compute; discriminate|reflexivity]|].
  split; [unfold evenly; rewrite map_length, count_up_length, Nnat.N2Nat.id; reflexivity|].
  split; [exact Ec|]. split; [exact HL|].
  split; [unfold past_stream; repeat (constructor; [reflexivity|]); constructor|].
  split; [reflexivity|]. split; [exact Er|]. split; [apply evenly_in; reflexivity|].
  split; [unfold used; cbn [d_bits]; lia|]. split; [vm_compute; reflexivity|].
  split; [cbn; lia|]. split; [exact Ex|cbn [d_sym]; discriminate].
Qed.

Lemma many_long_codes : exists (ds : list (desc N)),
  codes_fit MSB ds /\ prefix_free MSB ds /\ N.of_nat (length ds) = 5461%N /\ (forall d, In d ds -> d_bits d = 32).
Proof.
  exists (evenly 5461 4096 32).
  split; [apply evenly_fit; [cbn [longest]; lia|vm_compute; discriminate|vm_compute; discriminate|reflexivity]|].
  split; [apply evenly_prefix_free; [vm_compute; discriminate|reflexivity]|].
  split; [unfold evenly; rewrite map_length, count_up_length, Nnat.N2Nat.id; reflexivity|].
  intros d Hd. apply In_nth_error in Hd. destruct Hd as [i E]. apply evenly_nth in E. destruct E as [_ ->]. reflexivity.
Qed.
