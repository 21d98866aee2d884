(** Decoding with a table that serves a set of codewords. *)
From Coq Require Import List Arith NArith ZArith Bool Lia Permutation.
From Coq Require Import ZifyBool ZifyNat ZifyN.
From Verif Require Import Base ByteModel BitModel BitSpec BitProofs BitProofs2 CodebookModel CodebookSpec
  CodebookProofs.
Import ListNotations.
Local Open Scope nat_scope.
Ltac Zify.zify_post_hook ::= Z.div_mod_to_equations.

(** ** Table entries *)

Lemma shifted_small : forall i, (i < 2 ^ 24)%N -> (N.shiftl i 8 mod W32 = i * 256)%N.
Proof.
  intros i H. rewrite N.shiftl_mul_pow2. change (2 ^ 8)%N with 256%N. apply N.mod_small.
  unfold W32. change (2 ^ 24)%N with 16777216%N in H. change (2 ^ 32)%N with 4294967296%N. lia.
Qed.

Lemma lut_entry_sum : forall i b, (i < 2 ^ 24)%N -> b <= 10 -> lut_entry i b = (i * 256 + N.of_nat b)%N.
Proof.
  intros i b Hi Hb. unfold lut_entry. rewrite shifted_small by exact Hi. rewrite N.lor_comm.
  change (i * 256)%N with (i * pow2 8)%N. rewrite (lor_disjoint (N.of_nat b) i 8); [change (pow2 8) with 256%N; lia|].
  change (pow2 8) with 256%N. lia.
Qed.

Lemma esc_entry_sum : forall i b, (i < 2 ^ 24)%N -> b <= 10 -> esc_entry i b = (i * 256 + 128 + N.of_nat b)%N.
Proof.
  intros i b Hi Hb. unfold esc_entry. rewrite shifted_small by exact Hi.
  rewrite <- N.lor_assoc, N.lor_comm.
  rewrite (N.lor_comm 128). replace 128%N with (1 * pow2 7)%N at 1 by reflexivity.
  rewrite lor_disjoint by (change (pow2 7) with 128%N; lia). change (pow2 7) with 128%N.
  change (i * 256)%N with (i * pow2 8)%N.
  rewrite lor_disjoint by (change (pow2 8) with 256%N; lia). change (pow2 8) with 256%N. lia.
Qed.

Lemma land_127 : forall x, N.land x 127 = (x mod 128)%N.
Proof. intros x. change 127%N with (N.ones 7). rewrite N.land_ones. reflexivity. Qed.

Lemma land_128 : forall x, (N.land x 128 =? 0)%N = ((x / 128) mod 2 =? 0)%N.
Proof.
  intros x. change 128%N with (2 ^ 7)%N at 2. rewrite <- N.shiftr_div_pow2.
  replace ((N.shiftr x 7) mod 2)%N with (N.b2n (N.testbit x 7)).
  2:{ change 2%N with (2 ^ 1)%N. rewrite <- N.land_ones. change (N.ones 1) with 1%N.
      rewrite <- (N.bit0_mod (N.shiftr x 7)) || idtac.
      apply N.bits_inj. intros n. rewrite N.land_spec, N.shiftr_spec by lia.
      destruct n as [|n].
      - change (N.testbit 1 0) with true. rewrite N.b2n_bit0 || rewrite N.bit0_odd.
        cbn [N.add]. destruct (N.testbit x 7); reflexivity.
      - replace (N.testbit 1 (N.pos n)) with false by (destruct n; reflexivity).
        rewrite andb_false_r. destruct (N.testbit x 7); [destruct n; reflexivity|apply N.bits_0]. }
  destruct (N.testbit x 7) eqn:Hb.
  - apply N.eqb_neq. intros H0. apply (f_equal (fun y => N.testbit y 7)) in H0.
    rewrite N.land_spec, Hb in H0. discriminate.
  - apply N.eqb_eq. apply N.bits_inj_0. intros n. rewrite N.land_spec.
    change 128%N with (2 ^ 7)%N. rewrite N.pow2_bits_eqb.
    destruct (N.eqb_spec 7 n) as [<-|]; [rewrite Hb; reflexivity|apply andb_false_r].
Qed.

Lemma lut_entry_fields : forall i b, (i < 2 ^ 24)%N -> b <= 10 ->
  (lut_entry i b =? TABLE_FILL_VALUE)%N = false /\ N.land (lut_entry i b) 127 = N.of_nat b /\
  (N.land (lut_entry i b) 128 =? 0)%N = true /\ N.shiftr (lut_entry i b) 8 = i.
Proof.
  intros i b Hi Hb. rewrite lut_entry_sum by assumption. clear Hi.
  rewrite land_127, land_128, N.shiftr_div_pow2. change (2 ^ 8)%N with 256%N. unfold TABLE_FILL_VALUE.
  repeat split; lia.
Qed.

Lemma esc_entry_fields : forall i b, (i < 2 ^ 24)%N -> b <= 10 ->
  (esc_entry i b =? TABLE_FILL_VALUE)%N = false /\ N.land (esc_entry i b) 127 = N.of_nat b /\
  (N.land (esc_entry i b) 128 =? 0)%N = false /\ N.shiftr (esc_entry i b) 8 = i.
Proof.
  intros i b Hi Hb. rewrite esc_entry_sum by assumption. clear Hi.
  rewrite land_127, land_128, N.shiftr_div_pow2. change (2 ^ 8)%N with 256%N. unfold TABLE_FILL_VALUE.
  repeat split; lia.
Qed.

(** ** Sets of codewords *)

Definition item : Type := (list bool * nat)%type.

Definition items_of (m : mode) (cs : list code) : list item :=
  map (fun c => (codeword m (c_code c) (c_bits c), c_idx c)) cs.

Fixpoint maxl (B : list item) : nat :=
  match B with [] => 0 | (w, _) :: B' => Nat.max (length w) (maxl B') end.

Definition bits_eqb (a b : list bool) : bool := if list_eq_dec bool_dec a b then true else false.
Lemma bits_eqb_true : forall a b, bits_eqb a b = true <-> a = b.
Proof. intros a b. unfold bits_eqb. destruct (list_eq_dec bool_dec a b); split; congruence. Qed.

(** The remainders of the words longer than 10 bits that start with [u]. *)
Definition sub_one (u : list bool) (x : item) : list item :=
  if (10 <? length (fst x)) && bits_eqb (firstn 10 (fst x)) u then [(skipn 10 (fst x), snd x)] else [].
Definition sub (u : list bool) (B : list item) : list item := flat_map (sub_one u) B.

Lemma sub_app : forall u A B, sub u (A ++ B) = sub u A ++ sub u B.
Proof. intros. unfold sub. apply flat_map_app. Qed.

Lemma sub_in : forall u B w i, In (w, i) (sub u B) <->
  length u = 10 /\ w <> [] /\ In (u ++ w, i) B.
Proof.
  intros u B w i. unfold sub. rewrite in_flat_map. split.
  - intros [[w0 i0] [H0 H1]]. unfold sub_one in H1. cbn [fst snd] in H1.
    destruct ((10 <? length w0) && bits_eqb (firstn 10 w0) u) eqn:E; [|destruct H1].
    destruct H1 as [H1|[]]. apply pair_equal_spec in H1. destruct H1 as [<- <-].
    apply andb_prop in E. destruct E as [E1 E2]. apply Nat.ltb_lt in E1. apply bits_eqb_true in E2.
    split; [rewrite <- E2, firstn_length; lia|]. split.
    + intros Hn. apply (f_equal (@length bool)) in Hn. rewrite skipn_length in Hn. cbn in Hn. lia.
    + rewrite <- E2, firstn_skipn. exact H0.
  - intros [Hu [Hw Hin]]. exists (u ++ w, i). split; [exact Hin|]. unfold sub_one. cbn [fst snd].
    assert (F : firstn 10 (u ++ w) = u).
    { rewrite <- Hu, firstn_app, Nat.sub_diag, firstn_O, app_nil_r. apply firstn_all. }
    assert (K : skipn 10 (u ++ w) = w).
    { rewrite <- Hu, skipn_app, Nat.sub_diag, skipn_all. reflexivity. }
    rewrite F, K. rewrite (proj2 (bits_eqb_true u u) eq_refl).
    destruct (Nat.ltb_spec 10 (length (u ++ w))) as [|H].
    + left. reflexivity.
    + rewrite app_length in H. destruct w; [congruence|cbn in H; lia].
Qed.

Lemma maxl_in : forall B w i, In (w, i) B -> length w <= maxl B.
Proof.
  induction B as [|[w0 i0] B IH]; intros w i H; [destruct H|]. cbn [maxl].
  destruct H as [H|H]; [injection H as -> ->; lia|]. specialize (IH w i H). lia.
Qed.

Lemma maxl_le : forall B n, (forall w i, In (w, i) B -> length w <= n) -> maxl B <= n.
Proof.
  induction B as [|[w0 i0] B IH]; intros n H; cbn [maxl]; [lia|].
  apply Nat.max_lub; [exact (H w0 i0 (or_introl eq_refl))|]. apply IH. intros w i Hi. exact (H w i (or_intror Hi)).
Qed.

Lemma maxl_sub : forall u B, maxl (sub u B) <= maxl B - 10.
Proof.
  intros u B. apply maxl_le. intros w i H. apply sub_in in H. destruct H as [Hu [_ H]].
  apply maxl_in in H. rewrite app_length in H. lia.
Qed.

Definition pf (B : list item) : Prop :=
  forall w i w' i', In (w, i) B -> In (w', i') B -> is_prefix w w' -> w = w' /\ i = i'.
(** A word may be a prefix of another one only if both end in the same ten bits. *)
Definition lpf (B : list item) : Prop :=
  forall w i w' i', In (w, i) B -> In (w', i') B -> is_prefix w w' -> (length w - 1) / 10 = (length w' - 1) / 10.
Definition nonempty (B : list item) : Prop := forall w i, In (w, i) B -> w <> [].

Lemma pf_sub : forall u B, pf B -> pf (sub u B).
Proof.
  intros u B H w i w' i' H1 H2 [c Hp]. apply sub_in in H1, H2.
  destruct H1 as [Hu [_ H1]], H2 as [_ [_ H2]].
  destruct (H _ _ _ _ H1 H2) as [E ->].
  - exists c. rewrite Hp. apply app_assoc.
  - apply app_inv_head in E. split; [exact E|reflexivity].
Qed.

Lemma pf_lpf : forall B, pf B -> lpf B.
Proof. intros B H w i w' i' H1 H2 Hp. destruct (H _ _ _ _ H1 H2 Hp) as [-> _]. reflexivity. Qed.

Lemma lpf_sub : forall u B, lpf B -> lpf (sub u B).
Proof.
  intros u B H w i w' i' H1 H2 [c Hp]. apply sub_in in H1, H2.
  destruct H1 as [Hu [Hw H1]], H2 as [_ [Hw' H2]].
  assert (P : is_prefix (u ++ w) (u ++ w')) by (exists c; rewrite Hp; apply app_assoc).
  pose proof (H _ _ _ _ H1 H2 P) as E. rewrite !app_length, Hu in E.
  assert (0 < length w) by (destruct w; [congruence|cbn; lia]).
  assert (0 < length w') by (destruct w'; [congruence|cbn; lia]).
  replace (10 + length w - 1) with (1 * 10 + (length w - 1)) in E by lia.
  replace (10 + length w' - 1) with (1 * 10 + (length w' - 1)) in E by lia.
  rewrite !Nat.div_add_l in E by lia. lia.
Qed.

(** The word [(w, i)] is the last one of [B] of at most ten bits, [u] beginning with it
    or not, after which no other such word matches [u]. *)
Definition lastin (w : list bool) (i : nat) (u : list bool) (B : list item) : Prop :=
  exists B1 B2, B = B1 ++ (w, i) :: B2 /\ forall w' i', In (w', i') B2 -> length w' <= 10 -> ~ is_prefix w' u.

Lemma lastin_in : forall w i u B, lastin w i u B -> In (w, i) B.
Proof. intros w i u B [B1 [B2 [-> _]]]. apply in_or_app. right. left. reflexivity. Qed.

Lemma lastin_end : forall w i u B, lastin w i u (B ++ [(w, i)]).
Proof. intros w i u B. exists B, []. split; [reflexivity|]. intros w' i' []. Qed.

Lemma lastin_more : forall w i u B w' i', lastin w i u B -> (length w' <= 10 -> ~ is_prefix w' u) -> lastin w i u (B ++ [(w', i')]).
Proof.
  intros w i u B w' i' [B1 [B2 [-> H]]] Hn. exists B1, (B2 ++ [(w', i')]). split; [rewrite <- app_assoc; reflexivity|].
  intros v j Hin. apply in_app_or in Hin. destruct Hin as [Hin|[Hin|[]]]; [apply (H v j Hin)|].
  apply pair_equal_spec in Hin. destruct Hin as [<- _]. exact Hn.
Qed.

Lemma split_cases : forall (A : Type) (B1 B2 C1 C2 : list A) x y, B1 ++ x :: B2 = C1 ++ y :: C2 ->
  x = y \/ In y B2 \/ In x C2.
Proof.
  intros A. induction B1 as [|b B1 IH]; intros B2 [|c C1] C2 x y H; cbn [app] in H; injection H as H1 H2.
  - left. exact H1.
  - right. left. rewrite H2. apply in_or_app. right. left. reflexivity.
  - right. right. rewrite <- H2. apply in_or_app. right. left. reflexivity.
  - apply (IH B2 C1 C2 x y H2).
Qed.

Lemma lastin_unique : forall w i w' i' u B, lastin w i u B -> lastin w' i' u B -> length w <= 10 -> length w' <= 10 ->
  is_prefix w u -> is_prefix w' u -> w = w' /\ i = i'.
Proof.
  intros w i w' i' u B [B1 [B2 [E H]]] [C1 [C2 [E' H']]] L L' P P'. rewrite E in E'.
  destruct (split_cases _ _ _ _ _ _ _ E') as [X|[X|X]].
  - apply pair_equal_spec in X. exact X.
  - exfalso. exact (H _ _ X L' P').
  - exfalso. exact (H' _ _ X L P).
Qed.

Lemma nonempty_sub : forall u B, nonempty (sub u B).
Proof. intros u B w i H. apply sub_in in H. apply H. Qed.

Definition lbits (B : list item) : nat := Nat.min (maxl B) 10.
Definition lsize (B : list item) : nat := N.to_nat (pow2 (lbits B)).

(** The table [t] decodes the words of [B] starting at offset [off]; the tables
    of the escapes lie between [lo] and [hi]. *)
Fixpoint serves (d : nat) (e : endian) (t : list N) (lo hi off : nat) (B : list item) : Prop :=
  match d with
  | O => False
  | S d' =>
      forall u, length u = lbits B ->
      exists x, nth_error t (slot e off u) = Some x /\
        ((exists w i, lastin w i u B /\ length w <= 10 /\ is_prefix w u /\ x = lut_entry (N.of_nat i) (length w)) \/
         (sub u B <> [] /\ exists o, lo <= o /\ o + lsize (sub u B) <= hi /\ (N.of_nat o < 2 ^ 24)%N /\
            x = esc_entry (N.of_nat o) (lbits (sub u B)) /\ serves d' e t lo hi o (sub u B)) \/
         (x = TABLE_FILL_VALUE /\ sub u B = [] /\
            forall w i, In (w, i) B -> length w <= 10 -> ~ is_prefix w u))
  end.

(** No word of at most ten bits matches. *)
Definition no_short (u : list bool) (B : list item) : Prop :=
  forall w i, In (w, i) B -> length w <= 10 -> ~ is_prefix w u.

(** The same, and what happens when a short word matches where longer ones go on: in the main table
    ([top]) the short word counts, in the others the longer ones do. *)
Fixpoint decides (d : nat) (top : bool) (e : endian) (t : list N) (lo hi off : nat) (B : list item) : Prop :=
  match d with
  | O => False
  | S d' =>
      forall u, length u = lbits B ->
      exists x, nth_error t (slot e off u) = Some x /\
        (((top = false -> sub u B = []) /\
          exists w i, lastin w i u B /\ length w <= 10 /\ is_prefix w u /\ x = lut_entry (N.of_nat i) (length w)) \/
         (sub u B <> [] /\ (top = true -> no_short u B) /\ exists o, lo <= o /\ o + lsize (sub u B) <= hi /\ (N.of_nat o < 2 ^ 24)%N /\
            x = esc_entry (N.of_nat o) (lbits (sub u B)) /\ decides d' false e t lo hi o (sub u B)) \/
         (x = TABLE_FILL_VALUE /\ sub u B = [] /\ no_short u B))
  end.

(** Of a table [t] written over [t0]: entries that no word of [B] goes to are as before. *)
Definition covers (d : nat) (top : bool) (e : endian) (t0 t : list N) (lo hi off : nat) (B : list item) : Prop :=
  match d with
  | O => False
  | S d' =>
      forall u, length u = lbits B ->
      exists x, nth_error t (slot e off u) = Some x /\
        (((top = false -> sub u B = []) /\
          exists w i, lastin w i u B /\ length w <= 10 /\ is_prefix w u /\ x = lut_entry (N.of_nat i) (length w)) \/
         (sub u B <> [] /\ (top = true -> no_short u B) /\ exists o, lo <= o /\ o + lsize (sub u B) <= hi /\ (N.of_nat o < 2 ^ 24)%N /\
            x = esc_entry (N.of_nat o) (lbits (sub u B)) /\ decides d' false e t lo hi o (sub u B)) \/
         (nth_error t0 (slot e off u) = Some x /\ sub u B = [] /\ no_short u B))
  end.

Lemma covers_decides : forall d top e t0 t lo hi off B, covers d top e t0 t lo hi off B ->
  (forall u, length u = lbits B -> nth_error t0 (slot e off u) = Some TABLE_FILL_VALUE) -> decides d top e t lo hi off B.
Proof.
  intros [|d] top e t0 t lo hi off B H Hb; [exact H|]. cbn [covers decides] in *.
  intros u Hu. destruct (H u Hu) as [x [Hx Hc]]. exists x. split; [exact Hx|].
  destruct Hc as [Hc|[Hc|[H1 H2]]]; [left; exact Hc|right; left; exact Hc|].
  right. right. split; [|exact H2]. rewrite (Hb u Hu) in H1. injection H1 as <-. reflexivity.
Qed.

Lemma decides_serves : forall d top e t lo hi off B, decides d top e t lo hi off B -> serves d e t lo hi off B.
Proof.
  induction d as [|d IH]; intros top e t lo hi off B H; [exact H|]. cbn [serves decides] in *.
  intros u Hu. destruct (H u Hu) as [x [Hx Hc]]. exists x. split; [exact Hx|].
  destruct Hc as [[_ Hc]|[[Hs [_ [o [Ho1 [Ho2 [Ho3 [Hxe Hs']]]]]]]|Hc]]; [left; exact Hc| |right; right; exact Hc].
  right. left. split; [exact Hs|]. exists o. split; [exact Ho1|]. split; [exact Ho2|]. split; [exact Ho3|].
  split; [exact Hxe|]. apply (IH false). exact Hs'.
Qed.

Lemma decides_frame : forall d top e t t' lo hi lo' hi' off B, decides d top e t lo hi off B ->
  (forall k, off <= k < off + lsize B -> nth_error t' k = nth_error t k) ->
  (forall k, lo <= k < hi -> nth_error t' k = nth_error t k) ->
  lo' <= lo -> hi <= hi' -> decides d top e t' lo' hi' off B.
Proof.
  induction d as [|d IH]; intros top e t t' lo hi lo' hi' off B H Hr Hf Hlo Hhi; [exact H|].
  cbn [decides] in *. intros u Hu. destruct (H u Hu) as [x [Hx Hc]]. exists x. split.
  - rewrite Hr; [exact Hx|]. unfold lsize. rewrite <- Hu. apply slot_bound.
  - destruct Hc as [Hc|[[Hs [Ht [o [Ho1 [Ho2 [Ho3 [Hxe Hs']]]]]]]|Hc]]; [left; exact Hc| |right; right; exact Hc].
    right. left. split; [exact Hs|]. split; [exact Ht|]. exists o. split; [lia|]. split; [lia|]. split; [exact Ho3|].
    split; [exact Hxe|].
    apply (IH false e t t' lo hi lo' hi' o); [exact Hs'| |exact Hf|exact Hlo|exact Hhi].
    intros k Hk. apply Hf. lia.
Qed.

(** ** Peeking *)

Lemma peek_result : forall e r p n, inv e r p -> n <= 32 ->
  exists k, peek_bits_32 e r n = Ret (r, value e (window (bits_of e (buffer r)) p k ++ zeros (n - k))) /\
    k <= n /\ p + k <= 8 * length (buffer r) /\ (k < n -> 8 * length (buffer r) <= p + k + 56).
Proof.
  intros e r p n I Hn. destruct (get_bits_32_read e r p n I Hn) as [r' [k [E [I' [B [Hk [Hx _]]]]]]].
  exists k. unfold peek_bits_32. rewrite E. cbn [obind]. split; [reflexivity|]. split; [exact Hk|]. split.
  - pose proof (inv_pos _ _ _ I'). pose proof (inv_index _ _ _ I'). rewrite B in *. lia.
  - intros Hlt. destruct (Hx Hlt) as [L C]. pose proof (exhausted_near_end e r' _ I' L C). rewrite B in *. lia.
Qed.

Lemma window_prefix : forall l p k n w, window l p (length w) = w -> length w <= k ->
  is_prefix w (window l p k ++ zeros n).
Proof.
  intros l p k n w Hw Hk. exists (skipn (length w) (window l p k) ++ zeros n).
  rewrite app_assoc. f_equal. rewrite <- (window_firstn l p k (length w) Hk) in Hw.
  rewrite <- Hw at 1. symmetry. apply firstn_skipn.
Qed.

Lemma index_nth : forall (A : Type) (l : list A) i x, nth_error l i = Some x -> index_at l i = Ret x.
Proof. intros A l i x H. unfold index_at. rewrite H. reflexivity. Qed.

Section Decode.
Context {S : Type}.
Variable e : endian.
Variable cb : codebook S.

(** The codeword that comes next is decoded. *)
Lemma decode_hit : forall d fuel lo hi off B r p w i s, d <= fuel ->
  serves d e (cb_table cb) lo hi off B -> pf B -> nonempty B ->
  (forall w' i', In (w', i') B -> (N.of_nat i' < 2 ^ 24)%N) ->
  inv e r p -> In (w, i) B -> nth_error (cb_syms cb) i = Some s ->
  window (bits_of e (buffer r)) p (length w) = w ->
  p + length w + 64 <= 8 * length (buffer r) -> (N.of_nat (8 * length (buffer r)) < W32)%N ->
  exists r', read_loop fuel e cb r (N.of_nat off) (lbits B) = Ret (r', Okay s) /\
    inv e r' (p + length w) /\ buffer r' = buffer r.
Proof.
  induction d as [|d IH]; intros fuel lo hi off B r p w i s Hd Hs Hpf Hne Hidx I Hin Hsym Hw Hr H32; [destruct Hs|].
  destruct fuel as [|fuel]; [lia|]. cbn [read_loop].
  assert (HL : lbits B <= 10) by (unfold lbits; lia).
  destruct (peek_result e r p (lbits B) I ltac:(lia)) as [k [Ep [Hk [Hpk Hx]]]].
  rewrite Ep. cbn [obind]. set (u := window (bits_of e (buffer r)) p k ++ zeros (lbits B - k)) in *.
  assert (Lw : length (window (bits_of e (buffer r)) p k) = k) by (apply window_length; rewrite bits_of_length; lia).
  assert (Lu : length u = lbits B) by (unfold u; rewrite app_length, zeros_length, Lw; lia).
  destruct (Hs u Lu) as [x [Hnth Hcase]].
  replace (N.to_nat (value e u + N.of_nat off)) with (slot e off u) by (unfold slot; lia).
  rewrite (index_nth _ _ _ _ Hnth). cbn [obind].
  assert (Hmax := maxl_in B w i Hin).
  assert (Hshort : length w <= 10 -> is_prefix w u).
  { intros Hl. apply window_prefix; [exact Hw|]. unfold lbits in *. lia. }
  assert (Hlong : 10 < length w -> lbits B = 10 /\ u = firstn 10 w).
  { intros Hl. split; [unfold lbits; lia|]. assert (k = 10) by (unfold lbits in *; lia). subst k.
    unfold u. replace (lbits B) with 10 by (unfold lbits; lia). cbn [Nat.sub zeros repeat]. rewrite app_nil_r.
    rewrite <- Hw at 1. rewrite window_firstn by lia. reflexivity. }
  rewrite (available_inv e r p I).
  assert (Hav : forall b, b <= 10 -> (N.of_nat (8 * length (buffer r) - p) mod W32 <? N.of_nat b)%N = false).
  { intros b Hb. apply N.ltb_ge. rewrite N.mod_small by lia. lia. }
  destruct Hcase as [[w' [i' [Hin' [Hl' [Hp' ->]]]]]|[[Hsub [o [Ho1 [Ho2 [Ho3 [-> Hso]]]]]]|[-> [Hsub Hno]]]].
  - (* a short word *)
    apply lastin_in in Hin'.
    assert (w' = w /\ i' = i) as [-> ->].
    { destruct (Nat.le_gt_cases (length w) 10) as [Hl|Hl].
      - specialize (Hshort Hl). destruct (Nat.le_gt_cases (length w) (length w')) as [Hc|Hc].
        + destruct (Hpf _ _ _ _ Hin Hin' (prefix_comparable _ _ _ Hshort Hp' Hc)) as [-> ->]. split; reflexivity.
        + apply (Hpf _ _ _ _ Hin' Hin). apply (prefix_comparable _ _ u Hp' Hshort). lia.
      - destruct (Hlong Hl) as [_ Eu]. apply (Hpf _ _ _ _ Hin' Hin).
        apply (prefix_trans _ u); [exact Hp'|]. rewrite Eu. apply prefix_of_firstn. }
    destruct (lut_entry_fields (N.of_nat i) (length w) (Hidx _ _ Hin) Hl') as [F1 [F2 [F3 F4]]].
    rewrite F1, F2, F3, F4. cbn [negb obind]. rewrite Hav by lia. cbn [negb].
    rewrite Nnat.Nat2N.id.
    destruct (skip_bits_exact e r p (length w) I Hr) as [r' [Er [I' B']]]. rewrite Er. cbn [obind].
    rewrite Nnat.Nat2N.id, (index_nth _ _ _ _ Hsym). cbn [obind].
    exists r'. split; [reflexivity|]. split; assumption.
  - (* an escape *)
    assert (Hl : 10 < length w).
    { apply Nat.nle_gt. intros Hl. specialize (Hshort Hl).
      destruct (sub u B) as [|[w2 i2] rest] eqn:Es; [congruence|].
      assert (Hi2 : In (w2, i2) (sub u B)) by (rewrite Es; left; reflexivity).
      apply sub_in in Hi2. destruct Hi2 as [Lu10 [Hw2 Hi2]].
      destruct (Hpf _ _ _ _ Hin Hi2) as [E _].
      - apply (prefix_trans _ u); [exact Hshort|]. exists w2. reflexivity.
      - rewrite E, app_length in Hl. destruct w2; [congruence|cbn in Hl; lia]. }
    destruct (Hlong Hl) as [HL10 Eu].
    assert (Hlb : lbits (sub u B) <= 10) by (unfold lbits; lia).
    destruct (esc_entry_fields (N.of_nat o) (lbits (sub u B)) Ho3 Hlb) as [F1 [F2 [F3 F4]]].
    rewrite F1, F2, F3, F4. cbn [negb obind]. rewrite Hav by lia. cbn [negb].
    destruct (skip_bits_exact e r p (lbits B) I ltac:(lia)) as [r1 [Er [I1 B1]]]. rewrite Er. cbn [obind].
    rewrite Nnat.Nat2N.id.
    assert (Hin2 : In (skipn 10 w, i) (sub u B)).
    { apply sub_in. rewrite Eu. split; [rewrite firstn_length; lia|]. split.
      - intros Hn. apply (f_equal (@length bool)) in Hn. rewrite skipn_length in Hn. cbn in Hn. lia.
      - rewrite firstn_skipn. exact Hin. }
    assert (Ls : length (skipn 10 w) = length w - 10) by apply skipn_length.
    destruct (IH fuel lo hi o (sub u B) r1 (p + lbits B) (skipn 10 w) i s ltac:(lia) Hso (pf_sub u B Hpf)
                (nonempty_sub u B)) as [r' [E' [I' B']]].
    + intros w' i' H'. apply sub_in in H'. apply (Hidx (u ++ w')). apply H'.
    + exact I1.
    + exact Hin2.
    + exact Hsym.
    + rewrite B1, Ls, HL10. rewrite <- (window_skipn _ _ (length w)) by lia. rewrite Hw. reflexivity.
    + rewrite B1, Ls. lia.
    + rewrite B1. exact H32.
    + exists r'. split; [exact E'|]. split; [|congruence].
      replace (p + length w) with (p + lbits B + length (skipn 10 w)) by lia. exact I'.
  - (* a blank entry *)
    exfalso. destruct (Nat.le_gt_cases (length w) 10) as [Hl|Hl].
    + exact (Hno _ _ Hin Hl (Hshort Hl)).
    + destruct (Hlong Hl) as [_ Eu].
      assert (Hin2 : In (skipn 10 w, i) (sub u B)).
      { apply sub_in. rewrite Eu. split; [rewrite firstn_length; lia|]. split.
        - intros Hn. apply (f_equal (@length bool)) in Hn. rewrite skipn_length in Hn. cbn in Hn. lia.
        - rewrite firstn_skipn. exact Hin. }
      rewrite Hsub in Hin2. destruct Hin2.
Qed.

(** If no codeword comes next the code is rejected. *)
Lemma decode_miss : forall d fuel lo hi off B r p, d <= fuel ->
  serves d e (cb_table cb) lo hi off B -> B <> [] ->
  (forall w' i', In (w', i') B -> (N.of_nat i' < 2 ^ 24)%N) ->
  inv e r p -> (forall w i, In (w, i) B -> window (bits_of e (buffer r)) p (length w) <> w) ->
  p + maxl B + 64 <= 8 * length (buffer r) -> (N.of_nat (8 * length (buffer r)) < W32)%N ->
  exists r', read_loop fuel e cb r (N.of_nat off) (lbits B) = Ret (r', Error InvalidCode).
Proof.
  induction d as [|d IH]; intros fuel lo hi off B r p Hd Hs HB Hidx I Hw Hr H32; [destruct Hs|].
  destruct fuel as [|fuel]; [lia|]. cbn [read_loop].
  assert (HL : lbits B <= 10) by (unfold lbits; lia).
  destruct (peek_result e r p (lbits B) I ltac:(lia)) as [k [Ep [Hk [Hpk Hx]]]].
  assert (k = lbits B) by (unfold lbits in *; lia). subst k. clear Hx.
  rewrite Ep. cbn [obind]. rewrite Nat.sub_diag. cbn [zeros repeat]. rewrite app_nil_r.
  set (u := window (bits_of e (buffer r)) p (lbits B)) in *.
  assert (Lu : length u = lbits B) by (apply window_length; rewrite bits_of_length; lia).
  destruct (Hs u Lu) as [x [Hnth Hcase]].
  replace (N.to_nat (value e u + N.of_nat off)) with (slot e off u) by (unfold slot; lia).
  rewrite (index_nth _ _ _ _ Hnth). cbn [obind].
  rewrite (available_inv e r p I).
  assert (Hav : forall b, b <= 10 -> (N.of_nat (8 * length (buffer r) - p) mod W32 <? N.of_nat b)%N = false).
  { intros b Hb. apply N.ltb_ge. rewrite N.mod_small by lia. lia. }
  destruct Hcase as [[w' [i' [Hin' [Hl' [Hp' ->]]]]]|[[Hsub [o [Ho1 [Ho2 [Ho3 [-> Hso]]]]]]|[-> [Hsub Hno]]]].
  - apply lastin_in in Hin'. exfalso. apply (Hw w' i' Hin'). apply prefix_firstn in Hp'. rewrite <- Hp' at 2. unfold u.
    rewrite window_firstn; [reflexivity|]. pose proof (maxl_in _ _ _ Hin'). unfold lbits. lia.
  - assert (HL10 : lbits B = 10).
    { destruct (sub u B) as [|[w2 i2] rest] eqn:Es; [congruence|].
      assert (Hi2 : In (w2, i2) (sub u B)) by (rewrite Es; left; reflexivity).
      apply sub_in in Hi2. lia. }
    assert (Hlb : lbits (sub u B) <= 10) by (unfold lbits; lia).
    destruct (esc_entry_fields (N.of_nat o) (lbits (sub u B)) Ho3 Hlb) as [F1 [F2 [F3 F4]]].
    rewrite F1, F2, F3, F4. cbn [negb obind]. rewrite Hav by lia. cbn [negb].
    assert (Hm : 10 <= maxl B) by (unfold lbits in HL10; lia).
    destruct (skip_bits_exact e r p (lbits B) I ltac:(lia)) as [r1 [Er [I1 B1]]]. rewrite Er. cbn [obind].
    rewrite Nnat.Nat2N.id.
    apply (IH fuel lo hi o (sub u B) r1 (p + lbits B)); try assumption; try lia.
    + intros w' i' H'. apply sub_in in H'. apply (Hidx (u ++ w')). apply H'.
    + intros w i Hi Hc. apply sub_in in Hi. destruct Hi as [Lu10 [Hwn Hi]].
      apply (Hw _ _ Hi). rewrite app_length, Lu10, window_split. rewrite B1, HL10 in Hc. rewrite Hc. f_equal.
      unfold u. rewrite HL10. reflexivity.
    + rewrite B1. pose proof (maxl_sub u B). lia.
    + rewrite B1. exact H32.
  - exists r. rewrite N.eqb_refl. reflexivity.
Qed.

End Decode.
