(** Lemmas about codewords and lookup tables. *)
From Coq Require Import List Arith NArith ZArith Bool Lia Permutation.
From Coq Require Import ZifyBool ZifyNat ZifyN.
From Verif Require Import Base ByteModel BitModel BitSpec BitProofs BitProofs2 CodebookModel CodebookSpec.
Import ListNotations.
Local Open Scope nat_scope.
Ltac Zify.zify_post_hook ::= Z.div_mod_to_equations.

(** ** Codewords and their values *)

Lemma codeword_length : forall m c n, length (codeword m c n) = n.
Proof. intros [] c n; unfold codeword; rewrite ?rev_length, map_length, seq_length; reflexivity. Qed.

Lemma value_be_rev : forall l, value_be (rev l) = value_le l.
Proof.
  induction l as [|b l IH]; [reflexivity|]. cbn [rev value_le]. rewrite value_be_app, IH.
  cbn [length value_be fold_left]. unfold value_be. cbn [fold_left]. change (pow2 1) with 2%N. lia.
Qed.

Lemma value_low_bits : forall n c,
  value_le (map (fun k => N.testbit c (N.of_nat k)) (seq 0 n)) = (c mod pow2 n)%N.
Proof.
  induction n as [|n IH]; intros c.
  - cbn [seq map value_le]. change (pow2 0) with 1%N. rewrite N.mod_1_r. reflexivity.
  - cbn [seq map value_le]. rewrite <- seq_shift, map_map.
    rewrite (map_ext _ (fun k => N.testbit (N.div2 c) (N.of_nat k))).
    2:{ intros k. rewrite N.div2_spec, N.shiftr_spec by lia. f_equal. lia. }
    rewrite IH, pow2_S. change (N.of_nat 0) with 0%N. rewrite N.bit0_odd.
    pose proof (N.div2_odd c) as Hc. set (h := N.div2 c) in *.
    assert (Hp := pow2_pos n). set (P := pow2 n) in *. clearbody P h.
    apply N.mod_unique with (q := (h / P)%N).
    + pose proof (N.mod_upper_bound h P ltac:(lia)). pose proof (b2n_bound (N.odd c)). lia.
    + rewrite Hc at 1. pose proof (N.div_mod h P ltac:(lia)). nia.
Qed.

Lemma value_codeword : forall m c n, (c < pow2 n)%N -> value (reader_for m) (codeword m c n) = c.
Proof.
  intros [] c n H; unfold codeword, reader_for, value; rewrite ?value_be_rev, value_low_bits;
    apply N.mod_small; exact H.
Qed.

Lemma value_le_inj : forall u v, length u = length v -> value_le u = value_le v -> u = v.
Proof.
  induction u as [|a u IH]; intros [|b v] Hl H; try discriminate; [reflexivity|].
  cbn [value_le] in H. pose proof (b2n_bound a). pose proof (b2n_bound b).
  assert (N.b2n a = N.b2n b /\ value_le u = value_le v) as [Ha Hv] by lia.
  f_equal; [destruct a, b; try reflexivity; discriminate|]. apply IH; [|exact Hv]. cbn in Hl. lia.
Qed.

Lemma value_inj : forall e u v, length u = length v -> value e u = value e v -> u = v.
Proof.
  intros [] u v Hl H; cbn [value] in H; [exact (value_le_inj u v Hl H)|].
  rewrite <- (rev_involutive u), <- (rev_involutive v) in H. rewrite !value_be_rev in H.
  apply value_le_inj in H; [|rewrite !rev_length; exact Hl].
  rewrite <- (rev_involutive u), H. apply rev_involutive.
Qed.

Definition mode_of (e : endian) : mode := match e with BE => MSB | LE => LSB end.
Lemma reader_for_mode_of : forall e, reader_for (mode_of e) = e.
Proof. intros []; reflexivity. Qed.

Lemma value_surj : forall e v n, (v < pow2 n)%N -> exists u, length u = n /\ value e u = v.
Proof.
  intros e v n H. exists (codeword (mode_of e) v n). split; [apply codeword_length|].
  pose proof (value_codeword (mode_of e) v n H) as E. rewrite reader_for_mode_of in E. exact E.
Qed.

Lemma codeword_value : forall m w, codeword m (value (reader_for m) w) (length w) = w.
Proof.
  intros m w. apply value_inj with (e := reader_for m); [apply codeword_length|].
  apply value_codeword. apply value_bound.
Qed.

Lemma shl32_one : forall n, n < 32 -> shl32 1 n = Ret (pow2 n).
Proof.
  intros n H. unfold shl32. destruct (Nat.ltb_spec n 32); [|lia]. f_equal.
  rewrite N.shiftl_1_l. apply N.mod_small. change W32 with (pow2 32). apply N.pow_lt_mono_r; lia.
Qed.

Lemma land_mask : forall c n, N.land c (pow2 n - 1) = (c mod pow2 n)%N.
Proof. intros. rewrite <- N.pred_sub, <- N.ones_equiv. apply N.land_ones. Qed.

Lemma extract_lut_spec : forall m c bits, 10 < bits <= longest m -> (c < pow2 bits)%N ->
  extract_lut_part c bits 10 m = Ret (value (reader_for m) (firstn 10 (codeword m c bits))).
Proof.
  intros m c bits Hb Hc. pose proof (value_codeword m c bits Hc) as Hv.
  pose proof (codeword_length m c bits) as Hl. set (w := codeword m c bits) in *. clearbody w.
  destruct m; cbn [reader_for value longest] in *; unfold extract_lut_part.
  - unfold csub. destruct (Nat.leb_spec 10 bits); [|lia]. cbn [obind]. unfold shr32.
    destruct (Nat.ltb_spec (bits - 10) 32); [|lia]. f_equal.
    rewrite value_firstn_be by lia. rewrite Hv, Hl, N.shiftr_div_pow2. reflexivity.
  - rewrite shl32_one by lia. cbn [obind]. unfold sub32.
    destruct (N.leb_spec 1 (pow2 10)) as [|H1]; [|exfalso; revert H1; vm_compute; discriminate].
    cbn [obind]. f_equal. rewrite land_mask, value_firstn_le by lia. rewrite Hv. reflexivity.
Qed.

Lemma extract_esc_spec : forall m c bits, 10 < bits <= longest m -> (c < pow2 bits)%N ->
  exists c', extract_esc_part c bits 10 m = Ret c' /\ (c' < pow2 (bits - 10))%N /\
    codeword m c' (bits - 10) = skipn 10 (codeword m c bits).
Proof.
  intros m c bits Hb Hc. pose proof (value_codeword m c bits Hc) as Hv.
  pose proof (codeword_length m c bits) as Hl. set (w := codeword m c bits) in *. clearbody w.
  assert (Hs : length (skipn 10 w) = bits - 10) by (rewrite skipn_length; lia).
  exists (value (reader_for m) (skipn 10 w)). split; [|split].
  - destruct m; cbn [reader_for value longest] in *; unfold extract_esc_part.
    + unfold csub. destruct (Nat.leb_spec 10 bits); [|lia]. cbn [obind].
      rewrite shl32_one by lia. cbn [obind]. unfold sub32.
      pose proof (pow2_pos (bits - 10)).
      destruct (N.leb_spec 1 (pow2 (bits - 10))) as [|H1]; [|lia]. cbn [obind].
      f_equal. rewrite land_mask, value_skipn_be by lia. rewrite Hv, Hl. reflexivity.
    + unfold shr32. destruct (Nat.ltb_spec 10 32); [|lia]. f_equal.
      rewrite value_skipn_le by lia. rewrite Hv, N.shiftr_div_pow2. reflexivity.
  - rewrite <- Hs. apply value_bound.
  - rewrite <- Hs. apply codeword_value.
Qed.

(** ** Prefixes *)

Lemma prefix_firstn : forall a b, is_prefix a b <-> firstn (length a) b = a.
Proof.
  intros a b. split.
  - intros [c ->]. rewrite firstn_app, Nat.sub_diag, firstn_O, app_nil_r. apply firstn_all.
  - intros H. exists (skipn (length a) b). rewrite <- H at 1. symmetry. apply firstn_skipn.
Qed.

Lemma prefix_length : forall a b, is_prefix a b -> length a <= length b.
Proof. intros a b [c ->]. rewrite app_length. lia. Qed.

Lemma prefix_refl : forall a, is_prefix a a.
Proof. intros a. exists []. symmetry. apply app_nil_r. Qed.

Lemma prefix_trans : forall a b c, is_prefix a b -> is_prefix b c -> is_prefix a c.
Proof. intros a b c [x ->] [y ->]. exists (x ++ y). symmetry. apply app_assoc. Qed.

Lemma prefix_comparable : forall a b c, is_prefix a c -> is_prefix b c -> length a <= length b -> is_prefix a b.
Proof.
  intros a b c Ha Hb Hl. apply prefix_firstn in Ha, Hb. apply prefix_firstn.
  rewrite <- Hb, firstn_firstn, Nat.min_l by lia. exact Ha.
Qed.

Lemma prefix_of_firstn : forall n a, is_prefix (firstn n a) a.
Proof. intros n a. exists (skipn n a). symmetry. apply firstn_skipn. Qed.

Lemma prefix_app_inv : forall u a b, is_prefix (u ++ a) (u ++ b) -> is_prefix a b.
Proof. intros u a b [c H]. rewrite <- app_assoc in H. apply app_inv_head in H. exists c. exact H. Qed.

(** ** Lists *)

Lemma update_length : forall (A : Type) (l : list A) i v, length (update l i v) = length l.
Proof. induction l as [|x l IH]; intros [|i] v; cbn; try reflexivity. rewrite IH. reflexivity. Qed.

Lemma update_nth : forall (A : Type) (l : list A) i v k, i < length l ->
  nth_error (update l i v) k = if k =? i then Some v else nth_error l k.
Proof.
  induction l as [|x l IH]; intros i v k Hi; [cbn in Hi; lia|].
  destruct i as [|i], k as [|k]; cbn [update nth_error]; try reflexivity.
  rewrite IH by (cbn in Hi; lia). reflexivity.
Qed.

Lemma store_ok : forall (A : Type) (l : list A) i v, i < length l -> store l i v = Ret (update l i v).
Proof. intros. unfold store. destruct (Nat.ltb_spec i (length l)); [reflexivity|lia]. Qed.

(** ** Filling a table *)

Lemma fill_loop_spec : forall n t off idx v j (f : N -> nat),
  (forall k, (j <= k < j + N.of_nat n)%N -> exists i, idx k = Ret i /\ N.to_nat i = f k) ->
  (forall k, (j <= k < j + N.of_nat n)%N -> f k + off < length t) ->
  exists t', fill_loop t off idx v j n = Ret t' /\ length t' = length t /\
    (forall k, (j <= k < j + N.of_nat n)%N -> nth_error t' (f k + off) = Some v) /\
    (forall q, (forall k, (j <= k < j + N.of_nat n)%N -> q <> f k + off) -> nth_error t' q = nth_error t q).
Proof.
  induction n as [|n IH]; intros t off idx v j f Hi Hl.
  - exists t. split; [reflexivity|]. split; [reflexivity|]. split; [intros; lia|reflexivity].
  - cbn [fill_loop]. destruct (Hi j ltac:(lia)) as [i [Ei Fi]]. rewrite Ei. cbn [obind].
    rewrite Fi. pose proof (Hl j ltac:(lia)) as Hj. rewrite store_ok by exact Hj. cbn [obind].
    destruct (IH (update t (f j + off) v) off idx v (j + 1)%N f) as [t' [E [L [Hin Hout]]]].
    + intros k Hk. apply Hi. lia.
    + intros k Hk. rewrite update_length. apply Hl. lia.
    + exists t'. split; [exact E|]. split; [rewrite L; apply update_length|]. split.
      * intros k Hk. destruct (N.eq_dec k j) as [->|Hne].
        -- assert (D : (exists k', (j + 1 <= k' < j + 1 + N.of_nat n)%N /\ f j + off = f k' + off)
                       \/ forall k', (j + 1 <= k' < j + 1 + N.of_nat n)%N -> f j + off <> f k' + off).
           { clear. generalize (j + 1)%N as a. intros a. induction n as [|n IH] in a |- *.
             - right. intros; lia.
             - destruct (Nat.eq_dec (f j) (f a)) as [E|E].
               + left. exists a. split; [lia|]. rewrite E. reflexivity.
               + destruct (IH (a + 1)%N) as [[k' [Hk E']]|N1].
                 * left. exists k'. split; [lia|exact E'].
                 * right. intros k' Hk. destruct (N.eq_dec k' a) as [->|]; [lia|]. apply N1. lia. }
           destruct D as [[k' [Hk' E']]|N1].
           ++ rewrite E'. apply Hin. exact Hk'.
           ++ rewrite Hout by exact N1. rewrite update_nth by exact Hj. rewrite Nat.eqb_refl. reflexivity.
        -- apply Hin. lia.
      * intros q Hq. rewrite Hout by (intros k Hk; apply Hq; lia).
        rewrite update_nth by exact Hj. destruct (Nat.eqb_spec q (f j + off)) as [Eq|]; [|reflexivity].
        exfalso. exact (Hq j ltac:(lia) Eq).
Qed.

Lemma shl32_small : forall a n, n < 32 -> (a * pow2 n < pow2 32)%N -> shl32 a n = Ret (a * pow2 n)%N.
Proof.
  intros a n Hn Ha. unfold shl32. destruct (Nat.ltb_spec n 32); [|lia]. f_equal.
  rewrite N.shiftl_mul_pow2. apply N.mod_small. exact Ha.
Qed.

Lemma add32_small : forall a b, (a + b < pow2 32)%N -> add32 a b = Ret (a + b)%N.
Proof. intros a b H. unfold add32. change W32 with (pow2 32). destruct (N.ltb_spec (a + b) (pow2 32)); [reflexivity|lia]. Qed.

(** Where a table region of [2 ^ L] entries at [off] stores the entry for the
    bits [u]. *)
Definition slot (e : endian) (off : nat) (u : list bool) : nat := off + N.to_nat (value e u).

Lemma slot_bound : forall e off u, off <= slot e off u < off + N.to_nat (pow2 (length u)).
Proof. intros e off u. unfold slot. pose proof (value_bound e u). lia. Qed.

Lemma slot_inj : forall e off u v, length u = length v -> slot e off u = slot e off v -> u = v.
Proof. intros e off u v Hl H. apply (value_inj e); [exact Hl|]. unfold slot in H. lia. Qed.

Lemma slot_surj : forall e off k L, off <= k < off + N.to_nat (pow2 L) ->
  exists u, length u = L /\ k = slot e off u.
Proof.
  intros e off k L H. destruct (value_surj e (N.of_nat (k - off)) L ltac:(lia)) as [u [Hu E]].
  exists u. split; [exact Hu|]. unfold slot. rewrite E. lia.
Qed.

(** A short code fills exactly the slots of the bit strings that extend it. *)
Lemma fill_short_spec : forall m t off c bits L idx, bits <= L -> L <= 10 -> (c < pow2 bits)%N ->
  off + N.to_nat (pow2 L) <= length t ->
  exists t', fill_lut t m off c bits L idx false = Ret t' /\ length t' = length t /\
    (forall u, length u = L -> is_prefix (codeword m c bits) u ->
       nth_error t' (slot (reader_for m) off u) = Some (lut_entry idx bits)) /\
    (forall u, length u = L -> ~ is_prefix (codeword m c bits) u ->
       nth_error t' (slot (reader_for m) off u) = nth_error t (slot (reader_for m) off u)) /\
    (forall q, ~ (off <= q < off + N.to_nat (pow2 L)) -> nth_error t' q = nth_error t q).
Proof.
  intros m t off c bits L idx Hb HL Hc Ht.
  pose proof (value_codeword m c bits Hc) as Hv. pose proof (codeword_length m c bits) as Hl.
  set (w := codeword m c bits) in *. set (e := reader_for m) in *.
  set (F := L - bits).
  (* the index written in round [j] *)
  set (f := fun j : N => N.to_nat (match m with MSB => c * pow2 F + j | LSB => c + j * pow2 bits end)%N).
  assert (Hpow : (pow2 L = pow2 bits * pow2 F)%N) by (rewrite <- pow2_add; f_equal; lia).
  assert (Hp32 : (pow2 L <= pow2 10)%N) by (apply N.pow_le_mono_r; lia).
  assert (HpF : (0 < pow2 F)%N) by apply pow2_pos.
  assert (Hpb : (0 < pow2 bits)%N) by apply pow2_pos.
  assert (Hcb : (c + 1 <= pow2 bits)%N) by lia.
  assert (Hmul : forall j, (j < pow2 F -> c * pow2 F + j < pow2 L /\ c + j * pow2 bits < pow2 L)%N).
  { intros j Hj. rewrite Hpow. split; nia. }
  assert (E32 : (pow2 10 <= pow2 32)%N) by (apply N.pow_le_mono_r; lia).
  assert (Hfill : fill_lut t m off c bits L idx false =
     fill_loop t off (match m with
                      | MSB => fun j => add32 (c * pow2 F) j
                      | LSB => fun j => let! s := shl32 j bits in add32 c s end)
       (lut_entry idx bits) 0 (N.to_nat (pow2 F))).
  { unfold fill_lut. destruct m; unfold fill_lut_msb, fill_lut_lsb; cbn [negb];
      unfold csub; (destruct (Nat.leb_spec bits L); [|lia]); cbn [obind]; fold F;
      rewrite shl32_one by lia; cbn [obind].
    - rewrite shl32_small; [reflexivity|lia|]. destruct (Hmul 0%N HpF). lia.
    - destruct (Nat.leb_spec F L); [|lia]. cbn [obind]. replace (L - F) with bits by lia. reflexivity. }
  assert (Hf : forall j, (j < pow2 F)%N -> exists v, length v = F /\ value e v = j /\
               slot e off (w ++ v) = f j + off).
  { intros j Hj. destruct (value_surj e j F Hj) as [v [Lv Ev]]. exists v. split; [exact Lv|]. split; [exact Ev|].
    unfold slot, f. rewrite value_join, Hl, Lv, Hv, Ev. unfold join_values, e, reader_for.
    destruct m; lia. }
  destruct (fill_loop_spec (N.to_nat (pow2 F)) t off
     (match m with MSB => fun j => add32 (c * pow2 F) j
      | LSB => fun j => let! s := shl32 j bits in add32 c s end) (lut_entry idx bits) 0 f)
    as [t' [E [Lt [Hin Hout]]]].
  - intros k Hk. destruct (Hmul k ltac:(lia)) as [M1 M2]. unfold f. destruct m.
    + eexists. split; [apply add32_small; lia|]. reflexivity.
    + rewrite shl32_small by lia. cbn [obind]. eexists. split; [apply add32_small; lia|]. reflexivity.
  - intros k Hk. destruct (Hmul k ltac:(lia)) as [M1 M2]. unfold f. destruct m; lia.
  - exists t'. rewrite Hfill. split; [exact E|]. split; [exact Lt|]. split; [|split].
    + intros u Lu [v Hu]. assert (Lv : length v = F).
      { apply (f_equal (@length bool)) in Hu. rewrite app_length in Hu. lia. }
      destruct (Hf (value e v)) as [v' [Lv' [Ev' Es]]].
      { rewrite <- Lv. apply value_bound. }
      assert (v' = v) by (apply (value_inj e); congruence). subst v'.
      rewrite Hu, Es. apply Hin. pose proof (value_bound e v). rewrite Lv in *. lia.
    + intros u Lu Hn. apply Hout. intros k Hk Eq.
      destruct (Hf k ltac:(lia)) as [v [Lv [Ev Es]]]. rewrite <- Es in Eq.
      apply slot_inj in Eq; [|rewrite app_length; lia]. apply Hn. exists v. exact Eq.
    + intros q Hq. apply Hout. intros k Hk Eq. destruct (Hmul k ltac:(lia)) as [M1 M2].
      apply Hq. unfold f in Eq. destruct m; lia.
Qed.
