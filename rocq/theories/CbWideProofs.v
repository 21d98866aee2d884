(** 16384 words that do not fit their length of 20 bits: whatever the iteration order of the
    hash map, a codeword read never ends. *)
From Coq Require Import List Arith NArith ZArith Bool Lia Permutation.
From Coq Require Import ZifyBool ZifyNat ZifyN.
From Verif Require Import Base ByteModel ByteSpec ByteProofs BitModel BitSpec BitProofs BitProofs2 CodebookModel
  CodebookSpec CodebookProofs CodebookProofs2 CodebookProofs3 CodebookProofs4 CodebookProofs5 CodebookProofs6
  CodebookLargeSpec CodebookLargeProofs CbMalformedSpec CbMalformedProofs CbMisfitSpec CbMisfitProofs CbEndlessSpec CbEndlessProofs.
Import ListNotations.
Local Open Scope nat_scope.

Definition wide (k : N) : desc N := mk_desc (k * 1024)%N 20 k.

Lemma wide_parts : forall k, extract_lut_part (k * 1024) 20 MAX_LUT_BITS MSB = Ret k /\ extract_esc_part (k * 1024) 20 MAX_LUT_BITS MSB = Ret 0%N.
Proof.
  intros k. unfold extract_lut_part, extract_esc_part, MAX_LUT_BITS, csub. cbn [Nat.leb Nat.sub obind].
  unfold shr32, shl32. cbn [Nat.ltb Nat.leb obind]. split.
  - f_equal. change (N.of_nat 10) with 10%N. rewrite N.shiftr_div_pow2. change (2 ^ 10)%N with 1024%N. apply N.div_mul. discriminate.
  - change (N.shiftl 1 (N.of_nat 10) mod W32)%N with 1024%N. unfold sub32. cbn [N.leb N.compare Pos.compare Pos.compare_cont obind].
    f_equal. change (1024 - 1)%N with (N.ones 10). rewrite N.land_ones. change (2 ^ 10)%N with 1024%N. apply N.mod_mul. discriminate.
Qed.

Fixpoint filed (ks : list N) (s : nat) : escape_codes :=
  match ks with [] => [] | k :: ks' => (k, mk_bucket 10 0 [mk_code 0 10 s]) :: filed ks' (s + 1) end.

Lemma filed_keys : forall ks s, map fst (filed ks s) = ks.
Proof. induction ks as [|k ks IH]; intros s; cbn [filed map fst]; [reflexivity|]. rewrite IH. reflexivity. Qed.

Lemma add_fresh : forall cc k c, ~ In k (map fst cc) -> add_esc_code cc k c = cc ++ [(k, add_code new_bucket c)].
Proof.
  induction cc as [|[k' b] cc IH]; intros k c H; cbn [add_esc_code app]; [reflexivity|].
  destruct (N.eqb_spec k' k) as [E|E]; [exfalso; apply H; left; exact E|]. rewrite IH; [reflexivity|]. intros Hin. apply H. right. exact Hin.
Qed.

Lemma pass1_wide : forall ks mb s cc, NoDup (map fst cc ++ ks) ->
  new_pass1 MSB (map wide ks) mb s cc = Ret (match ks with [] => mb | _ => Nat.max 20 mb end, cc ++ filed ks s).
Proof.
  induction ks as [|k ks IH]; intros mb s cc H; cbn [map new_pass1 filed]; [rewrite app_nil_r; reflexivity|].
  unfold wide at 1 2 3 4. cbn [d_bits d_code]. cbn [Nat.ltb Nat.leb MAX_LUT_BITS].
  unfold add_long_code. cbn [c_code c_bits c_idx]. destruct (wide_parts k) as [-> ->]. cbn [obind].
  unfold csub. cbn [Nat.leb Nat.sub MAX_LUT_BITS obind].
  rewrite add_fresh by (intros Hin; apply (NoDup_remove_2 _ _ _ H); apply in_or_app; left; exact Hin).
  unfold add_code, new_bucket. cbn [b_maxlen b_offset b_codes c_bits Nat.ltb Nat.leb app].
  rewrite IH.
  - rewrite <- app_assoc. f_equal. f_equal. change (d_bits (mk_desc (k * 1024)%N 20 k)) with 20. destruct ks; [reflexivity|]. rewrite Nat.max_assoc. reflexivity.
  - rewrite map_app. cbn [map fst]. rewrite <- app_assoc. exact H.
Qed.

Definition one_code (b : bucket) : Prop := b_maxlen b = 10 /\ exists i, b_codes b = [mk_code 0 10 i].

Lemma filed_one : forall ks s k b, In (k, b) (filed ks s) -> one_code b.
Proof.
  induction ks as [|k' ks IH]; intros s k b H; [destruct H|]. cbn [filed] in H. destruct H as [H|H]; [|exact (IH _ _ _ H)].
  injection H as _ <-. split; [reflexivity|]. exists s. reflexivity.
Qed.

Lemma find_key : forall cc k, In k (map fst cc) -> exists b, find_bucket cc k = Some b /\ In (k, b) cc.
Proof.
  induction cc as [|[k' b] cc IH]; intros k H; [destruct H|]. cbn [find_bucket].
  destruct (N.eqb_spec k' k) as [->|E]; [exists b; split; [reflexivity|left; reflexivity]|].
  destruct H as [H|H]; [contradiction|]. destruct (IH k H) as [b' [H1 H2]]. exists b'. split; [exact H1|right; exact H2].
Qed.

(** ** The second pass *)

Definition placed (t : list N) (b : bucket) : Prop := 1024 <= b_offset b /\ b_offset b + 1024 <= length t.

Lemma pass2_wide : forall ks t s cc, NoDup ks -> NoDup (map fst cc) -> 1024 <= length t ->
  (N.of_nat (length t + 1024 * length ks) < W32)%N -> (N.of_nat (length ks) + s < W32)%N ->
  (forall k, In k ks -> In k (map fst cc)) ->
  (forall i k, nth_error ks i = Some k -> N.to_nat k < length t + 1024 * i) ->
  (forall k, In k ks -> N.to_nat k < length t -> nth_error t (N.to_nat k) = Some TABLE_FILL_VALUE) ->
  (forall k b, In (k, b) cc -> one_code b /\ (In k ks \/ placed t b)) ->
  exists t' cc', new_pass2 t MSB 10 (map wide ks) s cc = Ret (t', cc') /\ length t' = length t + 1024 * length ks /\
    (forall k b, In (k, b) cc' -> one_code b /\ placed t' b) /\
    (forall i k, nth_error ks i = Some k -> nth_error t' (N.to_nat k) = Some (esc_entry (N.of_nat (length t + 1024 * i)) 10)) /\
    (forall p, p < length t -> ~ In (N.of_nat p) ks -> nth_error t' p = nth_error t p).
Proof.
  induction ks as [|k ks IH]; intros t s cc Hnd Hcc Ht Hw Hs Hin Hlt Hfill Hb.
  - exists t, cc. split; [reflexivity|]. split; [cbn [length]; lia|]. split.
    { intros k b H. destruct (Hb k b H) as [H1 [[]|H2]]. split; assumption. }
    split; [intros [|i] k H; discriminate H|reflexivity].
  - assert (Hk : N.to_nat k < length t) by (specialize (Hlt 0 k eq_refl); lia).
    cbn [length] in Hw, Hs. cbn [map new_pass2]. change (d_bits (wide k)) with 20. change (d_code (wide k)) with (k * 1024)%N. change (20 =? 0) with false. change (20 <=? MAX_LUT_BITS) with false. cbv iota.
    destruct (wide_parts k) as [-> _]. cbn [obind]. rewrite (index_nth _ _ _ _ (Hfill k (or_introl eq_refl) Hk)). cbn [obind].
    rewrite N.eqb_refl. destruct (find_key cc k (Hin k (or_introl eq_refl))) as [b [Hfb Hkb]]. rewrite Hfb.
    destruct (Hb k b Hkb) as [[Hm [i Hc]] _].
    unfold alloc_bucket. rewrite Hm. change (Nat.min 10 MAX_LUT_BITS) with 10. unfold resize_table, shl32. cbn [Nat.ltb Nat.leb obind].
    change (N.to_nat (N.shiftl 1 (N.of_nat 10) mod W32)) with (N.to_nat 1024). rewrite (N.mod_small (N.of_nat (length t))) by (cbn [length] in Hw; lia).
    set (blank := repeat TABLE_FILL_VALUE (N.to_nat 1024)). assert (Lb : length blank = 1024) by apply repeat_length.
    cbn [fill_lut fill_lut_msb negb]. rewrite Nat.add_0_r. rewrite store_ok by (rewrite app_length; lia). cbn [obind].
    set (t1 := update (t ++ blank) (N.to_nat k) (esc_entry (N.of_nat (length t)) 10)).
    set (b1 := mk_bucket 10 (N.to_nat (N.of_nat (length t))) (b_codes b)).
    assert (L1 : length t1 = length t + 1024) by (unfold t1; rewrite update_length, app_length, Lb; reflexivity).
    assert (N1 : forall p, nth_error t1 p = if p =? N.to_nat k then Some (esc_entry (N.of_nat (length t)) 10) else nth_error (t ++ blank) p)
      by (intros p; apply update_nth; rewrite app_length; lia).
    unfold add32. destruct (N.ltb_spec (s + 1) W32); [|lia]. cbn [obind].
    inversion_clear Hnd as [|? ? Hk0 Hnd'].
    destruct (IH t1 (s + 1)%N (set_bucket cc k b1)) as [t' [cc' [E [HL [H1 [H2 H3]]]]]].
    + exact Hnd'.
    + rewrite set_bucket_keys. exact Hcc.
    + lia.
    + rewrite L1. lia.
    + lia.
    + intros k' H'. rewrite set_bucket_keys. apply Hin. right. exact H'.
    + intros i' k' H'. rewrite L1. specialize (Hlt (S i') k' H'). lia.
    + intros k' H' Hl. rewrite N1. destruct (Nat.eqb_spec (N.to_nat k') (N.to_nat k)) as [Eq|_].
      { exfalso. apply Hk0. replace k with k' by lia. exact H'. }
      destruct (Nat.lt_ge_cases (N.to_nat k') (length t)) as [Hlow|Hhigh].
      * rewrite nth_error_app1 by exact Hlow. apply Hfill; [right; exact H'|exact Hlow].
      * rewrite nth_error_app2 by exact Hhigh. unfold blank. apply nth_error_repeat. rewrite L1 in Hl. lia.
    + intros k' b' H'. apply set_bucket_in in H'; [|exact Hcc|apply Hin; left; reflexivity]. destruct H' as [[-> ->]|[Hne H']].
      * split; [split; [reflexivity|exists i; exact Hc]|]. right. unfold placed, b1. cbn [b_offset]. rewrite L1. lia.
      * destruct (Hb k' b' H') as [G1 G2]. split; [exact G1|]. destruct G2 as [[G2|G2]|G2]; [congruence|left; exact G2|].
        right. unfold placed in *. rewrite L1. lia.
    + exists t', cc'. split; [exact E|]. split; [rewrite HL, L1; cbn [length]; lia|]. split; [exact H1|]. split.
      * intros [|i'] k' H'.
        { cbn [nth_error] in H'. injection H' as <-. rewrite H3; [|lia|rewrite Nnat.N2Nat.id; exact Hk0].
          rewrite N1, Nat.eqb_refl. replace (length t + 1024 * 0) with (length t) by lia. reflexivity. }
        cbn [nth_error] in H'. rewrite (H2 i' k' H'). rewrite L1. replace (length t + 1024 * S i') with (length t + 1024 + 1024 * i') by lia. reflexivity.
      * intros p Hp Hnp. rewrite H3; [|lia|intros Hx; apply Hnp; right; exact Hx]. rewrite N1.
        destruct (Nat.eqb_spec p (N.to_nat k)) as [->|_]; [exfalso; apply Hnp; left; lia|]. apply nth_error_app1. exact Hp.
Qed.

(** ** The buckets *)

Lemma build_wide : forall ord f path t b, permuting ord -> one_code b -> placed t b ->
  exists t', build_esc_lut (S f) ord path t MSB b = Ret t' /\ length t' = length t /\
    forall p, p < 1024 -> nth_error t' p = nth_error t p.
Proof.
  intros ord f path t b Ho [Hm [i Hc]] [P1 P2]. cbn [build_esc_lut]. rewrite Hm, Hc. cbn [Nat.min MAX_LUT_BITS esc_pass1 c_bits c_code c_idx].
  cbn [Nat.leb]. cbn [fill_lut fill_lut_msb negb]. unfold csub. cbn [Nat.leb Nat.sub obind]. unfold shl32. cbn [Nat.ltb Nat.leb obind].
  change (N.to_nat (N.shiftl 1 (N.of_nat 0) mod W32)) with 1. change (N.shiftl 0 (N.of_nat 0) mod W32)%N with 0%N.
  cbn [fill_loop]. change (add32 0 0) with (Ret 0%N). cbn [obind]. change (N.to_nat 0) with 0. rewrite Nat.add_0_l.
  rewrite store_ok by lia. cbn [obind MAX_LUT_BITS].
  assert (E : ord path [] = []) by (apply Permutation_nil; apply Ho). rewrite E. cbn [esc_pass2 obind build_all].
  eexists. split; [reflexivity|]. split; [apply update_length|].
  intros p Hp. rewrite update_nth by lia. destruct (Nat.eqb_spec p (b_offset b)); [lia|reflexivity].
Qed.

Lemma build_all_wide : forall ord f, permuting ord -> forall cc t, (forall k b, In (k, b) cc -> one_code b /\ placed t b) ->
  exists t', build_all (fun t key b => build_esc_lut (S f) ord [key] t MSB b) t cc = Ret t' /\ length t' = length t /\
    forall p, p < 1024 -> nth_error t' p = nth_error t p.
Proof.
  intros ord f Ho. induction cc as [|[k b] cc IH]; intros t H; cbn [build_all].
  - exists t. split; [reflexivity|]. split; reflexivity.
  - destruct (H k b (or_introl eq_refl)) as [H1 H2]. destruct (build_wide ord f [k] t b Ho H1 H2) as [t1 [E1 [L1 N1]]]. rewrite E1. cbn [obind].
    destruct (IH t1) as [t2 [E2 [L2 N2]]].
    { intros k' b' H'. destruct (H k' b' (or_intror H')) as [G1 [G2 G3]]. split; [exact G1|]. split; [exact G2|lia]. }
    exists t2. split; [exact E2|]. split; [lia|]. intros p Hp. rewrite N2 by exact Hp. apply N1. exact Hp.
Qed.

Lemma wide_codebook : forall ord ks n, permuting ord -> NoDup ks -> N.of_nat (length ks) = n -> (1 <= n < 2 ^ 22 - 1)%N ->
  (forall i k, nth_error ks i = Some k -> (k < 1024 + 1024 * N.of_nat i)%N) ->
  exists cb, new_codebook ord (map wide ks) MSB = Ret (Okay cb) /\ cb_lut_bits cb = 10 /\ N.of_nat (length (cb_table cb)) = (1024 * (n + 1))%N /\
    forall i k, nth_error ks i = Some k -> (k < 1024)%N -> nth_error (cb_table cb) (N.to_nat k) = Some (esc_entry (1024 * (N.of_nat i + 1)) 10).
Proof.
  intros ord ks n Ho Hnd Hn Hr Hk. unfold new_codebook. rewrite pass1_wide by exact Hnd. cbn [obind app].
  assert (Hmb : match ks with [] => 0 | _ => Nat.max 20 0 end = 20) by (destruct ks; [cbn in Hn; lia|reflexivity]). rewrite Hmb.
  change (20 =? 0) with false. change (MAX_LUT_BITS <? 20) with true. cbv iota. change MAX_LUT_BITS with 10.
  unfold shl32. cbn [Nat.ltb Nat.leb obind]. change (N.to_nat (N.shiftl 1 (N.of_nat 10) mod W32)) with (N.to_nat 1024).
  set (t0 := repeat TABLE_FILL_VALUE (N.to_nat 1024)). assert (L0 : length t0 = 1024) by apply repeat_length.
  destruct (pass2_wide ks t0 0 (filed ks 0)) as [t1 [cc' [E [L1 [H1 [H2 _]]]]]].
  - exact Hnd.
  - rewrite filed_keys. exact Hnd.
  - lia.
  - rewrite L0. unfold W32. change (2 ^ 32)%N with 4294967296%N. change (2 ^ 22 - 1)%N with 4194303%N in Hr. lia.
  - unfold W32. change (2 ^ 32)%N with 4294967296%N. change (2 ^ 22 - 1)%N with 4194303%N in Hr. lia.
  - intros k H. rewrite filed_keys. exact H.
  - intros i k H. rewrite L0. specialize (Hk i k H). lia.
  - intros k _ H. unfold t0. apply nth_error_repeat. rewrite L0 in H. lia.
  - intros k b H. split; [exact (filed_one _ _ _ _ H)|]. left. apply (in_map fst) in H. rewrite filed_keys in H. exact H.
  - rewrite E. cbn [obind].
    destruct (build_all_wide ord 25 Ho (ord [] cc') t1) as [t2 [E2 [L2 N2]]].
    { intros k b H. apply (H1 k b). apply (Permutation_in _ (Permutation_sym (Ho [] cc'))). exact H. }
    rewrite E2. cbn [obind]. eexists. split; [reflexivity|]. cbn [cb_lut_bits cb_table]. split; [reflexivity|]. split; [lia|].
    intros i k H Hlow. rewrite N2 by lia. rewrite (H2 i k H). rewrite L0. replace (N.of_nat (1024 + 1024 * i)) with (1024 * (N.of_nat i + 1))%N by lia. reflexivity.
Qed.

(** ** The read *)

Definition wide_keys (n : nat) : list N := count_up n 1 ++ [0%N].

Lemma count_up_in : forall n k x, In x (count_up n k) -> (k <= x < k + N.of_nat n)%N.
Proof.
  induction n as [|n IH]; intros k x H; [destruct H|]. cbn [count_up] in H. destruct H as [<-|H]; [lia|]. specialize (IH _ _ H). lia.
Qed.

Lemma count_up_nodup : forall n k, NoDup (count_up n k).
Proof.
  induction n as [|n IH]; intros k; cbn [count_up]; constructor; [|apply IH]. intros H. apply count_up_in in H. lia.
Qed.

Lemma wide_keys_nodup : forall n, NoDup (wide_keys n).
Proof.
  intros n. unfold wide_keys. apply (Permutation_NoDup (l := 0%N :: count_up n 1)); [apply Permutation_cons_append|].
  constructor; [intros H; apply count_up_in in H; lia|apply count_up_nodup].
Qed.

Lemma wide_keys_low : forall n i k, nth_error (wide_keys n) i = Some k -> (k < 1024 + 1024 * N.of_nat i)%N.
Proof.
  intros n i k H. unfold wide_keys in H. destruct (Nat.lt_ge_cases i (length (count_up n 1))) as [Hi|Hi].
  - rewrite nth_error_app1 in H by exact Hi. rewrite count_up_length in Hi. rewrite count_up_nth in H by exact Hi. assert (k = 1 + N.of_nat i)%N by congruence. lia.
  - rewrite nth_error_app2 in H by exact Hi. destruct (i - length (count_up n 1)) as [|[|j]]; cbn [nth_error] in H; [|discriminate H..].
    injection H as <-. lia.
Qed.

Lemma self_rounds : forall (S : Type) e (cb : codebook S) buf x, 2 <= length buf < 8 ->
  nth_error (cb_table cb) 0 = Some (esc_entry x 10) -> (x mod 2 ^ 24 = 0)%N ->
  forall k, rounds_from k e cb (mk_reader buf 0 0 0) 0 10 = Ret (mk_reader buf 0 0 0, None).
Proof.
  intros S e cb buf x Hb Ht Hx. pose proof (unloaded buf ltac:(lia)) as Hc. set (r := mk_reader buf 0 0 0) in *.
  assert (Ep : peek_bits_32 e r 10 = Ret (r, 0%N)).
  { unfold peek_bits_32, get_bits_32. cbn [Nat.eqb Nat.ltb Nat.leb left r]. rewrite (refill32_none e r Hc). destruct e; reflexivity. }
  assert (Es : skip_bits e r 10 = Ret r).
  { unfold skip_bits. cbn [Nat.eqb Nat.ltb Nat.leb left r Nat.sub].
    assert (E0 : skip_rem e r 10 = r) by (destruct e; reflexivity). rewrite E0, refill64_none by exact Hc. cbn [obind]. rewrite E0. reflexivity. }
  assert (Ea : available r = Ret (8 * length buf)).
  { unfold available, csub. cbn [index buffer left r]. cbn [Nat.leb obind]. f_equal. lia. }
  induction k as [|k IH]; [reflexivity|]. cbn [rounds_from].
  rewrite Ep. cbn [obind]. rewrite N.add_0_l. change (N.to_nat 0) with 0. rewrite (index_nth _ _ _ _ Ht). cbn [obind].
  destruct (esc_entry_any x 10 ltac:(lia)) as [G1 [G2 [G3 G4]]]. rewrite G1, G2, G3, G4. cbn [negb].
  rewrite Ea. cbn [obind].
  assert (Hm : (N.of_nat (8 * length buf) mod W32 = N.of_nat (8 * length buf))%N) by (apply N.mod_small; unfold W32; change (2 ^ 32)%N with 4294967296%N; lia).
  rewrite Hm. destruct (N.ltb_spec (N.of_nat (8 * length buf)) (N.of_nat 10)); [lia|].
  rewrite Es. cbn [obind]. rewrite Hx. rewrite Nnat.Nat2N.id. exact IH.
Qed.

Lemma wide_endless : forall n, N.of_nat n = 16383%N ->
  N.of_nat (length (map wide (wide_keys n))) = 16384%N /\ (forall d, In d (map wide (wide_keys n)) -> d_bits d = 20 /\ (d_code d < 2 ^ 24)%N) /\
  forall ord, permuting ord -> exists cb, new_codebook ord (map wide (wide_keys n)) MSB = Ret (Okay cb) /\
    N.of_nat (length (cb_table cb)) = (2 ^ 24 + 1024)%N /\
    forall e buf, 2 <= length buf < 8 -> exists r0, new e buf = Ret r0 /\
      forall rounds, read_rounds rounds e cb r0 = Ret (r0, None).
Proof.
  intros n Hn. assert (Hl : N.of_nat (length (wide_keys n)) = 16384%N) by (unfold wide_keys; rewrite app_length, count_up_length; cbn [length]; lia).
  split; [rewrite map_length; exact Hl|]. split.
  { intros d Hd. apply in_map_iff in Hd. destruct Hd as [k [<- Hk]]. split; [reflexivity|]. unfold wide. cbn [d_code].
    change (2 ^ 24)%N with 16777216%N. unfold wide_keys in Hk. apply in_app_or in Hk. destruct Hk as [Hk|[<-|[]]]; [apply count_up_in in Hk; lia|lia]. }
  intros ord Ho. destruct (wide_codebook ord (wide_keys n) 16384 Ho (wide_keys_nodup n) Hl) as [cb [E [Lb [Lt Ht]]]].
  { split; [lia|reflexivity]. }
  { intros i k H. exact (wide_keys_low n i k H). }
  exists cb. split; [exact E|]. split; [rewrite Lt; reflexivity|].
  intros e buf Hb. exists (mk_reader buf 0 0 0). split; [unfold new; rewrite refill64_none by (apply unloaded; lia); reflexivity|].
  intros rounds. unfold read_rounds. rewrite Lb.
  apply (self_rounds _ e cb buf (1024 * (N.of_nat n + 1))); [exact Hb| |rewrite Hn; reflexivity].
  apply (Ht n 0%N); [|lia]. unfold wide_keys. rewrite nth_error_app2 by (rewrite count_up_length; lia).
  rewrite count_up_length, Nat.sub_diag. reflexivity.
Qed.

Lemma misfits_endless : exists ds : list (desc N), N.of_nat (length ds) = 16384%N /\ (forall d, In d ds -> d_bits d = 20 /\ (d_code d < 2 ^ 24)%N) /\
  forall ord, permuting ord -> exists cb, new_codebook ord ds MSB = Ret (Okay cb) /\
    N.of_nat (length (cb_table cb)) = (2 ^ 24 + 1024)%N /\
    forall e buf, 2 <= length buf < 8 -> exists r0, new e buf = Ret r0 /\
      forall rounds, read_rounds rounds e cb r0 = Ret (r0, None).
Proof. exists (map wide (wide_keys (N.to_nat 16383))). apply wide_endless. apply Nnat.N2Nat.id. Qed.
