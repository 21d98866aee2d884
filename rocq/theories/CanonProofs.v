(** Proofs for C191. *)
From Coq Require Import List Arith NArith ZArith Bool Lia.
From Coq Require Import ZifyBool ZifyNat ZifyN.
From Verif Require ReleaseLongProofs.
From Verif Require Import Base BitModel BitSpec BitProofs CodebookModel CodebookSpec CodebookProofs CodebookProofs2 CodebookProofs3 CodebookProofs4 CodebookProofs5 CodebookLargeProofs
  CompleteSpec CompleteProofs ReleaseLongProofs2 CanonSpec.
Import ListNotations.
Local Open Scope nat_scope.

(** ** Sums over the lengths *)

Fixpoint isum (f : nat -> nat -> N) (k : nat) (ls : list nat) : N :=
  match ls with
  | [] => 0%N
  | l :: ls' => (f k l + isum f (S k) ls')%N
  end.

Lemma isum_ext : forall ls f g k, (forall j l, k <= j -> f j l = g j l) -> isum f k ls = isum g k ls.
Proof.
  induction ls as [|l ls IH]; intros f g k H; cbn [isum]; [reflexivity|]. rewrite (H k l (le_n k)).
  rewrite (IH f g (S k)); [reflexivity|]. intros j l' Hj. apply H. lia.
Qed.
Lemma isum_zero : forall ls f k, (forall j l, k <= j -> f j l = 0%N) -> isum f k ls = 0%N.
Proof.
  induction ls as [|l ls IH]; intros f k H; cbn [isum]; [reflexivity|]. rewrite (H k l (le_n k)), IH; [reflexivity|].
  intros j l' Hj. apply H. lia.
Qed.
Lemma isum_le : forall ls f g k, (forall j l, (f j l <= g j l)%N) -> (isum f k ls <= isum g k ls)%N.
Proof.
  induction ls as [|l ls IH]; intros f g k H; cbn [isum]; [lia|]. pose proof (H k l). pose proof (IH f g (S k) H). lia.
Qed.
Lemma isum_add : forall ls f g k, isum (fun j l => (f j l + g j l)%N) k ls = (isum f k ls + isum g k ls)%N.
Proof. induction ls as [|l ls IH]; intros f g k; cbn [isum]; [reflexivity|]. rewrite IH. lia. Qed.
Lemma isum_mul : forall ls f c k, isum (fun j l => (f j l * c)%N) k ls = (isum f k ls * c)%N.
Proof. induction ls as [|l ls IH]; intros f c k; cbn [isum]; [lia|]. rewrite IH. lia. Qed.

(** What the entry [j] of length [l] adds to the code of the entry [i] of length [b]. *)
Definition shorter (b j l : nat) : N := if l =? 0 then 0%N else if l <? b then pow2 (b - l) else 0%N.
Definition same (b i j l : nat) : N := if (l =? b) && (j <? i) then 1%N else 0%N.
Definition term (b i j l : nat) : N := (shorter b j l + same b i j l)%N.
Definition self (b i j l : nat) : N := if (j =? i) && (l =? b) then 1%N else 0%N.
Definition share_of (L j l : nat) : N := if l =? 0 then 0%N else pow2 (L - l).

Lemma count_sum : forall b ls k, N.of_nat (count_occ Nat.eq_dec ls b) = isum (fun _ l => if l =? b then 1%N else 0%N) k ls.
Proof.
  intros b. induction ls as [|l ls IH]; intros k; cbn [count_occ isum]; [reflexivity|]. rewrite <- (IH (S k)).
  destruct (Nat.eq_dec l b); destruct (Nat.eqb_spec l b); try lia.
Qed.

Lemma count_before : forall b ls i k, N.of_nat (count_occ Nat.eq_dec (firstn i ls) b) = isum (same b (k + i)) k ls.
Proof.
  intros b. induction ls as [|l ls IH]; intros i k; [rewrite firstn_nil; reflexivity|]. destruct i as [|i].
  - symmetry. apply isum_zero. intros j l' Hj. unfold same. destruct (Nat.ltb_spec j (k + 0)); [lia|]. rewrite andb_false_r. reflexivity.
  - cbn [firstn count_occ isum]. replace (k + S i) with (S k + i) by lia. rewrite <- (IH i (S k)).
    unfold same. destruct (Nat.ltb_spec k (S k + i)); [|lia]. rewrite andb_true_r.
    destruct (Nat.eq_dec l b); destruct (Nat.eqb_spec l b); try lia.
Qed.

Lemma first_sum : forall ls b, first_code ls b = isum (shorter b) 0 ls.
Proof.
  intros ls. induction b as [|b IH]; cbn [first_code].
  - symmetry. apply isum_zero. intros j l _. unfold shorter. destruct (l =? 0); reflexivity.
  - rewrite IH. unfold with_length. destruct (Nat.eqb_spec b 0) as [->|Hb].
    + rewrite (isum_zero ls (shorter 0)) by (intros j l _; unfold shorter; destruct (l =? 0); reflexivity).
      symmetry. apply isum_zero. intros j l _. unfold shorter. destruct (Nat.eqb_spec l 0); [reflexivity|]. destruct (Nat.ltb_spec l 1); [lia|reflexivity].
    + rewrite (count_sum b ls 0), <- isum_add, N.mul_comm, <- isum_mul. apply isum_ext. intros j l _. unfold shorter.
      destruct (Nat.eqb_spec l 0); destruct (Nat.ltb_spec l b); destruct (Nat.ltb_spec l (S b)); destruct (Nat.eqb_spec l b); try lia.
      * replace (S b - l) with (S (b - l)) by lia. rewrite pow2_S. lia.
      * replace (S b - l) with 1 by lia. reflexivity.
Qed.

Lemma code_sum : forall ls i, 0 < nth i ls 0 -> canonical_code ls i = isum (term (nth i ls 0) i) 0 ls.
Proof.
  intros ls i H. unfold canonical_code, term. rewrite isum_add, first_sum. f_equal. unfold with_length.
  destruct (Nat.eqb_spec (nth i ls 0) 0); [lia|]. exact (count_before (nth i ls 0) ls i 0).
Qed.

Lemma self_sum : forall ls i k, 0 < nth i ls 0 -> isum (self (nth i ls 0) (k + i)) k ls = 1%N.
Proof.
  induction ls as [|l ls IH]; intros i k H; [destruct i; cbn in H; lia|]. cbn [isum]. destruct i as [|i]; cbn [nth] in *.
  - rewrite isum_zero.
    + unfold self. rewrite Nat.add_0_r, !Nat.eqb_refl. reflexivity.
    + intros j l' Hj. unfold self. destruct (Nat.eqb_spec j (k + 0)); [lia|reflexivity].
  - replace (k + S i) with (S k + i) by lia. rewrite (IH i (S k) H). unfold self. destruct (Nat.eqb_spec k (S k + i)); [lia|reflexivity].
Qed.

Lemma kraft_isum : forall ls, kraft_of ls = isum (share_of (list_max ls)) 0 ls.
Proof.
  intros ls. unfold kraft_of. generalize (list_max ls). intros L.
  assert (A : forall k, fold_right N.add 0%N (map (fun l => if l =? 0 then 0%N else (2 ^ N.of_nat (L - l))%N) ls)
    = isum (share_of L) k ls); [|exact (A 0)].
  induction ls as [|l ls IH]; intros k; [reflexivity|].
  cbn [map fold_right isum]. rewrite (IH (S k)). reflexivity.
Qed.

Lemma next_sum : forall ls i, 0 < nth i ls 0 -> (canonical_code ls i + 1)%N = isum (fun j l => (term (nth i ls 0%nat) i j l + self (nth i ls 0%nat) i j l)%N) 0 ls.
Proof. intros ls i H. rewrite isum_add, <- code_sum by exact H. f_equal. symmetry. exact (self_sum ls i 0 H). Qed.

Lemma pow2_split : forall a b c, a = b + c -> pow2 a = (pow2 b * pow2 c)%N.
Proof. intros a b c ->. apply pow2_add. Qed.

Lemma max_ge : forall ls i, nth i ls 0 <= list_max ls.
Proof.
  intros ls i. destruct (Nat.lt_ge_cases i (length ls)) as [H|H]; [|rewrite nth_overflow by exact H; lia].
  assert (K : Forall (fun k => k <= list_max ls) ls) by (apply list_max_le; lia). rewrite Forall_forall in K. apply K. apply nth_In. exact H.
Qed.

(** The codes fit. *)
Lemma code_fits : forall ls i, room_for ls -> 0 < nth i ls 0 -> (canonical_code ls i < pow2 (nth i ls 0%nat))%N.
Proof.
  intros ls i Hk H. pose proof (max_ge ls i) as HL. unfold room_for in Hk. rewrite kraft_isum in Hk.
  set (L := list_max ls) in *. set (b := nth i ls 0) in *.
  assert (K : ((canonical_code ls i + 1) * pow2 (L - b) <= isum (share_of L) 0 ls)%N).
  { rewrite next_sum by exact H. fold b. rewrite <- isum_mul. apply isum_le. intros j l. unfold term, shorter, same, self, share_of.
    destruct (Nat.eqb_spec l 0); [subst l; destruct (Nat.eqb_spec 0 b); [lia|]; rewrite andb_false_r; cbn; lia|].
    destruct (Nat.ltb_spec l b).
    - destruct (Nat.eqb_spec l b); [lia|]. rewrite andb_false_r. cbn [andb]. rewrite !N.add_0_r.
      rewrite (pow2_split (L - l) (b - l) (L - b)) by lia. lia.
    - destruct (Nat.eqb_spec l b) as [->|Hne]; [|rewrite andb_false_r; cbn [andb]; lia]. rewrite andb_true_r. cbn [andb].
      destruct (Nat.ltb_spec j i); destruct (Nat.eqb_spec j i); lia. }
  assert (P : (0 < pow2 (L - b))%N) by apply pow2_pos. change (2 ^ N.of_nat L)%N with (pow2 L) in Hk. rewrite (pow2_split L b (L - b)) in Hk by lia.
  assert ((canonical_code ls i + 1) * pow2 (L - b) <= pow2 b * pow2 (L - b))%N as Q by lia.
  apply N.mul_le_mono_pos_r in Q; [lia|exact P].
Qed.

(** A later code, cut to the length of an earlier one, is larger. *)
Lemma code_later : forall ls i k, 0 < nth i ls 0 -> 0 < nth k ls 0 -> nth i ls 0 < nth k ls 0 \/ (nth i ls 0 = nth k ls 0 /\ i < k) ->
  ((canonical_code ls i + 1) * pow2 (nth k ls 0%nat - nth i ls 0%nat) <= canonical_code ls k)%N.
Proof.
  intros ls i k Hi Hk Hlt. rewrite next_sum by exact Hi. rewrite (code_sum ls k Hk). set (b := nth i ls 0) in *. set (c := nth k ls 0) in *.
  rewrite <- isum_mul. apply isum_le. intros j l. unfold term, shorter, same, self.
  destruct (Nat.eqb_spec l 0); [subst l; destruct (Nat.eqb_spec 0 b); [lia|]; destruct (Nat.eqb_spec 0 c); [lia|]; rewrite andb_false_r; cbn; lia|].
  destruct (Nat.ltb_spec l b).
  - destruct (Nat.eqb_spec l b); [lia|]. destruct (Nat.ltb_spec l c); [|lia]. rewrite andb_false_r. cbn [andb]. rewrite !N.add_0_r.
    rewrite (pow2_split (c - l) (b - l) (c - b)) by lia. lia.
  - destruct (Nat.eqb_spec l b) as [->|Hne]; [|rewrite andb_false_r; cbn [andb]; lia]. rewrite andb_true_r. cbn [andb].
    destruct (Nat.ltb_spec b c).
    + destruct (Nat.ltb_spec j i); destruct (Nat.eqb_spec j i); try lia.
    + assert (E : b = c) by lia. rewrite E, Nat.sub_diag, Nat.eqb_refl. cbn [andb]. change (pow2 0) with 1%N.
      destruct (Nat.ltb_spec j i); destruct (Nat.eqb_spec j i); destruct (Nat.ltb_spec j k); lia.
Qed.

(** ** The words *)

Lemma canonical_nth : forall m ls i d, nth_error (canonical m ls) i = Some d ->
  i < length ls /\ d_bits d = nth i ls 0 /\ d_sym d = i /\ word m d = codeword MSB (canonical_code ls i) (nth i ls 0).
Proof.
  intros m ls i d H. unfold canonical in H. assert (Hi : i < length ls).
  { assert (nth_error (canonical m ls) i <> None) as K by (unfold canonical; congruence). apply nth_error_Some in K. unfold canonical in K. rewrite map_length, seq_length in K. exact K. }
  rewrite (map_nth_error _ i (seq 0 (length ls)) (d := i)) in H.
  - injection H as <-. cbn [d_bits d_sym]. split; [exact Hi|]. split; [reflexivity|]. split; [reflexivity|]. unfold word. cbn [d_code d_bits].
    destruct m; [reflexivity|]. pose proof (codeword_value LSB (codeword MSB (canonical_code ls i) (nth i ls 0))) as K.
    rewrite codeword_length in K. exact K.
  - rewrite (nth_error_nth' _ 0) by (rewrite seq_length; exact Hi). rewrite seq_nth by exact Hi. reflexivity.
Qed.

Lemma canonical_length : forall m ls, length (canonical m ls) = length ls.
Proof. intros m ls. unfold canonical. rewrite map_length, seq_length. reflexivity. Qed.

Lemma prefix_code : forall c a c' b, (c < pow2 a)%N -> (c' < pow2 b)%N -> is_prefix (codeword MSB c a) (codeword MSB c' b) ->
  a <= b /\ (c' / pow2 (b - a) = c)%N.
Proof.
  intros c a c' b Hc Hc' [t E]. assert (Hl : a <= b).
  { apply (f_equal (@length bool)) in E. rewrite app_length, !codeword_length in E. lia. }
  split; [exact Hl|]. assert (F : firstn a (codeword MSB c' b) = codeword MSB c a).
  { rewrite E. rewrite firstn_app, codeword_length, Nat.sub_diag, firstn_O, app_nil_r. rewrite <- (codeword_length MSB c a) at 1. apply firstn_all. }
  replace b with (b - a + a) in F at 1 by lia. rewrite codeword_firstn in F by (replace (b - a + a) with b by lia; exact Hc').
  assert (Hs : (N.shiftr c' (N.of_nat (b - a)) < pow2 a)%N) by (apply ReleaseLongProofs.shiftr_small; replace (b - a + a) with b by lia; exact Hc').
  apply (f_equal (value BE)) in F. pose proof (value_codeword MSB _ a Hs) as V1. pose proof (value_codeword MSB c a Hc) as V2.
  cbn [reader_for] in V1, V2. rewrite V1, V2, N.shiftr_div_pow2 in F. exact F.
Qed.

Lemma canonical_pf : forall m ls, room_for ls -> prefix_free m (canonical m ls).
Proof.
  intros m ls Hk i j a b Ha Hb Hij Hua Hub Hp.
  destruct (canonical_nth m ls i a Ha) as [Hi [Ea [_ Wa]]]. destruct (canonical_nth m ls j b Hb) as [Hj [Eb [_ Wb]]].
  unfold used in Hua, Hub. rewrite Ea in Hua. rewrite Eb in Hub. rewrite Wa, Wb in Hp.
  destruct (prefix_code _ _ _ _ (code_fits ls i Hk Hua) (code_fits ls j Hk Hub) Hp) as [Hle Hd].
  assert (P : (pow2 (nth j ls 0%nat - nth i ls 0%nat) <> 0)%N) by (pose proof (pow2_pos (nth j ls 0 - nth i ls 0)); lia).
  destruct (Nat.eq_dec (nth i ls 0) (nth j ls 0)) as [El|Hne].
  - destruct (Nat.lt_ge_cases i j) as [Hlt|Hge].
    + pose proof (code_later ls i j Hua Hub (or_intror (conj El Hlt))) as K. rewrite N.mul_comm in K.
      pose proof (N.div_le_lower_bound _ _ _ P K) as Q. rewrite Hd in Q. lia.
    + assert (Hji : j < i) by (clear - Hge Hij; lia). pose proof (code_later ls j i Hub Hua (or_intror (conj (eq_sym El) Hji))) as K.
      rewrite El, Nat.sub_diag in K. rewrite El, Nat.sub_diag in Hd. change (pow2 0) with 1%N in K, Hd. rewrite N.div_1_r in Hd. lia.
  - assert (Hlt : nth i ls 0 < nth j ls 0) by (clear - Hle Hne; lia). pose proof (code_later ls i j Hua Hub (or_introl Hlt)) as K. rewrite N.mul_comm in K.
    pose proof (N.div_le_lower_bound _ _ _ P K) as Q. rewrite Hd in Q. lia.
Qed.

Lemma canonical_fit : forall m ls, room_for ls -> Forall (fun l => l <= 32) ls -> codes_fit m (canonical m ls).
Proof.
  intros m ls Hk H32 d Hd Hu. apply In_nth_error in Hd as [i Hi]. destruct (canonical_nth m ls i d Hi) as [Hlt [Eb [_ W]]].
  unfold used in Hu. rewrite Eb in Hu. assert (Hb : nth i ls 0 <= 32) by (rewrite Forall_forall in H32; apply H32; apply nth_In; exact Hlt).
  assert (Hc : (d_code d < pow2 (d_bits d))%N).
  { unfold canonical in Hi. rewrite (map_nth_error _ i (seq 0 (length ls)) (d := i)) in Hi
      by (rewrite (nth_error_nth' _ 0) by (rewrite seq_length; exact Hlt); rewrite seq_nth by exact Hlt; reflexivity).
    injection Hi as <-. cbn [d_code d_bits]. destruct m; [exact (code_fits ls i Hk Hu)|].
    pose proof (value_bound LE (codeword MSB (canonical_code ls i) (nth i ls 0))) as V. rewrite codeword_length in V. exact V. }
  split; [destruct m; cbn [longest]; lia|]. split; [exact Hc|]. rewrite Eb in Hc. change (2 ^ 32)%N with (pow2 32).
  assert (K : (pow2 (nth i ls 0%nat) <= pow2 32)%N) by (apply N.pow_le_mono_r; [discriminate|clear - Hb; lia]). exact (N.lt_le_trans _ _ _ Hc K).
Qed.

Lemma canonical_valid : forall m ls, Forall (fun l => l <= 32) ls -> room_for ls -> (N.of_nat (length ls) <= 2 ^ 24)%N ->
  (N.of_nat (length ls * ((list_max ls - 1) / 10)) < 2 ^ 14)%N -> valid_description m (canonical m ls).
Proof.
  intros m ls H32 Hk Hn Hs. apply (few_codes nat m (canonical m ls) (list_max ls)); rewrite ?canonical_length; try assumption.
  - apply canonical_fit; assumption.
  - apply canonical_pf; assumption.
  - intros d Hd. apply In_nth_error in Hd as [i Hi]. destruct (canonical_nth m ls i d Hi) as [_ [-> _]]. apply max_ge.
Qed.

(** ** Messages *)

Lemma canonical_messages : forall ord m ls (msg : list nat), permuting ord -> Forall (fun l => l <= 32) ls -> room_for ls -> (N.of_nat (length ls) <= 2 ^ 24)%N ->
  (N.of_nat (length ls * ((list_max ls - 1) / 10)) < 2 ^ 14)%N -> (exists i, 0 < nth i ls 0) -> Forall (fun s => 0 < nth s ls 0) msg ->
  let coded := map (fun s => nth s (canonical m ls) (mk_desc 0 0 0)) msg in
  (N.of_nat (8 * length (encode m coded)) < 2 ^ 32)%N ->
  exists cb r0 r, new_codebook ord (canonical m ls) m = Ret (Okay cb) /\ new (reader_for m) (encode m coded) = Ret r0 /\
    run_mixed (reader_for m) cb r0 (map Codeword coded) = Ret (r, map (fun s => Sym (Okay s)) msg) /\
    consumed r = Ret (length (message_bits m coded)).
Proof.
  intros ord m ls msg Hord H32 Hk Hn Hs [i0 Hi0] Hm coded Hlen. pose proof (canonical_valid m ls H32 Hk Hn Hs) as Hv.
  assert (G : forall s, 0 < nth s ls 0 -> exists d, nth_error (canonical m ls) s = Some d /\ nth s (canonical m ls) (mk_desc 0 0 0) = d /\ used d /\ d_sym d = s).
  { intros s Hp. assert (Hl : s < length (canonical m ls)).
    { rewrite canonical_length. destruct (Nat.lt_ge_cases s (length ls)) as [H|H]; [exact H|]. rewrite nth_overflow in Hp by exact H. lia. }
    pose proof (nth_error_nth' (canonical m ls) (mk_desc 0 0 0) Hl) as E. exists (nth s (canonical m ls) (mk_desc 0 0 0)). split; [exact E|]. split; [reflexivity|].
    destruct (canonical_nth m ls s _ E) as [_ [Eb [Es _]]]. split; [unfold used; rewrite Eb; exact Hp|exact Es]. }
  assert (Hu : exists d, In d (canonical m ls) /\ used d).
  { destruct (G i0 Hi0) as [d [E [_ [U _]]]]. exists d. split; [exact (nth_error_In _ _ E)|exact U]. }
  destruct (proj1 (construction_total nat ord m _ Hord Hv) Hu) as [cb Hcb].
  assert (Hc : Forall (fun d => In d (canonical m ls) /\ used d) coded).
  { apply Forall_forall. intros d Hd. apply in_map_iff in Hd as [s [<- Hin]]. rewrite Forall_forall in Hm. destruct (G s (Hm s Hin)) as [d [E [-> [U _]]]].
    split; [exact (nth_error_In _ _ E)|exact U]. }
  destruct (message_round_trip nat ord m _ coded cb Hord Hv Hcb Hc Hlen) as [r0 [r [E0 [E1 E2]]]]. exists cb, r0, r. split; [exact Hcb|]. split; [exact E0|].
  split; [|exact E2]. rewrite E1. do 2 f_equal. unfold coded. rewrite map_map. apply map_ext_in. intros s Hin. rewrite Forall_forall in Hm.
  destruct (G s (Hm s Hin)) as [d [_ [-> [_ ->]]]]. reflexivity.
Qed.

(** ** Which lengths are possible *)

Lemma bits_canonical : forall m ls, map d_bits (canonical m ls) = ls.
Proof.
  intros m ls. apply nth_ext with (d := 0) (d' := 0); [rewrite map_length; apply canonical_length|]. intros i Hi. rewrite map_length, canonical_length in Hi.
  change 0 with (d_bits (mk_desc 0%N 0 0)) at 1. rewrite map_nth.
  assert (Hl : i < length (canonical m ls)) by (rewrite canonical_length; exact Hi).
  pose proof (nth_error_nth' (canonical m ls) (mk_desc 0%N 0 0) Hl) as E. destruct (canonical_nth m ls i _ E) as [_ [Eb _]]. exact Eb.
Qed.

Lemma kraft_same : forall (S : Type) (ds : list (desc S)), kraft_sum ds = kraft_of (map d_bits ds).
Proof.
  intros S ds. unfold kraft_sum, kraft_of, longest_word. generalize (list_max (map d_bits ds)). intros L.
  induction ds as [|d ds IH]; [reflexivity|]. cbn [map fold_right]. rewrite IH. f_equal.
  destruct (Nat.ltb_spec 0 (d_bits d)); destruct (Nat.eqb_spec (d_bits d) 0); try lia; reflexivity.
Qed.

Lemma lengths_possible : forall m ls, Forall (fun l => l <= 32) ls ->
  (room_for ls <-> exists ds : list (desc nat), map d_bits ds = ls /\ codes_fit m ds /\ prefix_free m ds).
Proof.
  intros m ls H32. split.
  - intros Hk. exists (canonical m ls). split; [apply bits_canonical|]. split; [apply canonical_fit; assumption|apply canonical_pf; assumption].
  - intros [ds [<- [_ Hp]]]. unfold room_for. rewrite <- kraft_same. exact (kraft_bound nat m ds Hp).
Qed.

Lemma canonical_complete : forall m ls, kraft_of ls = (2 ^ N.of_nat (list_max ls))%N -> complete (canonical m ls).
Proof. intros m ls H. unfold complete. rewrite kraft_same. unfold longest_word. rewrite bits_canonical. exact H. Qed.
