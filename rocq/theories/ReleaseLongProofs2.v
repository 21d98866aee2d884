(** Proofs for C189: reading with these tables. *)
From Coq Require Import List Arith NArith ZArith Bool Lia Permutation.
From Coq Require Import ZifyBool ZifyNat ZifyN.
From Verif Require Import Base BitModel BitSpec BitProofs BitQueueSpec BitQueueProofs WordBitModel WordSpec WordBitProofs ReleaseModel ReleaseBitModel ReleaseBitSpec
  ReleaseBitProofs CodebookModel CodebookSpec CodebookProofs CodebookProofs2 CodebookProofs3 CodebookProofs4 CodebookProofs5 CbQueueSpec CbQueueProofs CbBlockProofs CbBlockProofs2
  ReleaseCbModel ReleaseCbSpec ReleaseCbProofs ReleaseCbProofs2 WideCbModel WideCbProofs CodebookExamples ReleaseLongSpec ReleaseLongProofs.
Import ListNotations.
Local Open Scope nat_scope.
Ltac Zify.zify_post_hook ::= Z.div_mod_to_equations.

(** ** Reading with tables for given words *)

Definition tables_for {S : Type} (m : mode) (ds : list (desc S)) (cb : codebook S) : Prop :=
  prefix_free m ds /\ (N.of_nat (length (words m ds)) <= 2 ^ 24)%N /\ (exists d, In d ds /\ used d) /\ (forall d, In d ds -> used d -> d_bits d <= 255) /\
  cb_syms cb = used_syms ds /\ cb_lut_bits cb = lbits (items_of m (number 0 ds)) /\
  exists lo hi, serves 27 (reader_for m) (cb_table cb) lo hi 0 (items_of m (number 0 ds)).

Local Open Scope N_scope.

Lemma tf_read_queue : forall (S : Type) m (ds : list (desc S)) cb e buf r q,
  tables_for m ds cb -> bytes buf -> rep e buf r q -> fine r -> budget r 416 ->
  exists r', rc_read_cb e cb (word_reader r) = Ret (word_reader r', sym_result (snd (rq_decode 26 e m (bits_of e buf) q (all_codes m ds)))) /\
    rep e buf r' (fst (rq_decode 26 e m (bits_of e buf) q (all_codes m ds))) /\ fine r' /\
    N.of_nat (index r') <= N.of_nat (Nat.max (index r) (length buf)) + 52.
Proof.
  intros S m ds cb e buf r q [Hpf [Hcnt [[d0 [Hd0 Hu0]] [H255 [Hs [Hl [lo [hi Hsv]]]]]]]] Hb R F Bu.
  unfold rc_read_cb. rewrite Hl. change 0%N with (N.of_nat 0) at 1.
  apply (rc_loop_queue S cb e m buf Hb 26 27 27 lo hi 0 _ _ r q ltac:(lia) ltac:(reflexivity) Hsv); try assumption.
  - rewrite Hs. apply numbered_matching. intros j d Hj. unfold used_syms. rewrite Nat.add_0_l.
    apply (map_nth_error d_sym). exact Hj.
  - apply number_pf. exact Hpf.
  - apply number_nonempty.
  - apply In_nth_error in Hd0. destruct Hd0 as [j Hj].
    intros E. assert (Hi : In (word m d0, 0 + rank ds j)%nat (items_of m (number 0 ds))).
    { apply number_in. exists j, d0. repeat split; assumption. }
    rewrite E in Hi. destruct Hi.
  - apply maxl_le. intros w i Hin. apply number_in in Hin. destruct Hin as [j [d [Hj [Hu [-> _]]]]].
    unfold word. rewrite codeword_length. apply nth_error_In in Hj. pose proof (H255 d Hj Hu). lia.
  - apply items_idx. apply (number_idx S m). cbn [plus]. lia.
Qed.

Lemma tf_steps_queue : forall (S : Type) m (ds : list (desc S)) cb e buf, tables_for m ds cb -> bytes buf ->
  forall steps r q, rep e buf r q -> fine r -> budget r (steps_skip steps) -> Forall step_ok steps ->
  exists r', rc_run_mixed e cb (word_reader r) steps = Ret (word_reader r', snd (rq_steps e m ds (bits_of e buf) q steps)) /\
    rep e buf r' (fst (rq_steps e m ds (bits_of e buf) q steps)) /\ fine r' /\ 8 * N.of_nat (index r') < W64.
Proof.
  intros S m ds cb e buf Ht Hb. induction steps as [|st steps IH]; intros r q R F B Hok.
  - exists r. split; [reflexivity|]. split; [exact R|]. split; [exact F|]. unfold budget in B. lia.
  - inversion Hok as [|? ? H1 H2]; subst. assert (Eb : buffer r = buf) by (destruct R; assumption).
    assert (G : exists r1, (forall k, rc_run_mixed e cb (word_reader r) (st :: k) =
        (let! (r2, os) := rc_run_mixed e cb (word_reader r1) k in Ret (r2, snd (rq_step e m ds (bits_of e buf) q st) :: os))) /\
      rep e buf r1 (fst (rq_step e m ds (bits_of e buf) q st)) /\ fine r1 /\ budget r1 (steps_skip steps)).
    { destruct st as [op|d]; cbn [step_ok rq_step] in *.
      - assert (K : steps_skip (Call op :: steps) = op_skip op + steps_skip steps) by (destruct op; cbn [steps_skip op_skip]; lia). rewrite K in B.
        destruct (op_queue e buf r q op Hb R F ltac:(unfold budget in *; lia) H1) as [r1 [E [R1 [F1 Hi]]]]. exists r1.
        destruct (rq_op e (bits_of e buf) q op) as [q1 o]. cbn [fst snd] in *. split; [intros k; cbn [rc_run_mixed]; rewrite E; reflexivity|].
        split; [exact R1|]. split; [exact F1|]. assert (Eb1 : buffer r1 = buf) by (destruct R1; assumption). unfold budget in *. rewrite Eb, Eb1 in *. lia.
      - cbn [steps_skip] in B.
        destruct (tf_read_queue S m ds cb e buf r q Ht Hb R F ltac:(unfold budget in *; lia)) as [r1 [E [R1 [F1 Hi]]]]. exists r1.
        destruct (rq_decode 26 e m (bits_of e buf) q (all_codes m ds)) as [q1 o]. cbn [fst snd] in *. split; [intros k; cbn [rc_run_mixed]; rewrite E; reflexivity|].
        split; [exact R1|]. split; [exact F1|]. assert (Eb1 : buffer r1 = buf) by (destruct R1; assumption). unfold budget in *. rewrite Eb, Eb1 in *. lia. }
    destruct G as [r1 [E [R1 [F1 B1]]]]. destruct (IH r1 _ R1 F1 B1 H2) as [r2 [E2 [R2 [F2 Hi2]]]]. exists r2.
    rewrite E, E2. cbn [obind rq_steps]. destruct (rq_step e m ds (bits_of e buf) q st) as [q1 o]. cbn [fst snd] in *.
    destruct (rq_steps e m ds (bits_of e buf) q1 steps) as [q2 os]. cbn [fst snd] in *. split; [reflexivity|]. split; [exact R2|]. split; assumption.
Qed.

Lemma tf_mixed : forall (S : Type) m (ds : list (desc S)) cb, tables_for m ds cb ->
  forall e buf steps, bytes buf -> Forall step_ok steps -> 8 * N.of_nat (length buf) + steps_skip steps < 2 ^ 64 ->
  exists r, rc_mixed_from_new e cb buf steps = Ret (r, snd (rq_mixed e m ds buf steps)) /\
    w_left r = N.of_nat (length (waiting (fst (rq_mixed e m ds buf steps)))) /\
    rb_consumed r = N.of_nat (fetched (fst (rq_mixed e m ds buf steps)) - length (waiting (fst (rq_mixed e m ds buf steps)))).
Proof.
  intros S m ds cb Ht e buf steps Hb Hok B. change (2 ^ 64) with W64 in B. destruct (new_rep e buf Hb) as [r0 [E0 R0]].
  set (r00 := mk_reader buf 0 0%N 0). assert (F0 : fine r00) by (split; cbn; lia).
  assert (B0 : budget r00 (steps_skip steps)) by (unfold budget, r00; cbn [index buffer]; lia).
  assert (W0 : within r00 r0 0) by (exact (refill64_within e r00 r0 F0 E0)).
  unfold rc_mixed_from_new, rb_new. change (mk_wreader buf 0 0 0) with (word_reader r00).
  rewrite (refill64_release e (word_reader r00) (word_reader r0)).
  - cbn [obind]. assert (Br : budget r0 (steps_skip steps)) by (destruct W0 as [W1 [_ [_ W2]]]; unfold budget in *; rewrite W1 in *; lia).
    destruct (tf_steps_queue S m ds cb e buf Ht Hb steps r0 _ R0 (within_fine _ _ _ W0) Br Hok) as [r [E [R [F Hi]]]].
    exists (word_reader r). unfold rq_mixed. split; [exact E|]. split; [cbn [w_left word_reader]; destruct R as [_ _ R3 _ _ _]; rewrite R3; reflexivity|].
    exact (consumed_exact e buf r _ R Hi).
  - rewrite refill64_word; [unfold r00; unfold new in E0; rewrite E0; reflexivity|].
    apply roomy_safe; [exact F0|]. apply (budget_roomy r00 (steps_skip steps)); [exact B0|lia].
Qed.

Lemma seen_tables : forall (S : Type) ord (ds : list (desc S)), permuting ord -> seen_fit ds ->
  prefix_free MSB (map as_seen ds) -> small_enough MSB (map as_seen ds) -> (exists d, In d ds /\ used d) ->
  exists cb, rc_new_codebook ord ds MSB = Ret (Okay cb) /\ tables_for MSB (map as_seen ds) cb.
Proof.
  intros S ord ds Hord Hf Hpf Hsm [d0 [Hd0 Hu0]].
  assert (Hb : forall d, In d (map as_seen ds) -> used d -> (d_bits d <= 255)%nat /\ d_code d < pow2 (d_bits d)).
  { intros d Hd Hu. apply in_map_iff in Hd as [d1 [<- Hd1]]. destruct (Hf d1 Hd1 Hu) as [A _]. split; [exact A|].
    exact (gnum_bound (d_code d1) (d_bits d1)). }
  assert (Hu : exists d, In d (map as_seen ds) /\ used d) by (exists (as_seen d0); split; [apply in_map; exact Hd0|exact Hu0]).
  destruct (w_new_codebook_ok S (gorder ord) MSB (map as_seen ds) (gorder_permuting ord Hord) Hb Hpf Hsm Hu) as [cb [lo [hi [E [H1 [H2 [_ H3]]]]]]].
  exists cb. split; [exact (gnew S ord ds _ Hord Hf E)|].
  split; [exact Hpf|]. split; [apply Hsm|]. split; [exact Hu|]. split; [intros d Hd Hud; apply (Hb d Hd Hud)|].
  split; [exact H1|]. split; [exact H2|]. exists lo, hi. exact H3.
Qed.

Lemma seen_exact : forall (S : Type) ord (ds : list (desc S)), permuting ord -> seen_fit ds ->
  prefix_free MSB (map as_seen ds) -> small_enough MSB (map as_seen ds) -> (exists d, In d ds /\ used d) ->
  exists cb, rc_new_codebook ord ds MSB = Ret (Okay cb) /\
  forall e buf steps, bytes buf -> Forall step_ok steps -> 8 * N.of_nat (length buf) + steps_skip steps < 2 ^ 64 ->
  exists r, rc_mixed_from_new e cb buf steps = Ret (r, snd (rq_mixed e MSB (map as_seen ds) buf steps)) /\
    w_left r = N.of_nat (length (waiting (fst (rq_mixed e MSB (map as_seen ds) buf steps)))) /\
    rb_consumed r = N.of_nat (fetched (fst (rq_mixed e MSB (map as_seen ds) buf steps)) - length (waiting (fst (rq_mixed e MSB (map as_seen ds) buf steps)))).
Proof.
  intros S ord ds Hord Hf Hpf Hsm Hu. destruct (seen_tables S ord ds Hord Hf Hpf Hsm Hu) as [cb [E Ht]].
  exists cb. split; [exact E|]. exact (tf_mixed S MSB _ cb Ht).
Qed.

(** ** Which words these are *)

Local Open Scope nat_scope.

Lemma seen_word_eq : forall (S : Type) (d : desc S), word MSB (as_seen d) = seen_bits 22 (d_code d) (d_bits d).
Proof.
  intros S d. unfold word, as_seen. cbn [d_code d_bits]. rewrite <- (seen_length 22 (d_code d) (d_bits d)) at 2. apply (codeword_value MSB).
Qed.

Lemma seen_short : forall (S : Type) (d : desc S), d_bits d <= 41 -> word MSB (as_seen d) = word MSB d.
Proof.
  intros S d H. rewrite seen_word_eq. cbn [seen_bits]. destruct (Nat.leb_spec (d_bits d) 41); [reflexivity|lia].
Qed.

(** The upper bits of a codeword. *)
Lemma codeword_firstn : forall c n k, (c < pow2 (k + n))%N -> firstn n (codeword MSB c (k + n)) = codeword MSB (N.shiftr c (N.of_nat k)) n.
Proof.
  intros c n k H. apply (value_inj BE); [rewrite firstn_length, !codeword_length; lia|]. cbn [value].
  rewrite value_firstn_be by (rewrite codeword_length; lia). rewrite codeword_length.
  pose proof (value_codeword MSB c (k + n) H) as E. cbn [reader_for value] in E. rewrite E.
  pose proof (value_codeword MSB _ n (shiftr_small c k n H)) as E2. cbn [reader_for value] in E2. rewrite E2.
  replace (k + n - n) with k by lia. rewrite N.shiftr_div_pow2. reflexivity.
Qed.
Lemma codeword_skipn : forall c n k, (c < pow2 (k + n))%N -> skipn n (codeword MSB c (k + n)) = codeword MSB (c mod pow2 k) k.
Proof.
  intros c n k H. apply (value_inj BE); [rewrite skipn_length, !codeword_length; lia|]. cbn [value].
  rewrite value_skipn_be by (rewrite codeword_length; lia). rewrite codeword_length.
  pose proof (value_codeword MSB c (k + n) H) as E. cbn [reader_for value] in E. rewrite E.
  pose proof (value_codeword MSB (c mod pow2 k) k) as E2. cbn [reader_for value] in E2.
  rewrite E2 by (apply N.mod_upper_bound, N.pow_nonzero; discriminate). replace (k + n - n) with k by lia. reflexivity.
Qed.

Lemma codeword_zeros : forall c n z, (c < pow2 n)%N -> codeword MSB c (z + n) = repeat false z ++ codeword MSB c n.
Proof.
  intros c n z H. apply (value_inj BE); [rewrite app_length, repeat_length, !codeword_length; lia|]. cbn [value].
  rewrite value_be_app. pose proof (value_codeword MSB c n H) as E. cbn [reader_for value] in E. rewrite E.
  pose proof (value_codeword MSB c (z + n)) as E2. cbn [reader_for value] in E2.
  rewrite E2 by (pose proof (pow2_le n (z + n) ltac:(lia)); lia).
  replace (value_be (repeat false z)) with 0%N; [lia|]. symmetry. clear. induction z as [|z IH]; [reflexivity|]. cbn [repeat]. rewrite value_be_cons, IH. reflexivity.
Qed.

(** From 42 to 73 bits: 32 zeros are moved. *)
Lemma moved : forall j c k, k < 10 * j -> k < 32 -> (c < pow2 (k + 10))%N ->
  seen_bits 22 c (k + 42) =
    firstn (10 * (k / 10) + 10) (codeword MSB c (k + 10)) ++ repeat false 32 ++ skipn (10 * (k / 10) + 10) (codeword MSB c (k + 10)).
Proof.
  induction j as [|j IH]; intros c k Hj Hk Hc; [lia|].
  rewrite seen_step by lia. assert (Ek : cut_at (k + 42) = k) by (unfold cut_at; lia). rewrite Ek.
  assert (Hmod : (c mod pow2 k < pow2 k)%N) by (apply N.mod_upper_bound, N.pow_nonzero; discriminate).
  rewrite <- (codeword_firstn c 10 k Hc). set (w := codeword MSB c (k + 10)).
  assert (Lw : length w = k + 10) by apply codeword_length.
  assert (Es : skipn 10 w = codeword MSB (c mod pow2 k) k) by (apply codeword_skipn; exact Hc).
  replace (k + 42 - 10) with (k + 32) by lia.
  destruct (Nat.lt_ge_cases k 10) as [Hs|Hs].
  - replace (k / 10) with 0 by lia. cbn [Nat.mul plus]. f_equal. cbn [seen_bits]. destruct (Nat.leb_spec (k + 32) 41); [|lia].
    rewrite Es. replace (k + 32) with (32 + k) by lia. apply codeword_zeros. exact Hmod.
  - replace (k + 32) with (k - 10 + 42) by lia. rewrite (IH (c mod pow2 k)%N (k - 10) ltac:(lia) ltac:(lia)).
    2:{ replace (k - 10 + 10) with k by lia. exact Hmod. }
    replace (k - 10 + 10) with k by lia. rewrite <- Es. replace (10 * ((k - 10) / 10) + 10) with (10 * (k / 10)) by lia.
    replace (10 * (k / 10) + 10) with (10 + 10 * (k / 10)) by lia. set (n := 10 * (k / 10)).
    rewrite app_assoc. f_equal.
    + rewrite <- (firstn_skipn 10 w) at 3. rewrite firstn_app, firstn_firstn, firstn_length, Lw.
      replace (Nat.min (10 + n) 10) with 10 by lia. f_equal. f_equal. lia.
    + f_equal. rewrite skipn_skipn_add. reflexivity.
Qed.

Lemma moved_zeros : forall (S : Type) (d : desc S), 42 <= d_bits d <= 73 -> (d_code d < 2 ^ N.of_nat (d_bits d - 32))%N ->
  let w := codeword MSB (d_code d) (d_bits d - 32) in
  let n := 10 * ((d_bits d - 32) / 10) in
  word MSB d = repeat false 32 ++ w /\ word MSB (as_seen d) = firstn n w ++ repeat false 32 ++ skipn n w.
Proof.
  intros S d Hb Hc w n. split.
  - unfold word. replace (d_bits d) with (32 + (d_bits d - 32)) at 1 by lia. apply codeword_zeros. exact Hc.
  - rewrite seen_word_eq. replace (d_bits d) with (d_bits d - 42 + 42) at 1 by lia.
    rewrite (moved 4 (d_code d) (d_bits d - 42)); [|lia|lia|replace (d_bits d - 42 + 10) with (d_bits d - 32) by lia; exact Hc].
    replace (d_bits d - 42 + 10) with (d_bits d - 32) by lia. fold w.
    replace (10 * ((d_bits d - 42) / 10) + 10) with n by (unfold n; lia). reflexivity.
Qed.

(** ** Codes that are too large *)

Lemma fill_loop_shape : forall idx v off n t j, rc_fill_loop t off idx v j n = Panic \/
  exists t', rc_fill_loop t off idx v j n = Ret t' /\ length t' = length t.
Proof.
  intros idx v off. induction n as [|n IH]; intros t j; cbn [rc_fill_loop]; [right; exists t; auto|].
  unfold store. destruct (N.to_nat (idx j) + off <? length t) eqn:E; cbn [obind]; [|left; reflexivity].
  destruct (IH (update t (N.to_nat (idx j) + off) v) (j + 1)%N) as [H|[t' [H L]]]; [left; exact H|right; exists t'; split; [exact H|]].
  rewrite L. apply update_length.
Qed.

Lemma pass2_panic : forall (S : Type) (d : desc S) post, 11 <= d_bits d <= 255 -> (2 ^ N.of_nat (cut_at (d_bits d) + 10) <= d_code d)%N ->
  forall pre t idx cc, (forall d', In d' pre -> d_bits d' <= 10) -> length t = 1024 ->
  rc_new_pass2 t MSB 10 (pre ++ d :: post) idx cc = Panic.
Proof.
  intros S d post Hb Hc. induction pre as [|d1 pre IH]; intros t idx cc Hp Hl; cbn [app rc_new_pass2].
  - destruct (Nat.eqb_spec (d_bits d) 0); [lia|]. unfold MAX_LUT_BITS. destruct (Nat.leb_spec (d_bits d) 10); [lia|].
    assert (K : index_at t (N.to_nat (rc_lut_part (d_code d) (d_bits d) 10 MSB)) = Panic).
    { unfold index_at. replace (nth_error t _) with (@None N); [reflexivity|]. symmetry. apply nth_error_None.
      rewrite Hl. change (rc_lut_part (d_code d) (d_bits d) 10 MSB) with (rc_lut_part (d_code d) (d_bits d) MAX_LUT_BITS MSB). rewrite rc_lut_msb, N.shiftr_div_pow2 by lia.
      assert (Hq : (2 ^ 10 <= d_code d / 2 ^ N.of_nat (cut_at (d_bits d)))%N).
      { apply N.div_le_lower_bound; [apply N.pow_nonzero; discriminate|]. rewrite <- N.pow_add_r. rewrite Nat2N.inj_add in Hc. exact Hc. }
      change (2 ^ 10)%N with 1024%N in Hq. clear - Hq. revert Hq. generalize (d_code d / 2 ^ N.of_nat (cut_at (d_bits d)))%N. intros q Hq. lia. }
    rewrite K. reflexivity.
  - assert (H1 : d_bits d1 <= 10) by (apply Hp; left; reflexivity). assert (Hp' : forall d', In d' pre -> d_bits d' <= 10) by (intros; apply Hp; right; assumption).
    destruct (Nat.eqb_spec (d_bits d1) 0); [apply IH; assumption|]. unfold MAX_LUT_BITS at 1. destruct (Nat.leb_spec (d_bits d1) 10); [|lia].
    unfold rc_fill_lut, rc_fill_lut_msb. cbn [negb].
    match goal with |- context [rc_fill_loop ?a ?b ?c ?d ?e ?f] => destruct (fill_loop_shape c d b f a e) as [E|[t' [E L]]] end; rewrite E; cbn [obind]; [reflexivity|].
    apply IH; [exact Hp'|congruence].
Qed.

Lemma pass1_max : forall (S : Type) m (ds : list (desc S)) mb i cc d, In d ds -> d_bits d <= fst (rc_new_pass1 m ds mb i cc).
Proof.
  assert (G : forall (S : Type) m (ds : list (desc S)) mb i cc, mb <= fst (rc_new_pass1 m ds mb i cc)).
  { intros S m ds. induction ds as [|d ds IH]; intros mb i cc; cbn [rc_new_pass1 fst]; [lia|].
    match goal with |- context [rc_new_pass1 m ds ?a ?b ?c] => pose proof (IH a b c) end. lia. }
  intros S m ds. induction ds as [|d1 ds IH]; intros mb i cc d Hin; [destruct Hin|]. destruct Hin as [->|H]; cbn [rc_new_pass1].
  - match goal with |- context [rc_new_pass1 m ds ?a ?b ?c] => pose proof (G S m ds a b c) end. lia.
  - apply IH. exact H.
Qed.

Lemma too_large : forall (S : Type) ord (pre : list (desc S)) d post, (forall d', In d' pre -> d_bits d' <= 10) -> 11 <= d_bits d <= 255 ->
  (2 ^ N.of_nat (cut_at (d_bits d) + 10) <= d_code d)%N -> rc_new_codebook ord (pre ++ d :: post) MSB = Panic.
Proof.
  intros S ord pre d post Hp Hb Hc. unfold rc_new_codebook.
  pose proof (pass1_max S MSB (pre ++ d :: post) 0 0 [] d ltac:(apply in_or_app; right; left; reflexivity)) as Hm.
  destruct (rc_new_pass1 MSB (pre ++ d :: post) 0 0 []) as [mb cc]. cbn [fst] in Hm.
  destruct (Nat.eqb_spec mb 0); [lia|]. unfold MAX_LUT_BITS. destruct (Nat.ltb_spec 10 mb); [|lia].
  rewrite (pass2_panic S d post Hb Hc pre _ 0%N cc Hp); [reflexivity|]. rewrite repeat_length. reflexivity.
Qed.

(** For the example: a check that implies [prefix_free]. *)
Lemma pairs_sound : forall (S : Type) m (ds : list (desc S)), pairs_okb m ds = true -> prefix_free m ds.
Proof.
  intros S m ds H2 i j a b Ha Hb Hij Hua Hub Hp. unfold pairs_okb in H2. rewrite forallb_forall in H2.
  assert (Li : i < length ds) by (apply nth_error_Some; congruence).
  assert (Lj : j < length ds) by (apply nth_error_Some; congruence).
  specialize (H2 i). rewrite forallb_forall in H2.
  specialize (H2 ltac:(apply in_seq; lia) j ltac:(apply in_seq; lia)). rewrite Ha, Hb in H2.
  unfold used in *. apply is_prefixb_complete in Hp. rewrite Hp in H2.
  destruct (Nat.eqb_spec i j); [lia|]. destruct (Nat.eqb_spec (d_bits a) 0); [lia|].
  destruct (Nat.eqb_spec (d_bits b) 0); [lia|]. discriminate.
Qed.
