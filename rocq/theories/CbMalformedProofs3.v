(** Theorems about codebooks that need not be prefix-free, put together, and
    descriptions that go wrong. *)
From Coq Require Import List Arith NArith ZArith Bool Lia Permutation.
From Coq Require Import ZifyBool ZifyNat ZifyN.
From Verif Require Import Base ByteModel ByteSpec ByteProofs BitModel BitSpec BitProofs BitProofs2 CodebookModel
  CodebookSpec CodebookProofs CodebookProofs2 CodebookProofs3 CodebookProofs4 CodebookProofs5 CodebookProofs6
  CbMalformedSpec CbMalformedProofs CbMalformedProofs2.
Import ListNotations.
Local Open Scope nat_scope.
Ltac Zify.zify_post_hook ::= Z.div_mod_to_equations.

Lemma nused_words : forall (S : Type) m (ds : list (desc S)), nused ds = length (words m ds).
Proof. intros S m ds. unfold nused, words. rewrite map_length. reflexivity. Qed.

Lemma dw_words : forall (S : Type) m (ds : list (desc S)), dw ds = extra_tables (words m ds).
Proof.
  intros S m ds. unfold dw, extra_tables, words, list_sum. induction ds as [|d ds IH]; [reflexivity|].
  cbn [map fold_right filter]. destruct (Nat.ltb_spec 0 (d_bits d)); cbn [map fold_right]; rewrite IH; [|lia].
  unfold word at 2. rewrite codeword_length. reflexivity.
Qed.

Lemma malformed_construction : forall (S : Type) ord m (ds : list (desc S)), permuting ord -> codes_fit m ds ->
  (N.of_nat (length (words m ds)) < 2 ^ 32)%N -> (exists d, In d ds /\ used d) ->
  exists cb, new_codebook ord ds m = Ret (Okay cb) /\
    length (cb_table cb) <= 1024 * (1 + extra_tables (words m ds)).
Proof.
  intros S ord m ds Hord Hf H32 Hu. rewrite <- (nused_words S m) in H32.
  destruct (malformed_built S ord m ds Hord Hf H32 Hu) as [cb [E [_ [Hl _]]]].
  exists cb. split; [exact E|]. rewrite <- (dw_words S m). exact Hl.
Qed.

Lemma malformed_read : forall (S : Type) ord m (ds : list (desc S)) cb e r, permuting ord -> codes_fit m ds ->
  new_codebook ord ds m = Ret (Okay cb) -> (N.of_nat (length (words m ds)) <= 2 ^ 24)%N ->
  (N.of_nat (length (cb_table cb)) <= 2 ^ 24)%N -> winv r ->
  exists r' s, read_cb e cb r = Ret (r', s) /\ wstep r r' /\
    (forall x, s = Okay x -> exists d, In d ds /\ used d /\ d_sym d = x) /\ (forall x, s = Error x -> x = InvalidCode).
Proof.
  intros S ord m ds cb e r Hord Hf Hcb Hn Ht Hr.
  assert (Hu : exists d, In d ds /\ used d) by exact (codebook_used S ord m ds cb Hcb).
  rewrite <- (nused_words S m) in Hn.
  destruct (malformed_built S ord m ds Hord Hf ltac:(change (2 ^ 32)%N with 4294967296%N; change (2 ^ 24)%N with 16777216%N in Hn; lia) Hu)
    as [cb' [E [Hs [_ [HL [Hlen K]]]]]].
  rewrite E in Hcb. injection Hcb as ->. destruct (K Hn Ht) as [lab [Hw Hlab]].
  assert (Hsl : nused ds <= length (cb_syms cb)) by (rewrite Hs; unfold used_syms, nused; rewrite map_length; lia).
  destruct (read_loop_loose S cb e (nused ds) lab Hw Hn Ht Hsl 27 0 (cb_lut_bits cb) r HL ltac:(lia)) as [r' [s [E' [St [H1 H2]]]]].
  - intros q Hq. destruct (Hlab q ltac:(lia)). lia.
  - exact Hr.
  - exists r', s. split; [exact E'|]. split; [exact St|]. split; [|exact H2].
    intros x Hx. specialize (H1 x Hx). rewrite Hs in H1. unfold used_syms in H1. apply in_map_iff in H1.
    destruct H1 as [d [Ed Hd]]. apply filter_In in Hd. destruct Hd as [Hd Hb]. exists d. split; [exact Hd|].
    split; [|exact Ed]. unfold used. apply Nat.ltb_lt. exact Hb.
Qed.

Lemma malformed_mixed : forall (S : Type) ord m (ds : list (desc S)) cb e, permuting ord -> codes_fit m ds ->
  new_codebook ord ds m = Ret (Okay cb) -> (N.of_nat (length (words m ds)) <= 2 ^ 24)%N ->
  (N.of_nat (length (cb_table cb)) <= 2 ^ 24)%N ->
  forall steps r, winv r -> mixed_ok e cb r steps -> exists r' outs, run_mixed e cb r steps = Ret (r', outs) /\ wstep r r'.
Proof.
  intros S ord m ds cb e Hord Hf Hcb Hn Ht. induction steps as [|[op|d] steps IH]; intros r Hw Hok; cbn [run_mixed].
  - exists r, []. split; [reflexivity|]. apply wstep_refl. exact Hw.
  - cbn [mixed_ok] in Hok. destruct Hok as [H1 [H2 H3]].
    destruct (w_run_op e r op Hw H1 H2) as [r1 [o [E1 S1]]]. rewrite E1. cbn [obind].
    destruct (IH r1 (ws_inv _ _ S1) (H3 r1 o E1)) as [r2 [outs [E2 S2]]]. rewrite E2. cbn [obind].
    eexists _, _. split; [reflexivity|]. eapply wstep_trans; eassumption.
  - cbn [mixed_ok] in Hok.
    destruct (malformed_read S ord m ds cb e r Hord Hf Hcb Hn Ht Hw) as [r1 [s [E1 [S1 _]]]]. rewrite E1. cbn [obind].
    destruct (IH r1 (ws_inv _ _ S1) (Hok r1 s E1)) as [r2 [outs [E2 S2]]]. rewrite E2. cbn [obind].
    eexists _, _. split; [reflexivity|]. eapply wstep_trans; eassumption.
Qed.

Lemma malformed_never_panics : forall (S : Type) ord m (ds : list (desc S)) cb e buf r0 steps,
  permuting ord -> codes_fit m ds -> new_codebook ord ds m = Ret (Okay cb) ->
  (N.of_nat (length (words m ds)) <= 2 ^ 24)%N -> (N.of_nat (length (cb_table cb)) <= 2 ^ 24)%N ->
  bytes buf -> new e buf = Ret r0 -> mixed_ok e cb r0 steps ->
  exists r outs r' s c c' a', run_mixed e cb r0 steps = Ret (r, outs) /\ read_cb e cb r = Ret (r', s) /\
    (forall x, s = Okay x -> exists d, In d ds /\ used d /\ d_sym d = x) /\ (forall x, s = Error x -> x = InvalidCode) /\
    consumed r = Ret c /\ consumed r' = Ret c' /\ available r' = Ret a' /\ c <= c' /\ c' + a' = 8 * length buf.
Proof.
  intros S ord m ds cb e buf r0 steps Hord Hf Hcb Hn Ht Hb Hr Hok.
  destruct (new_inv e buf Hb) as [r0' [E0 [I0 B0]]]. rewrite Hr in E0. injection E0 as <-.
  pose proof (inv_winv _ _ _ I0) as Hw0.
  destruct (malformed_mixed S ord m ds cb e Hord Hf Hcb Hn Ht steps r0 Hw0 Hok) as [r [outs [E S1]]].
  destruct (malformed_read S ord m ds cb e r Hord Hf Hcb Hn Ht (ws_inv _ _ S1)) as [r' [s [E' [S2 [Hx Hy]]]]].
  exists r, outs, r', s, (wpos r), (wpos r'), (8 * length buf - wpos r').
  split; [exact E|]. split; [exact E'|]. split; [exact Hx|]. split; [exact Hy|].
  split; [apply w_consumed; apply S1|]. split; [apply w_consumed; apply S2|].
  assert (Hbuf : buffer r' = buf) by (rewrite (ws_buffer _ _ S2), (ws_buffer _ _ S1); exact B0).
  split; [rewrite <- Hbuf; apply w_available; apply S2|]. split; [apply S2|].
  pose proof (w_index _ (ws_inv _ _ S2)). rewrite Hbuf in *. unfold wpos. lia.
Qed.

Lemma short_last : forall (S : Type) ord m (ds : list (desc S)) cb e buf r0 steps r outs,
  permuting ord -> codes_fit m ds -> (forall d, In d ds -> d_bits d <= 10) ->
  (N.of_nat (length (words m ds)) <= 2 ^ 24)%N -> new_codebook ord ds m = Ret (Okay cb) ->
  bytes buf -> new e buf = Ret r0 -> run_mixed e cb r0 steps = Ret (r, outs) ->
  read_cb e cb r = read_last m ds (list_max (map d_bits ds)) e r.
Proof.
  intros S ord m ds cb e buf r0 steps r outs Hord Hf Hsh Hn Hcb Hb Hr Hrun. rewrite <- (nused_words S m) in Hn.
  apply (short_exact S ord); try assumption; [exact (codebook_used S ord m ds cb Hcb)|].
  apply (cb_mixed S e cb steps r0 r outs); [apply (cb_new e buf); assumption|exact Hrun].
Qed.

Lemma short_stream : forall (S : Type) ord m (ds : list (desc S)) cb buf (steps : list (step S)),
  permuting ord -> codes_fit m ds -> (forall d, In d ds -> d_bits d <= 10) ->
  (N.of_nat (length (words m ds)) <= 2 ^ 24)%N -> new_codebook ord ds m = Ret (Okay cb) ->
  bytes buf -> (forall s, In s steps -> exists d, s = Codeword d) ->
  10 * length steps + 64 <= 8 * length buf -> (N.of_nat (8 * length buf) < 2 ^ 32)%N ->
  exists r0 r, new (reader_for m) buf = Ret r0 /\
    run_mixed (reader_for m) cb r0 steps = Ret (r, fst (last_wins m ds (bits_of (reader_for m) buf) (length steps) 0)) /\
    consumed r = Ret (snd (last_wins m ds (bits_of (reader_for m) buf) (length steps) 0)).
Proof.
  intros S ord m ds cb buf steps Hord Hf Hsh Hn Hcb Hb Hst Hlen H32. rewrite <- (nused_words S m) in Hn.
  destruct (new_inv (reader_for m) buf Hb) as [r0 [E0 [I0 B0]]]. rewrite <- B0 in Hlen, H32.
  destruct (last_wins_run S ord m ds cb Hord Hf Hsh Hn (codebook_used S ord m ds cb Hcb) Hcb steps r0 0 Hst I0 ltac:(lia) H32) as [r [E I]].
  rewrite B0 in *. exists r0, r. split; [exact E0|]. split; [exact E|]. apply (consumed_inv _ _ _ I).
Qed.

(** ** Codewords that do not fit *)

Lemma fill_loop_bad : forall n t off idx v j k, (forall x, idx x <> UB) -> (j <= k < j + N.of_nat n)%N ->
  (forall i, idx k = Ret i -> length t <= N.to_nat i + off) -> fill_loop t off idx v j n = Panic.
Proof.
  induction n as [|n IH]; intros t off idx v j k Hub Hk Hbad; [lia|]. cbn [fill_loop].
  destruct (N.eq_dec k j) as [->|Hne].
  - destruct (idx j) as [i| |] eqn:E; cbn [obind]; [|reflexivity|destruct (Hub j E)].
    specialize (Hbad i eq_refl). unfold store. destruct (Nat.ltb_spec (N.to_nat i + off) (length t)); [lia|reflexivity].
  - destruct (idx j) as [i| |] eqn:E; cbn [obind]; [|reflexivity|destruct (Hub j E)].
    unfold store. destruct (Nat.ltb_spec (N.to_nat i + off) (length t)); [|reflexivity]. cbn [obind].
    apply (IH _ off idx v (j + 1)%N k Hub); [lia|]. rewrite update_length. exact Hbad.
Qed.

Lemma add32_noub : forall a b, add32 a b <> UB.
Proof. intros a b. unfold add32. destruct (_ <? _)%N; discriminate. Qed.
Lemma add32_ret : forall a b i, add32 a b = Ret i -> i = (a + b)%N.
Proof. intros a b i. unfold add32. destruct (_ <? _)%N; intros H; [injection H as <-; reflexivity|discriminate]. Qed.

Lemma fill_any : forall m t c bits L idx, bits <= L -> L <= 10 -> (c < 2 ^ 32)%N -> length t = N.to_nat (pow2 L) ->
  if fits_table m c bits L
  then exists t', fill_lut t m 0 c bits L idx false = Ret t' /\ length t' = length t
  else fill_lut t m 0 c bits L idx false = Panic.
Proof.
  intros m t c bits L idx Hb HL Hc Ht. unfold fits_table. set (F := L - bits).
  assert (Hpow : (pow2 L = pow2 bits * pow2 F)%N) by (rewrite <- pow2_add; f_equal; lia).
  assert (HpF : (0 < pow2 F)%N) by apply pow2_pos.
  assert (Hpb : (0 < pow2 bits)%N) by apply pow2_pos.
  assert (Hp10 : (pow2 L <= 1024)%N) by (change 1024%N with (pow2 10); apply N.pow_le_mono_r; lia).
  unfold fill_lut, fill_lut_msb, fill_lut_lsb; cbn [negb].
  assert (Ecs : csub L bits = Ret F) by (unfold csub; destruct (Nat.leb_spec bits L); [reflexivity|lia]).
  destruct m; rewrite Ecs; cbn [obind]; rewrite shl32_one by (unfold F; lia); cbn [obind].
  - unfold shl32 at 1 2. destruct (Nat.ltb_spec F 32); [|unfold F in *; lia]. cbn [obind].
    rewrite N.shiftl_mul_pow2. change (2 ^ N.of_nat F)%N with (pow2 F). change (2 ^ N.of_nat L)%N with (pow2 L).
    change W32 with (2 ^ 32)%N. set (fc := ((c * pow2 F) mod 2 ^ 32)%N).
    assert (Hdiv : exists q, fc = (q * pow2 F)%N).
    { exists (c mod pow2 (32 - F))%N. unfold fc. change (2 ^ 32)%N with (pow2 32).
      replace (pow2 32) with (pow2 (32 - F) * pow2 F)%N by (rewrite <- pow2_add; f_equal; unfold F in *; lia).
      rewrite N.mul_mod_distr_r; [reflexivity|pose proof (pow2_pos (32 - F)); lia|lia]. }
    destruct (N.ltb_spec fc (pow2 L)) as [Hlt|Hge].
    + destruct Hdiv as [q Hq].
      assert (Hend : (fc + pow2 F <= pow2 L)%N).
      { rewrite Hpow in *. rewrite Hq in *. assert (q < pow2 bits)%N by nia. nia. }
      destruct (fill_loop_spec (N.to_nat (pow2 F)) t 0 (fun j => add32 fc j) (lut_entry idx bits) 0 (fun j => N.to_nat (fc + j)))
        as [t' [E [Lt _]]].
      * intros k Hk. exists (fc + k)%N. split; [|reflexivity]. apply add32_small.
        assert (E32 : (pow2 32 = 4294967296)%N) by reflexivity. lia.
      * intros k Hk. lia.
      * exists t'. split; [exact E|exact Lt].
    + apply (fill_loop_bad _ _ _ _ _ 0 0%N); [intros x; apply add32_noub|lia|].
      intros i Hi. apply add32_ret in Hi. lia.
  - assert (Ecs2 : csub L F = Ret bits) by (unfold csub, F; destruct (Nat.leb_spec (L - bits) L); [f_equal; lia|lia]).
    rewrite Ecs2. cbn [obind]. change (2 ^ N.of_nat bits)%N with (pow2 bits).
    assert (E32 : (pow2 32 = 4294967296)%N) by reflexivity.
    assert (Hsh : forall j, (j < pow2 F)%N -> shl32 j bits = Ret (j * pow2 bits)%N).
    { intros j Hj. apply shl32_small; [lia|]. rewrite Hpow in Hp10. nia. }
    destruct (N.ltb_spec c (pow2 bits)) as [Hlt|Hge].
    + assert (Hin : forall j, (j < pow2 F)%N -> (c + j * pow2 bits < pow2 L)%N) by (intros j Hj; rewrite Hpow; nia).
      destruct (fill_loop_spec (N.to_nat (pow2 F)) t 0 (fun j => let! s := shl32 j bits in add32 c s) (lut_entry idx bits) 0
                  (fun j => N.to_nat (c + j * pow2 bits))) as [t' [E [Lt _]]].
      * intros k Hk. exists (c + k * pow2 bits)%N. split; [|reflexivity]. rewrite Hsh by lia. cbn [obind].
        apply add32_small. specialize (Hin k ltac:(lia)). lia.
      * intros k Hk. specialize (Hin k ltac:(lia)). lia.
      * exists t'. split; [exact E|exact Lt].
    + apply (fill_loop_bad _ _ _ _ _ 0 (pow2 F - 1)%N); [|lia|].
      * intros x. unfold shl32. destruct (Nat.ltb_spec bits 32); [|lia]. cbn [obind]. apply add32_noub.
      * intros i Hi. rewrite Hsh in Hi by lia. cbn [obind] in Hi. apply add32_ret in Hi.
        assert ((pow2 F - 1) * pow2 bits + pow2 bits = pow2 L)%N by (rewrite Hpow; nia). lia.
Qed.

Definition fit_all {S : Type} (m : mode) (L : nat) (ds : list (desc S)) : bool :=
  forallb (fun d => (d_bits d =? 0) || fits_table m (d_code d) (d_bits d) L) ds.

Lemma pass2_any : forall (S : Type) m L (ds : list (desc S)) t k cc, L <= 10 ->
  (forall d, In d ds -> d_bits d <= L /\ (d_code d < 2 ^ 32)%N) -> (N.of_nat (k + nused ds) < 2 ^ 32)%N -> length t = N.to_nat (pow2 L) ->
  if fit_all m L ds
  then exists t', new_pass2 t m L ds (N.of_nat k) cc = Ret (t', cc)
  else new_pass2 t m L ds (N.of_nat k) cc = Panic.
Proof.
  intros S m L. unfold nused, fit_all. induction ds as [|d ds IH]; intros t k cc HL HM H32 Ht; cbn [new_pass2 forallb].
  - exists t. reflexivity.
  - assert (HM' : forall d, In d ds -> d_bits d <= L /\ (d_code d < 2 ^ 32)%N) by (intros d' Hin; apply HM; right; exact Hin).
    destruct (HM d (or_introl eq_refl)) as [HdL Hd32]. cbn [filter length] in *. change MAX_LUT_BITS with 10.
    destruct (Nat.eqb_spec (d_bits d) 0) as [E0|E0]; cbn [orb andb].
    { destruct (Nat.ltb_spec 0 (d_bits d)); [lia|]. apply IH; assumption. }
    destruct (Nat.ltb_spec 0 (d_bits d)); [|lia]. cbn [length] in *.
    assert (Hadd : add32 (N.of_nat k) 1 = Ret (N.of_nat (k + 1))).
    { rewrite add32_small; [f_equal; lia|]. change (pow2 32) with (2 ^ 32)%N. lia. }
    destruct (Nat.leb_spec (d_bits d) 10); [|lia].
    pose proof (fill_any m t (d_code d) (d_bits d) L (N.of_nat k) HdL HL Hd32 Ht) as Hfill.
    destruct (fits_table m (d_code d) (d_bits d) L); cbn [andb].
    + destruct Hfill as [t1 [E L1]]. rewrite E. cbn [obind]. rewrite Hadd. cbn [obind]. apply IH; try assumption; lia.
    + rewrite Hfill. reflexivity.
Qed.

Lemma short_panics : forall (S : Type) ord m (ds : list (desc S)), permuting ord ->
  (forall d, In d ds -> d_bits d <= 10 /\ (d_code d < 2 ^ 32)%N) -> (N.of_nat (length (words m ds)) < 2 ^ 32)%N ->
  (new_codebook ord ds m = Panic <->
    exists d, In d ds /\ used d /\ fits_table m (d_code d) (d_bits d) (list_max (map d_bits ds)) = false) /\
  new_codebook ord ds m <> UB.
Proof.
  intros S ord m ds Hord Hsh H32. rewrite <- (nused_words S m) in H32.
  unfold new_codebook. rewrite (pass1_short S m ds 0 0) by (intros d Hd; apply Hsh; exact Hd).
  cbn [obind Nat.max]. set (L := list_max (map d_bits ds)).
  assert (HM : forall d, In d ds -> d_bits d <= L) by (intros d Hd; apply list_max_in; apply in_map; exact Hd).
  assert (HL : L <= 10).
  { apply list_max_le. apply Forall_forall. intros x Hx. apply in_map_iff in Hx. destruct Hx as [d [<- Hd]]. apply Hsh. exact Hd. }
  destruct (Nat.eqb_spec L 0) as [E0|E0].
  { split; [|discriminate]. split; [discriminate|]. intros [d [Hd [Hu _]]]. unfold used in Hu. specialize (HM d Hd). lia. }
  change MAX_LUT_BITS with 10. destruct (Nat.ltb_spec 10 L); [lia|].
  rewrite shl32_one by lia. cbn [obind].
  pose proof (pass2_any S m L ds (repeat TABLE_FILL_VALUE (N.to_nat (pow2 L))) 0 [] HL) as P.
  specialize (P ltac:(intros d Hd; split; [apply HM; exact Hd|apply Hsh; exact Hd]) H32 (repeat_length _ _)).
  change (N.of_nat 0) with 0%N in P. destruct (fit_all m L ds) eqn:Ef.
  - destruct P as [t' E]. rewrite E. cbn [obind]. rewrite (Permutation_nil (Hord [] [])). cbn [build_all obind].
    split; [|discriminate]. split; [discriminate|]. intros [d [Hd [Hu Hn]]]. exfalso.
    unfold fit_all in Ef. rewrite forallb_forall in Ef. specialize (Ef d Hd). rewrite Hn in Ef. unfold used in Hu.
    destruct (Nat.eqb_spec (d_bits d) 0); [lia|discriminate].
  - rewrite P. cbn [obind]. split; [|discriminate]. split; [intros _|reflexivity].
    unfold fit_all in Ef.
    assert (X : exists d, In d ds /\ (d_bits d =? 0) || fits_table m (d_code d) (d_bits d) L = false).
    { clear - Ef. clearbody L. induction ds as [|d ds IH]; [discriminate|]. cbn [forallb] in Ef. apply andb_false_iff in Ef.
      destruct Ef as [Ef|Ef]; [exists d; split; [left; reflexivity|exact Ef]|].
      destruct (IH Ef) as [d' [H1 H2]]. exists d'. split; [right; exact H1|exact H2]. }
    destruct X as [d [Hd Hn]]. apply orb_false_iff in Hn. destruct Hn as [H1 H2]. exists d. split; [exact Hd|].
    split; [unfold used; destruct (Nat.eqb_spec (d_bits d) 0); [discriminate|lia]|exact H2].
Qed.

(** ** Witnesses *)

Definition id_order : order := fun _ cc => cc.
Definition rev_order : order := fun _ cc => rev cc.
Lemma id_permuting : permuting id_order.
Proof. intros path cc. apply Permutation_refl. Qed.
Lemma rev_permuting : permuting rev_order.
Proof. intros path cc. apply Permutation_rev. Qed.

Lemma fit_small : forall (S : Type) m (ds : list (desc S)),
  forallb (fun d => (d_bits d <=? 41) && (d_code d <? 2 ^ N.of_nat (d_bits d))%N && (d_code d <? 2 ^ 32)%N) ds = true -> codes_fit m ds.
Proof.
  intros S m ds H d Hd _. rewrite forallb_forall in H. specialize (H d Hd). apply andb_true_iff in H. destruct H as [H H3].
  apply andb_true_iff in H. destruct H as [H1 H2]. apply Nat.leb_le in H1. apply N.ltb_lt in H2. apply N.ltb_lt in H3.
  split; [destruct m; cbn [longest]; lia|]. split; assumption.
Qed.

Definition clash : list (desc nat) := [mk_desc 1%N 1 10; mk_desc 1025%N 11 20; mk_desc 0%N 2 30].
Definition clash_stream : list N := [0; 64; 0; 0; 0; 0; 0; 0; 0; 0; 0; 0; 0; 0; 0; 0]%N.

Lemma unrelated_witness : exists ord m (ds : list (desc nat)) cb buf r0 r s d,
  permuting ord /\ codes_fit m ds /\ small_enough m ds /\ new_codebook ord ds m = Ret (Okay cb) /\ bytes buf /\
  new (reader_for m) buf = Ret r0 /\ In d ds /\ used d /\
  (forall d', In d' ds -> used d' -> is_prefix (word m d') (bits_of (reader_for m) buf) -> d' = d) /\
  is_prefix (word m d) (bits_of (reader_for m) buf) /\
  read_cb (reader_for m) cb r0 = Ret (r, Okay s) /\ s <> d_sym d /\ consumed r = Ret 1 /\ d_bits d = 2.
Proof.
  exists id_order, MSB, clash. eexists. exists clash_stream. eexists _, _, 20, (mk_desc 0%N 2 30).
  split; [exact id_permuting|]. split; [apply fit_small; reflexivity|].
  split; [split; vm_compute; discriminate|].
  split; [vm_compute; reflexivity|]. split; [repeat constructor|].
  split; [vm_compute; reflexivity|]. split; [right; right; left; reflexivity|]. split; [unfold used; cbn; lia|].
  split; [|split; [|split; [vm_compute; reflexivity|split; [cbn; lia|split; vm_compute; reflexivity]]]].
  - intros d' [<-|[<-|[<-|[]]]] _ Hp; apply starts_spec in Hp; [vm_compute in Hp; discriminate|vm_compute in Hp; discriminate|reflexivity].
  - apply starts_spec. vm_compute. reflexivity.
Qed.

Definition race : list (desc nat) := [mk_desc 1%N 1 10; mk_desc 1025%N 11 20; mk_desc 1027%N 11 30].

Lemma order_witness : exists ord1 ord2 m (ds : list (desc nat)) cb1 cb2 buf r0 r1 r2,
  permuting ord1 /\ permuting ord2 /\ codes_fit m ds /\ small_enough m ds /\
  new_codebook ord1 ds m = Ret (Okay cb1) /\ new_codebook ord2 ds m = Ret (Okay cb2) /\
  bytes buf /\ new (reader_for m) buf = Ret r0 /\
  read_cb (reader_for m) cb1 r0 = Ret (r1, Okay 30) /\ read_cb (reader_for m) cb2 r0 = Ret (r2, Okay 20).
Proof.
  exists id_order, rev_order, MSB, race. eexists _, _. exists clash_stream. eexists _, _, _.
  split; [exact id_permuting|]. split; [exact rev_permuting|]. split; [apply fit_small; reflexivity|].
  split; [split; vm_compute; discriminate|].
  split; [vm_compute; reflexivity|]. split; [vm_compute; reflexivity|]. split; [repeat constructor|].
  split; [vm_compute; reflexivity|]. split; vm_compute; reflexivity.
Qed.

Definition misfit : list (desc nat) := [mk_desc (2 ^ 31)%N 1 10; mk_desc 3%N 2 20].

Lemma misfit_witness : exists ord (ds : list (desc nat)) d cb buf r0 r, permuting ord /\ new_codebook ord ds MSB = Ret (Okay cb) /\
  In d ds /\ used d /\ (d_code d < 2 ^ 32)%N /\ (2 ^ N.of_nat (d_bits d) <= d_code d)%N /\
  bytes buf /\ new BE buf = Ret r0 /\ read_cb BE cb r0 = Ret (r, Okay (d_sym d)).
Proof.
  exists id_order, misfit, (mk_desc (2 ^ 31)%N 1 10). eexists. exists clash_stream. eexists _, _.
  split; [exact id_permuting|]. split; [vm_compute; reflexivity|]. split; [left; reflexivity|].
  split; [unfold used; cbn; lia|]. split; [vm_compute; reflexivity|]. split; [vm_compute; discriminate|].
  split; [repeat constructor|]. split; vm_compute; reflexivity.
Qed.
