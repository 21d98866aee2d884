(** Proofs for [MachinePanicProps]. *)
From Coq Require Import List Arith NArith ZArith Bool Lia.
From Coq Require Import ZifyBool ZifyNat ZifyN.
From Verif Require Import Base AccModel AccSpec WordAccModel ReleaseAccSpec ReleaseAccProofs MachineModel MachineAccModel MachinePanicSpec.
Import ListNotations.
Local Open Scope N_scope.

Section Panic.
Variable m : machine.
Hypothesis Hb : 1 <= bits m.
Notation u := (unchecked m).

Lemma modulus_u : modulus u = modulus m.
Proof. reflexivity. Qed.
Lemma room_u : room u = room m.
Proof. reflexivity. Qed.
Lemma mod_room : modulus m = 2 * room m.
Proof. unfold modulus, room. rewrite <- N.pow_succ_r'. f_equal. lia. Qed.
Lemma mod_pos : 0 < modulus m.
Proof. unfold modulus. apply N.neq_0_lt_0, N.pow_nonzero. discriminate. Qed.
Lemma mod_nz : modulus m <> 0.
Proof. pose proof mod_pos. lia. Qed.

Lemma madd_is a b : madd m a b = if checked m && (modulus m <=? a + b) then Panic else Ret ((a + b) mod modulus m).
Proof.
  unfold madd, ranged. destruct (N.ltb_spec (a + b) (modulus m)) as [H|H]; destruct (N.leb_spec (modulus m) (a + b)); try lia;
    rewrite ?andb_true_r, ?andb_false_r; [|reflexivity]. rewrite N.mod_small by exact H. reflexivity.
Qed.
Lemma madd_u a b : madd u a b = Ret ((a + b) mod modulus m).
Proof.
  unfold madd, ranged. rewrite modulus_u. cbn [checked unchecked]. destruct (N.ltb_spec (a + b) (modulus m)) as [H|H]; [|reflexivity].
  rewrite N.mod_small by exact H. reflexivity.
Qed.
Lemma madd_fits a b : a + b < modulus m -> madd m a b = Ret (a + b).
Proof. intros H. unfold madd, ranged. destruct (N.ltb_spec (a + b) (modulus m)); [reflexivity|lia]. Qed.
Lemma madd_fits_u a b : a + b < modulus m -> madd u a b = Ret (a + b).
Proof. intros H. rewrite madd_u, N.mod_small by exact H. reflexivity. Qed.
Lemma msub_le w a b : b <= a -> msub w a b = Ret (a - b).
Proof. intros H. unfold msub. destruct (N.leb_spec b a); [reflexivity|lia]. Qed.

Section Source.
Context {R : Type}.
Variable i : io R.
Hypothesis Hio : honest_io i.
(** [k] more bytes may be added. *)
Record win (k : N) (a : wacc R) : Prop := mk_win {
  w_pos : wa_pos a <= wa_end a;
  w_end : wa_end a <= N.of_nat (length (wa_buf a));
  w_len : N.of_nat (length (wa_buf a)) + k < 2 ^ (bits m - 1);
  w_index : wa_index a < 2 ^ bits m
}.

Lemma reset_win k a : win k a -> exists a', m_reset u a = Ret a' /\ m_reset m a = Ret a' /\ win k a' /\ wa_pos a' = 0 /\
  wa_end a' = wa_end a - wa_pos a /\ wa_index a' = wa_index a /\ blen (wa_buf a') = blen (wa_buf a) /\ wa_inner a' = wa_inner a.
Proof.
  intros [H1 H2 H3 H4]. unfold m_reset. rewrite !(msub_le _ _ _ H1). cbn [obind].
  destruct (N.ltb_spec 0 (wa_end a - wa_pos a)) as [H|H].
  - rewrite (wslice_some _ _ _ H1 H2). cbn [obind]. eexists. split; [reflexivity|]. split; [reflexivity|].
    assert (Lb : blen (firstn (N.to_nat (wa_end a - wa_pos a)) (skipn (N.to_nat (wa_pos a)) (wa_buf a)) ++ skipn (N.to_nat (wa_end a - wa_pos a)) (wa_buf a)) = blen (wa_buf a)).
    { pose proof (wslice_length _ _ _ H1 H2) as W. unfold blen in *. rewrite app_length, skipn_length. lia. }
    cbn [wa_pos wa_buf wa_inner wa_end wa_index]. split; [|repeat split; exact Lb].
    unfold blen in Lb. split; cbn [wa_pos wa_end wa_buf wa_index]; rewrite ?Lb; lia.
  - cbn [obind]. eexists. split; [reflexivity|]. split; [reflexivity|]. cbn [wa_pos wa_buf wa_inner wa_end wa_index]. split; [|repeat split].
    split; cbn [wa_pos wa_end wa_buf wa_index]; lia.
Qed.

Lemma consume_win k a n : win k a -> (checked m = true -> wa_pos a + n < modulus m) ->
  exists a', m_consume u a n = Ret a' /\ win k a' /\
    m_consume m a n = (if checked m && (2 ^ bits m <=? wa_index a + n) then Panic else Ret a').
Proof.
  intros [H1 H2 H3 H4] Hp. unfold m_consume. rewrite !madd_u, !madd_is. cbn [obind]. eexists. split; [reflexivity|]. split.
  - split; cbn [wa_pos wa_end wa_buf wa_index]; [apply N.le_min_r|exact H2|exact H3|apply N.mod_lt; exact mod_nz].
  - fold (modulus m). destruct (checked m); cbn [andb obind]; [|reflexivity].
    specialize (Hp eq_refl). destruct (N.leb_spec (modulus m) (wa_pos a + n)); [lia|]. cbn [obind].
    destruct (modulus m <=? wa_index a + n); reflexivity.
Qed.

Lemma fill_win k a : win k a -> exists a' res, m_fill_buf u i a = Ret (a', res) /\ m_fill_buf m i a = Ret (a', res) /\ win k a' /\
  wa_index a' = wa_index a /\ match res with Okay d => blen d = wa_end a' - wa_pos a' | Error _ => True end.
Proof.
  intros Wa. unfold m_fill_buf. destruct (negb (wa_pos a =? 0) || negb (wa_end a =? blen (wa_buf a))).
  - destruct (reset_win k a Wa) as [a1 [E1 [E2 [W1 [P1 [En1 [Ix1 _]]]]]]]. rewrite E1, E2. cbn [obind]. destruct W1 as [H1 H2 H3 H4].
    rewrite wslice_some by (unfold blen; lia). cbn [obind]. pose proof (wslice_length (wa_buf a1) (wa_end a1) (blen (wa_buf a1)) H2 ltac:(lia)) as W.
    destruct (io_read i (wa_inner a1) _) as [[r' tail'] res] eqn:Er. destruct (Hio _ _ _ _ _ Er) as [Lt Hr]. cbv zeta.
    assert (Lb : blen (with_tail (wa_buf a1) (N.to_nat (wa_end a1)) tail') = blen (wa_buf a1)).
    { unfold with_tail, blen in *. rewrite app_length, firstn_length. lia. }
    pose proof mod_room as MR. fold (room m) in H3. fold (modulus m) in H4.
    destruct res as [n|e].
    + assert (Hn : wa_end a1 + N.of_nat n <= blen (wa_buf a1)) by (unfold blen in *; lia).
      assert (Hm : wa_end a1 + N.of_nat n < modulus m) by (unfold blen in *; lia).
      rewrite madd_fits_u, madd_fits by exact Hm. cbn [obind wa_buf wa_pos wa_end].
      rewrite wslice_some by (rewrite ?Lb; lia). cbn [obind]. eexists _, _. split; [reflexivity|]. split; [reflexivity|].
      cbn [wa_index wa_end wa_pos]. split; [|split; [exact Ix1|]].
      * unfold blen in Lb, Hn. split; cbn [wa_pos wa_end wa_buf wa_index]; rewrite ?Lb; fold (room m) (modulus m); lia.
      * apply wslice_length; rewrite ?Lb; lia.
    + eexists _, _. split; [reflexivity|]. split; [reflexivity|]. cbn [wa_index]. split; [|split; [exact Ix1|exact I]].
      unfold blen in Lb. split; cbn [wa_pos wa_end wa_buf wa_index]; rewrite ?Lb; fold (room m) (modulus m); lia.
  - pose proof Wa as [H1 H2 H3 H4]. rewrite wslice_some by (unfold blen; lia). cbn [obind]. eexists _, _. split; [reflexivity|]. split; [reflexivity|].
    split; [exact Wa|]. split; [reflexivity|]. apply wslice_length; unfold blen; lia.
Qed.

Lemma read_win k a dst : win k a -> (checked m = true -> N.of_nat (length dst) < room m) ->
  exists a' dst' res, m_read u i a dst = Ret (a', dst', res) /\ win k a' /\
    m_read m i a dst = (if checked m && match res with Okay n => 2 ^ bits m <=? wa_index a + N.of_nat n | Error _ => false end then Panic else Ret (a', dst', res)).
Proof.
  intros Wa Hd. pose proof Wa as [H1 H2 H3 H4]. unfold m_read. rewrite !(msub_le _ _ _ H1). cbn [obind].
  pose proof mod_room as MR. fold (room m) in H3. fold (modulus m) in H4.
  destruct (N.ltb_spec (blen dst) (wa_end a - wa_pos a)) as [H|H].
  - rewrite madd_fits_u, madd_fits by lia. cbn [obind]. rewrite wslice_some by (unfold blen in *; lia). cbn [obind].
    destruct (slice_read _ dst) as [dst' len] eqn:Sr. destruct (slice_read_length _ _ _ _ Sr) as [Ld [Ln _]].
    destruct (consume_win k a (N.of_nat len) Wa) as [a' [E1 [W' E2]]]; [unfold blen in *; lia|].
    rewrite E1, E2. cbn [obind]. eexists _, _, _. split; [reflexivity|]. split; [exact W'|].
    destruct (checked m && _); reflexivity.
  - destruct (N.ltb_spec (blen (wa_buf a)) (blen dst)) as [Hl|Hl].
    + rewrite wslice_some by (unfold blen in *; lia). cbn [obind]. destruct (slice_read _ dst) as [dst1 len] eqn:Sr. destruct (slice_read_length _ _ _ _ Sr) as [Ld [Ln Ln']].
      assert (blen dst1 = blen dst) as Ld' by (unfold blen; lia). rewrite wslice_some by lia. cbn [obind].
      pose proof (wslice_length (wa_buf a) _ _ H1 H2) as Ws.
      pose proof (wslice_length dst1 (wa_end a - wa_pos a) (blen dst1) ltac:(lia) ltac:(lia)) as W.
      destruct (io_read i (wa_inner a) _) as [[r' tail'] res] eqn:Er. destruct (Hio _ _ _ _ _ Er) as [_ Hr]. cbv zeta. destruct res as [n|e].
      * set (a1 := mk_wacc r' (wa_buf a) (wa_pos a) (wa_end a) (wa_index a)).
        assert (W1 : win k a1) by (split; assumption).
        assert (T : checked m = true -> N.of_nat n + N.of_nat len < room m) by (intros C; specialize (Hd C); unfold blen in *; lia).
        rewrite madd_u. cbn [obind]. set (t := (N.of_nat n + N.of_nat len) mod modulus m) in *.
        destruct (consume_win k a1 t W1) as [a2 [E1 [W2 E2]]].
        { intros C. specialize (T C). unfold t. rewrite N.mod_small by lia. cbn [a1 wa_pos]. lia. }
        destruct (reset_win k a2 W2) as [a3 [E3 [E4 [W3 _]]]]. rewrite E1. cbn [obind]. rewrite E3. cbn [obind].
        eexists _, _, _. split; [reflexivity|]. split; [exact W3|].
        assert (Et : madd m (N.of_nat n) (N.of_nat len) = Ret t).
        { rewrite madd_is. destruct (checked m); [|reflexivity]. specialize (T eq_refl). destruct (N.leb_spec (modulus m) (N.of_nat n + N.of_nat len)); [lia|reflexivity]. }
        rewrite Et. cbn [obind]. rewrite E2, N2Nat.id. cbn [a1 wa_index]. destruct (checked m && _); cbn [obind]; [reflexivity|]. rewrite E4. reflexivity.
      * eexists _, _, _. split; [reflexivity|]. split; [split; assumption|]. rewrite andb_false_r. reflexivity.
    + destruct (fill_win k a Wa) as [a1 [res [E1 [E2 [W1 [Ix Ed]]]]]]. rewrite E1, E2. cbn [obind]. destruct res as [d|e].
      * destruct (slice_read d dst) as [dst' nread] eqn:Sr. destruct (slice_read_length _ _ _ _ Sr) as [_ [_ Ln]].
        destruct (consume_win k a1 (N.of_nat nread) W1) as [a' [E3 [W' E4]]].
        { intros _. destruct W1 as [K1 K2 K3 K4]. fold (room m) in K3. unfold blen in *. lia. }
        rewrite E3, E4, Ix. cbn [obind]. eexists _, _, _. split; [reflexivity|]. split; [exact W'|]. destruct (checked m && (2 ^ bits m <=? wa_index a + N.of_nat nread)); reflexivity.
      * eexists _, _, _. split; [reflexivity|]. split; [exact W1|]. rewrite andb_false_r. reflexivity.
Qed.

Lemma seek_inner_win k a s : win k a -> exists a' res, m_seek_inner u i a s = Ret (a', res) /\ m_seek_inner m i a s = Ret (a', res) /\ win k a'.
Proof.
  intros Wa. unfold m_seek_inner. destruct (io_seek i (wa_inner a) s) as [r' [sz|e]] eqn:Es.
  - change (mcast u (N.of_nat sz)) with (mcast m (N.of_nat sz)).
    destruct (fill_win k (mk_wacc r' (wa_buf a) 0 0 (mcast m (N.of_nat sz)))) as [a1 [res [E1 [E2 [W1 _]]]]].
    { destruct Wa as [H1 H2 H3 H4]. split; cbn [wa_pos wa_end wa_buf wa_index]; [lia|lia|exact H3|apply N.mod_lt; exact mod_nz]. }
    rewrite E1, E2. cbn [obind]. destruct res; (eexists _, _; split; [reflexivity|]; split; [reflexivity|exact W1]).
  - eexists _, _. split; [reflexivity|]. split; [reflexivity|]. destruct Wa as [H1 H2 H3 H4]. split; assumption.
Qed.

(** Going around: the bound of the buffer, counted modulo 2^bits, is found only if nothing went around. *)
Lemma bound_wraps k a mv : win k a -> wa_index a <= mv ->
  exists b, msub u ((wa_index a + wa_end a) mod modulus m) (wa_pos a) = Ret b /\ (mv < b -> mv - wa_index a <= wa_end a - wa_pos a).
Proof.
  intros [H1 H2 H3 H4] Hi. pose proof mod_room as MR. fold (room m) in H3. fold (modulus m) in H4.
  set (M := modulus m) in *. unfold msub. rewrite modulus_u. fold M. cbn [checked unchecked].
  destruct (N.lt_ge_cases (wa_index a + wa_end a) M) as [L|L].
  - rewrite (N.mod_small (wa_index a + wa_end a)) by exact L. destruct (N.leb_spec (wa_pos a) (wa_index a + wa_end a)); [|lia].
    eexists. split; [reflexivity|]. lia.
  - assert (E : (wa_index a + wa_end a) mod M = wa_index a + wa_end a - M).
    { replace (wa_index a + wa_end a) with (wa_index a + wa_end a - M + 1 * M) at 1 by lia. rewrite N.mod_add by lia. apply N.mod_small. lia. }
    rewrite E. destruct (N.leb_spec (wa_pos a) (wa_index a + wa_end a - M)).
    + eexists. split; [reflexivity|]. lia.
    + eexists. split; [reflexivity|]. rewrite (N.mod_small (wa_pos a)) by lia. rewrite N.mod_small by lia. lia.
Qed.

Lemma seek_win k a s : (checked m = true -> bits m <= 64) -> win k a -> (checked m = true -> call_typed m (ASeek s)) -> forall o,
  exists a' res, m_seek u i a s = Ret (a', res) /\ win k a' /\
    m_seek m i a s = (if checked m && too_far m a (ASeek s) o then Panic else Ret (a', res)).
Proof.
  intros H64 Wa Hc o. pose proof Wa as [H1 H2 H3 H4]. pose proof mod_room as MR. fold (room m) in H3. fold (modulus m) in H4.
  destruct s as [n|d|sz]; cbn [m_seek too_far call_typed] in *; fold (modulus m).
  - change (mcast u (N.of_nat n)) with (mcast m (N.of_nat n)). fold (mcast m (N.of_nat n)). cbv zeta. set (mv := mcast m (N.of_nat n)).
    assert (Hmv : mv < modulus m) by (apply N.mod_lt; exact mod_nz).
    destruct (N.leb_spec (wa_index a) mv) as [Hi|Hi]; cbn [andb obind].
    + rewrite madd_u, madd_is. cbn [obind]. destruct (bound_wraps k a mv Wa Hi) as [b [Eb Hbd]]. rewrite Eb. cbn [obind].
      destruct (checked m && (modulus m <=? wa_index a + wa_end a)) eqn:C.
      * cbn [obind]. destruct (N.ltb_spec mv b) as [Hm|Hm].
        -- rewrite (msub_le _ _ _ Hi). cbn [obind]. specialize (Hbd Hm). rewrite madd_fits_u by lia. cbn [obind].
           eexists _, _. split; [reflexivity|]. split; [|reflexivity]. split; cbn [wa_pos wa_end wa_buf wa_index]; fold (room m) (modulus m); lia.
        -- destruct (seek_inner_win k a (Start n) Wa) as [a' [res [E1 [E2 W']]]]. rewrite E1. eexists _, _. split; [reflexivity|]. split; [exact W'|reflexivity].
      * cbn [obind].
        assert (Eb' : msub m ((wa_index a + wa_end a) mod modulus m) (wa_pos a) = Ret b).
        { unfold msub in *. destruct (wa_pos a <=? (wa_index a + wa_end a) mod modulus m) eqn:Le; [exact Eb|].
          destruct (checked m); cbn [andb] in C; [|exact Eb]. rewrite N.mod_small in Le by lia. lia. }
        rewrite Eb'. cbn [obind]. destruct (N.ltb_spec mv b) as [Hm|Hm].
        -- rewrite !(msub_le _ _ _ Hi). cbn [obind]. specialize (Hbd Hm). rewrite madd_fits_u, madd_fits by lia. cbn [obind].
           eexists _, _. split; [reflexivity|]. split; [|reflexivity]. split; cbn [wa_pos wa_end wa_buf wa_index]; fold (room m) (modulus m); lia.
        -- destruct (seek_inner_win k a (Start n) Wa) as [a' [res [E1 [E2 W']]]]. rewrite E1, E2. eexists _, _. split; [reflexivity|]. split; [exact W'|reflexivity].
    + rewrite andb_false_r. destruct (seek_inner_win k a (Start n) Wa) as [a' [res [E1 [E2 W']]]]. rewrite E1, E2. eexists _, _. split; [reflexivity|]. split; [exact W'|reflexivity].
  - rewrite andb_false_r. destruct (seek_inner_win k a (End d) Wa) as [a' [res [E1 [E2 W']]]]. rewrite E1, E2. eexists _, _. split; [reflexivity|]. split; [exact W'|reflexivity].
  - rewrite !(msub_le _ _ _ H1). cbn [obind]. destruct (Z.leb_spec 0 sz) as [Hz|Hz]; cbn [andb].
    + change (mcast u (Z.to_N sz)) with (mcast m (Z.to_N sz)). fold (mcast m (Z.to_N sz)). cbv zeta. set (t := mcast m (Z.to_N sz)).
      destruct (N.leb_spec t (wa_end a - wa_pos a)) as [Ht|Ht]; cbn [andb].
      * rewrite madd_u, madd_is. cbn [obind]. rewrite madd_fits_u, madd_fits by lia. cbn [obind]. eexists _, _. split; [reflexivity|]. split.
        -- split; cbn [wa_pos wa_end wa_buf wa_index]; fold (room m) (modulus m); [lia|lia|lia|apply N.mod_lt; exact mod_nz].
        -- destruct (checked m && _); reflexivity.
      * rewrite andb_false_r.
        assert (Ed : exists d, misub u sz (as_i64 (wa_end a - wa_pos a)) = Ret d /\ misub m sz (as_i64 (wa_end a - wa_pos a)) = Ret d).
        { destruct (checked m) eqn:C.
          - specialize (Hc eq_refl). specialize (H64 eq_refl).
            assert (Rm : room m <= 2 ^ 63) by (unfold room; apply N.pow_le_mono_r; lia).
            assert (Ea : as_i64 (wa_end a - wa_pos a) = Z.of_N (wa_end a - wa_pos a)).
            { unfold as_i64, as_signed. change (2 ^ (64 - 1)) with (2 ^ 63). destruct (N.ltb_spec (wa_end a - wa_pos a) (2 ^ 63)); [reflexivity|lia]. }
            rewrite Ea. unfold misub. change (2 ^ 63)%Z with (Z.of_N (2 ^ 63)) in *. set (h := 2 ^ 63) in *. clearbody h.
            destruct ((- Z.of_N h <=? sz - Z.of_N (wa_end a - wa_pos a)) && (sz - Z.of_N (wa_end a - wa_pos a) <? Z.of_N h))%Z eqn:B; [eexists; split; reflexivity|lia].
          - unfold misub. cbn [checked unchecked]. rewrite C. destruct (_ && _)%Z; eexists; split; reflexivity. }
        destruct Ed as [dd [D1 D2]]. rewrite D1, D2. cbn [obind].
        destruct (seek_inner_win k a (Current dd) Wa) as [a' [res [E1 [E2 W']]]]. rewrite E1, E2. eexists _, _. split; [reflexivity|]. split; [exact W'|reflexivity].
    + rewrite andb_false_r. destruct (seek_inner_win k a (Current sz) Wa) as [a' [res [E1 [E2 W']]]]. rewrite E1, E2. eexists _, _. split; [reflexivity|]. split; [exact W'|reflexivity].
Qed.

Lemma grow_win k a n : win (n + k) a -> exists a', m_grow u a n = Ret a' /\ m_grow m a n = Ret a' /\ win k a'.
Proof.
  intros [H1 H2 H3 H4]. pose proof mod_room as MR. fold (room m) in H3. unfold m_grow. rewrite madd_fits_u, madd_fits by (unfold blen; lia). cbn [obind].
  unfold m_resize. rewrite room_u. destruct (N.leb_spec (blen (wa_buf a) + n) (blen (wa_buf a))) as [L|L].
  - cbn [obind]. eexists. split; [reflexivity|]. split; [reflexivity|]. replace n with 0 by lia. rewrite N.add_0_r. unfold blen in *.
    rewrite Nat2N.id, firstn_all. split; cbn [wa_pos wa_end wa_buf wa_index]; fold (room m); lia.
  - destruct (N.ltb_spec (blen (wa_buf a) + n) (room m)); [|unfold blen in *; lia]. cbn [obind]. eexists. split; [reflexivity|]. split; [reflexivity|].
    assert (Lb : length (wa_buf a ++ repeat 0 (N.to_nat (blen (wa_buf a) + n - blen (wa_buf a)))) = (length (wa_buf a) + N.to_nat n)%nat).
    { rewrite app_length, repeat_length. f_equal. lia. }
    split; cbn [wa_pos wa_end wa_buf wa_index]; rewrite ?Lb; fold (room m); lia.
Qed.

Lemma step_win op ops a : (checked m = true -> bits m <= 64) -> win (N.of_nat (grown (op :: ops))) a -> (checked m = true -> call_typed m op) ->
  exists a' o, m_acc_step u i a op = Ret (a', o) /\ win (N.of_nat (grown ops)) a' /\
    m_acc_step m i a op = (if checked m && too_far m a op o then Panic else Ret (a', o)).
Proof.
  intros H64 Wa Hc. destruct op as [dst| |n|n| | | |s]; cbn [m_acc_step grown] in *.
  - destruct (read_win _ a dst Wa Hc) as [a1 [d1 [res [E1 [W1 E2]]]]]. rewrite E1, E2. cbn [obind]. eexists _, _. split; [reflexivity|]. split; [exact W1|].
    cbn [too_far]. destruct res as [n|e]; [|rewrite andb_false_r; reflexivity]. destruct (checked m && (2 ^ bits m <=? wa_index a + N.of_nat n)); reflexivity.
  - destruct (fill_win _ a Wa) as [a1 [res [E1 [E2 [W1 _]]]]]. rewrite E1, E2. cbn [obind too_far]. rewrite andb_false_r. eexists _, _. split; [reflexivity|]. split; [exact W1|reflexivity].
  - cbn [too_far]. fold (modulus m). unfold m_consume. rewrite !madd_u, !madd_is. cbn [obind]. eexists _, _. split; [reflexivity|]. split.
    + destruct Wa as [H1 H2 H3 H4]. split; cbn [wa_pos wa_end wa_buf wa_index]; [apply N.le_min_r|exact H2|exact H3|apply N.mod_lt; exact mod_nz].
    + destruct (checked m); cbn [andb]; [|reflexivity].
      destruct (modulus m <=? wa_pos a + N.of_nat n); cbn [obind]; destruct (modulus m <=? wa_index a + N.of_nat n); reflexivity.
  - rewrite Nat2N.inj_add in Wa. destruct (grow_win _ a _ Wa) as [a1 [E1 [E2 W1]]]. rewrite E1, E2. cbn [obind too_far]. rewrite andb_false_r.
    eexists _, _. split; [reflexivity|]. split; [exact W1|reflexivity].
  - destruct (reset_win _ a Wa) as [a1 [E1 [E2 [W1 _]]]]. rewrite E1, E2. cbn [obind too_far]. rewrite andb_false_r. eexists _, _. split; [reflexivity|]. split; [exact W1|reflexivity].
  - unfold m_data. rewrite wslice_some by (apply Wa). cbn [obind too_far]. rewrite andb_false_r. eexists _, _. split; [reflexivity|]. split; [exact Wa|reflexivity].
  - unfold m_capacity. rewrite !msub_le by (apply Wa). cbn [obind too_far]. rewrite andb_false_r. eexists _, _. split; [reflexivity|]. split; [exact Wa|reflexivity].
  - destruct (m_seek u i a s) as [[b r]| |] eqn:Es.
    + destruct (seek_win _ a s H64 Wa Hc (OSeek r)) as [a1 [res [E1 [W1 E2]]]]. rewrite E1 in Es. injection Es as <- <-.
      rewrite E2. cbn [obind]. eexists _, _. split; [reflexivity|]. split; [exact W1|]. destruct (checked m && _); reflexivity.
    + exfalso. destruct (seek_win _ a s H64 Wa Hc OUnit) as [a1 [res [E1 _]]]. rewrite E1 in Es. discriminate Es.
    + exfalso. destruct (seek_win _ a s H64 Wa Hc OUnit) as [a1 [res [E1 _]]]. rewrite E1 in Es. discriminate Es.
Qed.

Lemma run_win ops : (checked m = true -> bits m <= 64) -> forall a, win (N.of_nat (grown ops)) a -> (checked m = true -> Forall (call_typed m) ops) ->
  exists a' outs, m_acc_run u i a ops = Ret (a', outs) /\
    m_acc_run m i a ops = (if checked m && ever_too_far m i a ops then Panic else Ret (a', outs)).
Proof.
  intros H64. induction ops as [|op ops IH]; intros a Wa Hc; cbn [m_acc_run ever_too_far].
  - eexists _, _. split; [reflexivity|]. rewrite andb_false_r. reflexivity.
  - destruct (step_win op ops a H64 Wa) as [a1 [o [E1 [W1 E2]]]]; [intros C; specialize (Hc C); inversion Hc; assumption|].
    destruct (IH a1 W1) as [a2 [os [E3 E4]]]; [intros C; specialize (Hc C); inversion Hc; assumption|].
    rewrite E1. cbn [obind]. rewrite E3. cbn [obind]. eexists _, _. split; [reflexivity|]. rewrite E2.
    destruct (checked m); cbn [andb].
    + destruct (too_far m a op o); cbn [obind orb]; [reflexivity|]. rewrite E4. cbn [andb]. destruct (ever_too_far m i a1 ops); reflexivity.
    + cbn [obind]. rewrite E4. reflexivity.
Qed.

Lemma win_start cap k (r : R) : cap + k < 2 ^ (bits m - 1) -> win k (w_with_capacity cap r).
Proof.
  intros Hl. unfold w_with_capacity. split; cbn [wa_pos wa_end wa_buf wa_index]; rewrite ?repeat_length; [lia|lia|lia|].
  pose proof mod_pos as M. exact M.
Qed.
End Source.
End Panic.

Lemma run_panics : forall m, 1 <= bits m <= 64 -> forall (R : Type) (i : io R) cap r ops, honest_io i ->
  Forall (call_typed m) ops -> cap + N.of_nat (grown ops) < 2 ^ (bits m - 1) ->
  m_acc_run m i (w_with_capacity cap r) ops =
  (if checked m && ever_too_far m i (w_with_capacity cap r) ops then Panic else m_acc_run (unchecked m) i (w_with_capacity cap r) ops).
Proof.
  intros m [Hb H64] R i cap r ops Hio Hc Hl.
  destruct (run_win m Hb i Hio ops (fun _ => H64) _ (win_start m Hb cap _ r Hl) (fun _ => Hc)) as [a [outs [E1 E2]]]. rewrite E1. exact E2.
Qed.

(** Without checks offsets, slices and widths may be anything. *)
Lemma run_never : forall m, 1 <= bits m -> checked m = false -> forall (R : Type) (i : io R) cap r ops, honest_io i ->
  cap + N.of_nat (grown ops) < 2 ^ (bits m - 1) -> exists a outs, m_acc_run m i (w_with_capacity cap r) ops = Ret (a, outs).
Proof.
  intros m Hb C R i cap r ops Hio Hl.
  destruct (run_win m Hb i Hio ops ltac:(rewrite C; discriminate) _ (win_start m Hb cap _ r Hl) ltac:(rewrite C; discriminate)) as [a [outs [E1 E2]]].
  rewrite C in E2. exists a, outs. exact E2.
Qed.

Lemma step_panics : forall m, 1 <= bits m <= 64 -> forall (R : Type) (i : io R) (a : wacc R) op, honest_io i ->
  window m a -> call_typed m op -> (forall n, op = AGrow n -> N.of_nat (length (wa_buf a)) + N.of_nat n < 2 ^ (bits m - 1)) ->
  exists a' o, m_acc_step (unchecked m) i a op = Ret (a', o) /\ window m a' /\
    m_acc_step m i a op = (if checked m && too_far m a op o then Panic else Ret (a', o)).
Proof.
  intros m [Hb H64] R i a op Hio [H1 H2 H3 H4] Hc Hg.
  destruct (step_win m Hb i Hio op [] a (fun _ => H64)) as [a' [o [E1 [[K1 K2 K3 K4] E2]]]].
  - split; try assumption. destruct op; cbn [grown]; rewrite ?N.add_0_r; try exact H3. rewrite Nat.add_0_r. apply (Hg n eq_refl).
  - intros _. exact Hc.
  - exists a', o. split; [exact E1|]. split; [|exact E2]. cbn [grown] in K3. rewrite N.add_0_r in K3. split; assumption.
Qed.

(** Growing, with the wrap. *)
Lemma grow_any : forall m, 1 <= bits m -> forall (R : Type) (a : wacc R) n, n < 2 ^ bits m -> window m a ->
  let l := N.of_nat (length (wa_buf a)) + n in
  (m_grow m a n = Panic <-> (if checked m then 2 ^ (bits m - 1) <= l else 2 ^ (bits m - 1) <= l < 2 ^ bits m)) /\
  (l < 2 ^ (bits m - 1) -> exists a', m_grow m a n = Ret a' /\ m_data a' = m_data a) /\
  (checked m = false -> 2 ^ bits m <= l -> exists a', m_grow m a n = Ret a' /\
     (wa_end a <= l - 2 ^ bits m -> m_data a' = m_data a) /\ (l - 2 ^ bits m < wa_end a -> m_data a' = Panic)).
Proof.
  intros m Hb R a n Hn [H1 H2 H3 H4] l. pose proof (mod_room m Hb) as MR. fold (room m) in *. fold (modulus m) in *.
  assert (Dt : forall k, wa_end a <= N.of_nat k -> wslice (firstn k (wa_buf a)) (wa_pos a) (wa_end a) = wslice (wa_buf a) (wa_pos a) (wa_end a)).
  { intros k Hk. unfold wslice, blen. rewrite firstn_length. destruct (N.leb_spec (wa_pos a) (wa_end a)); [|lia].
    destruct (N.leb_spec (wa_end a) (N.of_nat (Nat.min k (length (wa_buf a))))); [|lia].
    destruct (N.leb_spec (wa_end a) (N.of_nat (length (wa_buf a)))); [|lia]. cbn [andb]. f_equal.
    rewrite skipn_firstn_comm, firstn_firstn. f_equal. lia. }
  assert (Lo : l < room m -> exists a', m_grow m a n = Ret a' /\ m_data a' = m_data a).
  { intros Hl. unfold m_grow. rewrite madd_fits by (unfold blen; lia). cbn [obind]. unfold m_resize, blen. fold l.
    destruct (N.leb_spec l (N.of_nat (length (wa_buf a)))) as [L|L].
    - cbn [obind]. eexists. split; [reflexivity|]. unfold m_data. cbn [wa_buf wa_pos wa_end]. apply Dt. lia.
    - destruct (N.ltb_spec l (room m)); [|lia]. cbn [obind]. eexists. split; [reflexivity|]. unfold m_data. cbn [wa_buf wa_pos wa_end].
      rewrite !wslice_some by (unfold blen; rewrite ?app_length; lia). f_equal. rewrite skipn_app, firstn_app.
      rewrite skipn_length. match goal with |- _ ++ firstn ?k _ = _ => replace k with 0%nat by lia end. rewrite app_nil_r. reflexivity. }
  assert (Mid : room m <= l < modulus m -> m_grow m a n = Panic).
  { intros Hl. unfold m_grow. rewrite madd_fits by (unfold blen; lia). cbn [obind]. unfold m_resize, blen. fold l.
    destruct (N.leb_spec l (N.of_nat (length (wa_buf a)))); [lia|]. destruct (N.ltb_spec l (room m)); [lia|reflexivity]. }
  assert (Hi : modulus m <= l -> if checked m then m_grow m a n = Panic else
     m_grow m a n = Ret (mk_wacc (wa_inner a) (firstn (N.to_nat (l - modulus m)) (wa_buf a)) (wa_pos a) (wa_end a) (wa_index a))).
  { intros Hl. unfold m_grow. rewrite madd_is by exact Hb. unfold blen. fold l. destruct (N.leb_spec (modulus m) l); [|lia]. rewrite andb_true_r.
    destruct (checked m); [reflexivity|]. cbn [obind].
    assert (E : l mod modulus m = l - modulus m).
    { symmetry. apply (N.mod_unique l (modulus m) 1); lia. }
    rewrite E. unfold m_resize, blen. destruct (N.leb_spec (l - modulus m) (N.of_nat (length (wa_buf a)))); [|lia]. reflexivity. }
  split; [|split].
  - destruct (N.lt_ge_cases l (room m)) as [L|L]; [destruct (Lo L) as [a' [E _]]; rewrite E; destruct (checked m); (split; [discriminate|lia])|].
    destruct (N.lt_ge_cases l (modulus m)) as [L'|L']; [rewrite Mid by lia; destruct (checked m); (split; [lia|reflexivity])|].
    specialize (Hi L'). destruct (checked m); rewrite Hi; (split; [first [discriminate|lia]|first [reflexivity|lia]]).
  - exact Lo.
  - intros C L'. specialize (Hi L'). rewrite C in Hi. eexists. split; [exact Hi|]. unfold m_data. cbn [wa_buf wa_pos wa_end]. split; intros L.
    + apply Dt. lia.
    + unfold wslice, blen. rewrite firstn_length. destruct (N.leb_spec (wa_end a) (N.of_nat (Nat.min (N.to_nat (l - modulus m)) (length (wa_buf a))))); [lia|].
      rewrite andb_false_r. reflexivity.
Qed.
