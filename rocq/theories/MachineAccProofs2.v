(** [AccReader] at 64 bits is the one of [WordAccModel] and [ReleaseAccModel]; what seeks do
    at any width. *)
From Coq Require Import List Arith NArith ZArith Bool Lia.
From Coq Require Import ZifyBool ZifyNat ZifyN.
From Verif Require Import Base AccModel AccSpec AccProofs AccProofs2 AccExamples ReleaseModel ReleaseProofs WordBitProofs WordAccModel WordSpec WordAccProofs ReleaseAccModel ReleaseAccSpec ReleaseAccProofs.
From Verif Require Import MachineModel MachineAccModel MachineAccSpec MachineAccProofs.
Import ListNotations.
Local Open Scope N_scope.

(** ** 64 bits *)
Section Wide.
Context {R : Type}.
Variable i : io R.

Lemma madd_release a b : madd x86_64_release a b = Ret (radd a b).
Proof.
  unfold madd, ranged, radd. change (modulus x86_64_release) with W64. cbn [checked x86_64_release].
  destruct (N.ltb_spec (a + b) W64) as [H|H]; [rewrite (N.mod_small (a + b)) by exact H|]; reflexivity.
Qed.
Lemma msub_release a b : a < W64 -> msub x86_64_release a b = Ret (rsub a b).
Proof.
  intros H. unfold msub. change (modulus x86_64_release) with W64. cbn [checked x86_64_release].
  destruct (N.leb_spec b a) as [L|L]; [|reflexivity]. rewrite (rsub_le a b L H). reflexivity.
Qed.
Lemma misub_release a b : misub x86_64_release a b = Ret (risub a b).
Proof.
  unfold misub. cbn [checked x86_64_release]. pose proof (isub_of a b) as H. unfold isub in H.
  destruct ((- 2 ^ 63 <=? a - b) && (a - b <? 2 ^ 63))%Z; [|reflexivity]. rewrite (H _ eq_refl). reflexivity.
Qed.
Lemma madd_64 : madd x86_64 = uadd.
Proof. unfold madd, ranged, uadd. change (modulus x86_64) with W64. cbn [checked x86_64]. reflexivity. Qed.
Lemma msub_64 : msub x86_64 = usub.
Proof. unfold msub, usub. cbn [checked x86_64]. reflexivity. Qed.
Lemma misub_64 : misub x86_64 = isub.
Proof. unfold misub, isub. cbn [checked x86_64]. reflexivity. Qed.
Lemma room_64 : room x86_64 = 2 ^ 63.
Proof. reflexivity. Qed.
Lemma mcast_64 n : n < W64 -> mcast x86_64 n = n.
Proof. intros H. apply N.mod_small. exact H. Qed.
Lemma mcast_64r n : n < W64 -> mcast x86_64_release n = n.
Proof. intros H. apply N.mod_small. exact H. Qed.

Lemma consume_64 (a : wacc R) n : m_consume x86_64 a n = w_consume a n.
Proof. unfold m_consume. rewrite madd_64. reflexivity. Qed.
Lemma reset_64 (a : wacc R) : m_reset x86_64 a = w_reset a.
Proof. unfold m_reset. rewrite msub_64. reflexivity. Qed.
Lemma fill_64 (a : wacc R) : m_fill_buf x86_64 i a = w_fill_buf i a.
Proof. unfold m_fill_buf. rewrite madd_64, reset_64. reflexivity. Qed.
Lemma read_64 (a : wacc R) dst : m_read x86_64 i a dst = w_read i a dst.
Proof.
  unfold m_read, w_read. rewrite msub_64, madd_64, fill_64. destruct (usub (wa_end a) (wa_pos a)) as [rem| |]; cbn [obind]; [|reflexivity..].
  destruct (blen dst <? rem).
  - destruct (uadd (wa_pos a) (blen dst)) as [e| |]; cbn [obind]; [|reflexivity..]. destruct (wslice _ _ _) as [s| |]; cbn [obind]; [|reflexivity..].
    destruct (slice_read s dst). rewrite consume_64. reflexivity.
  - destruct (blen (wa_buf a) <? blen dst).
    + destruct (wslice (wa_buf a) _ _) as [s| |]; cbn [obind]; [|reflexivity..]. destruct (slice_read s dst) as [dst1 len].
      destruct (wslice dst1 _ _); cbn [obind]; [|reflexivity..]. destruct (io_read i (wa_inner a) _) as [[r' t'] [n|e]]; [|reflexivity].
      destruct (uadd (N.of_nat n) (N.of_nat len)) as [t| |]; cbn [obind]; [|reflexivity..]. rewrite consume_64.
      destruct (w_consume _ t) as [a2| |]; cbn [obind]; [|reflexivity..]. rewrite reset_64. reflexivity.
    + destruct (w_fill_buf i a) as [[a1 [d|e]]| |]; cbn [obind]; [|reflexivity..].
      destruct (slice_read d dst). rewrite consume_64. reflexivity.
Qed.

Lemma grow_64 (a : wacc R) n : blen (wa_buf a) < 2 ^ 63 -> m_grow x86_64 a n = w_grow a n.
Proof.
  intros H. unfold m_grow, w_grow, m_resize. rewrite madd_64, room_64.
  unfold uadd. destruct (blen (wa_buf a) + n <? W64); cbn [obind]; [|reflexivity]. set (h := 2 ^ 63) in *.
  destruct (N.leb_spec (blen (wa_buf a) + n) (blen (wa_buf a))) as [L|L].
  - assert (n = 0) by lia. subst n. rewrite N.add_0_r. destruct (N.ltb_spec (blen (wa_buf a)) h); [|lia]. cbn [obind N.to_nat repeat].
    unfold blen. rewrite Nat2N.id, firstn_all, app_nil_r. reflexivity.
  - destruct (blen (wa_buf a) + n <? h); cbn [obind]; [|reflexivity]. replace (blen (wa_buf a) + n - blen (wa_buf a)) with n by lia. reflexivity.
Qed.

Hypothesis Hsk : reports_u64 i.

Lemma seek_inner_64 (a : wacc R) s : m_seek_inner x86_64 i a s = w_seek_inner i a s.
Proof.
  unfold m_seek_inner, w_seek_inner. destruct (io_seek i (wa_inner a) s) as [r' [q|e]] eqn:E; [|reflexivity].
  rewrite mcast_64 by exact (Hsk _ _ _ _ E). rewrite fill_64. reflexivity.
Qed.

Lemma seek_64 (a : wacc R) s : call_fits (ASeek s) -> m_seek x86_64 i a s = w_seek i a s.
Proof.
  intros Hc. destruct s as [n|d|sz]; cbn [m_seek w_seek call_fits] in *.
  - cbv zeta. rewrite !(mcast_64 (N.of_nat n) Hc), Nat2N.id, seek_inner_64, madd_64, msub_64. reflexivity.
  - apply seek_inner_64.
  - rewrite msub_64.
    destruct (usub (wa_end a) (wa_pos a)) as [rem| |]; cbn [obind]; [|reflexivity..].
    destruct (Z.leb_spec 0 sz); [|apply seek_inner_64]. cbv zeta.
    rewrite !(mcast_64 (Z.to_N sz)) by (unfold W64; lia). rewrite madd_64.
    rewrite misub_64. destruct (Z.to_N sz <=? rem); [reflexivity|].
    destruct (isub sz (as_i64 rem)); cbn [obind]; [apply seek_inner_64|reflexivity..].
Qed.

Lemma step_64 (a : wacc R) op : blen (wa_buf a) < 2 ^ 63 -> call_fits op -> m_acc_step x86_64 i a op = w_acc_step i a op.
Proof.
  intros H Hc. destruct op as [dst| |n|n| | | |s]; cbn [m_acc_step w_acc_step].
  - rewrite read_64. reflexivity.
  - rewrite fill_64. reflexivity.
  - rewrite consume_64. reflexivity.
  - rewrite grow_64 by exact H. reflexivity.
  - rewrite reset_64. reflexivity.
  - reflexivity.
  - unfold m_capacity. rewrite msub_64. reflexivity.
  - rewrite seek_64 by exact Hc. reflexivity.
Qed.

Lemma consume_64r (a : wacc R) n : m_consume x86_64_release a n = Ret (ra_consume a n).
Proof. unfold m_consume. rewrite !madd_release. reflexivity. Qed.
Lemma reset_64r (a : wacc R) : wa_end a < W64 -> m_reset x86_64_release a = ra_reset a.
Proof. intros H. unfold m_reset. rewrite msub_release by exact H. reflexivity. Qed.
Lemma fill_64r (a : wacc R) : wa_end a < W64 -> m_fill_buf x86_64_release i a = ra_fill_buf i a.
Proof.
  intros H. unfold m_fill_buf, ra_fill_buf. rewrite reset_64r by exact H.
  destruct (negb (wa_pos a =? 0) || negb (wa_end a =? blen (wa_buf a))); [|reflexivity].
  destruct (ra_reset a) as [a1| |]; cbn [obind]; [|reflexivity..]. destruct (wslice _ _ _); cbn [obind]; [|reflexivity..].
  destruct (io_read i (wa_inner a1) _) as [[r' t'] [n|e]]; [|reflexivity]. rewrite madd_release. reflexivity.
Qed.
Lemma read_64r (a : wacc R) dst : wa_end a < W64 -> m_read x86_64_release i a dst = ra_read i a dst.
Proof.
  intros H. unfold m_read, ra_read. rewrite msub_release by exact H. cbn [obind]. cbv zeta.
  destruct (blen dst <? rsub (wa_end a) (wa_pos a)).
  - rewrite madd_release. cbn [obind]. destruct (wslice _ _ _) as [s| |]; cbn [obind]; [|reflexivity..]. destruct (slice_read s dst).
    rewrite consume_64r. reflexivity.
  - destruct (blen (wa_buf a) <? blen dst).
    + destruct (wslice (wa_buf a) _ _) as [s| |]; cbn [obind]; [|reflexivity..]. destruct (slice_read s dst) as [dst1 len].
      destruct (wslice dst1 _ _); cbn [obind]; [|reflexivity..]. destruct (io_read i (wa_inner a) _) as [[r' t'] [n|e]]; [|reflexivity].
      rewrite madd_release. cbn [obind]. rewrite consume_64r. cbn [obind]. rewrite reset_64r by exact H. reflexivity.
    + rewrite fill_64r by exact H. destruct (ra_fill_buf i a) as [[a1 [d|e]]| |]; cbn [obind]; [|reflexivity..].
      destruct (slice_read d dst). rewrite consume_64r. reflexivity.
Qed.
Lemma seek_inner_64r (a : wacc R) s : m_seek_inner x86_64_release i a s = ra_seek_inner i a s.
Proof.
  unfold m_seek_inner, ra_seek_inner. destruct (io_seek i (wa_inner a) s) as [r' [q|e]] eqn:E; [|reflexivity].
  rewrite mcast_64r by exact (Hsk _ _ _ _ E). rewrite fill_64r by reflexivity. reflexivity.
Qed.
Lemma seek_64r (a : wacc R) s : wa_end a < W64 -> call_fits (ASeek s) -> m_seek x86_64_release i a s = ra_seek i a s.
Proof.
  intros H Hc. destruct s as [n|d|sz]; cbn [m_seek ra_seek call_fits] in *.
  - cbv zeta. rewrite !(mcast_64r (N.of_nat n) Hc), Nat2N.id.
    rewrite seek_inner_64r. destruct (wa_index a <=? N.of_nat n); cbn [andb obind]; [|reflexivity].
    rewrite madd_release. cbn [obind]. rewrite msub_release by apply radd_word. cbn [obind].
    destruct (N.of_nat n <? rsub (radd (wa_index a) (wa_end a)) (wa_pos a)); [|reflexivity].
    rewrite msub_release by exact Hc. cbn [obind]. rewrite madd_release. reflexivity.
  - apply seek_inner_64r.
  - rewrite msub_release by exact H. cbn [obind]. cbv zeta.
    destruct (Z.leb_spec 0 sz); [|apply seek_inner_64r].
    rewrite !(mcast_64r (Z.to_N sz)) by (unfold W64; lia).
    destruct (Z.to_N sz <=? rsub (wa_end a) (wa_pos a)); [rewrite !madd_release; reflexivity|].
    rewrite misub_release. cbn [obind]. apply seek_inner_64r.
Qed.
Lemma grow_64r (a : wacc R) n : m_grow x86_64_release a n = ra_grow a n.
Proof. unfold m_grow. rewrite madd_release. reflexivity. Qed.

Lemma step_64r (a : wacc R) op : wa_end a < W64 -> call_fits op -> m_acc_step x86_64_release i a op = ra_step i a op.
Proof.
  intros H Hc. destruct op as [dst| |n|n| | | |s]; cbn [m_acc_step ra_step].
  - rewrite read_64r by exact H. reflexivity.
  - rewrite fill_64r by exact H. reflexivity.
  - rewrite consume_64r. reflexivity.
  - rewrite grow_64r. reflexivity.
  - rewrite reset_64r by exact H. reflexivity.
  - reflexivity.
  - unfold m_capacity. rewrite msub_release by exact H. reflexivity.
  - rewrite seek_64r by assumption. reflexivity.
Qed.

Hypothesis Hio : honest_io i.

Lemma run_64 ops : forall a : wacc R, sane (N.of_nat (grown ops)) a -> Forall call_fits ops ->
  m_acc_run x86_64 i a ops = w_acc_run i a ops /\ m_acc_run x86_64_release i a ops = ra_run i a ops.
Proof.
  induction ops as [|op ops IH]; intros a Sa Hc; [split; reflexivity|]. cbn [m_acc_run w_acc_run ra_run]. inversion Hc as [|? ? C1 C2]; subst.
  destruct (sane_lt _ a Sa) as [L1 [L2 L3]]. rewrite step_64, step_64r by assumption.
  destruct (step_total i Hio Hsk op ops a Sa C1) as [a1 [o [E1 S1]]]. destruct (IH a1 S1 C2) as [I1 I2]. split.
  - destruct (w_acc_step i a op) as [[b o']| |] eqn:E; cbn [obind]; [|reflexivity..].
    destruct (step_release i a op _ L1 C1 E) as [E' _]. rewrite E1 in E'. assert (b = a1) as -> by congruence. rewrite I1. reflexivity.
  - rewrite E1. cbn [obind]. rewrite I2. reflexivity.
Qed.

Lemma acc_64 cap r ops : Forall call_fits ops -> cap + N.of_nat (grown ops) < 2 ^ 63 ->
  m_acc_run x86_64 i (w_with_capacity cap r) ops = w_acc_run i (w_with_capacity cap r) ops /\
  m_acc_run x86_64_release i (w_with_capacity cap r) ops = ra_run i (w_with_capacity cap r) ops.
Proof. intros Hc Hl. apply run_64; [|exact Hc]. apply sane_start. exact Hl. Qed.
End Wide.

(** ** Seeks at any width *)
Section Seeks.
Variable m : machine.
Hypothesis Hbits : 1 <= bits m.
Context {R : Type}.
Variable i : io R.

Lemma msub_le a b : b <= a -> msub m a b = Ret (a - b).
Proof. intros H. unfold msub. destruct (N.leb_spec b a); [reflexivity|lia]. Qed.

Lemma seek_start_exact (a : wacc R) n : wa_pos a <= wa_end a -> wa_index a + wa_end a < 2 ^ bits m ->
  m_seek m i a (Start n) =
  (let t := N.of_nat n mod 2 ^ bits m in
   if (wa_index a <=? t) && (t <? wa_index a + (wa_end a - wa_pos a))
   then Ret (mk_wacc (wa_inner a) (wa_buf a) (wa_pos a + (t - wa_index a)) (wa_end a) t, Okay (N.to_nat t))
   else m_seek_inner m i a (Start n)).
Proof.
  intros H1 H2. cbn [m_seek]. change (mcast m (N.of_nat n)) with (N.of_nat n mod 2 ^ bits m). set (t := N.of_nat n mod 2 ^ bits m). cbv zeta.
  fold (modulus m) in *. destruct (N.leb_spec (wa_index a) t) as [L|L]; cbn [andb obind]; [|reflexivity].
  rewrite (madd_ok m Hbits) by exact H2. cbn [obind]. rewrite msub_le by lia. cbn [obind].
  replace (wa_index a + wa_end a - wa_pos a) with (wa_index a + (wa_end a - wa_pos a)) by lia.
  destruct (N.ltb_spec t (wa_index a + (wa_end a - wa_pos a))) as [L2|L2]; [|reflexivity].
  rewrite msub_le by exact L. cbn [obind]. rewrite (madd_ok m Hbits) by lia. reflexivity.
Qed.

Lemma seek_current_exact (a : wacc R) d : bits m <= 64 -> (0 <= d < 2 ^ 63)%Z -> wa_pos a <= wa_end a -> wa_end a < 2 ^ (bits m - 1) ->
  wa_index a + wa_end a < 2 ^ bits m ->
  m_seek m i a (Current d) =
  (let t := Z.to_N d mod 2 ^ bits m in
   if t <=? wa_end a - wa_pos a
   then Ret (mk_wacc (wa_inner a) (wa_buf a) (wa_pos a + t) (wa_end a) (wa_index a + t), Okay (N.to_nat (wa_index a + t)))
   else m_seek_inner m i a (Current (d - Z.of_N (wa_end a - wa_pos a)))).
Proof.
  intros Hb Hd H1 H2 H3. cbn [m_seek]. rewrite msub_le by exact H1. cbn [obind]. destruct (Z.leb_spec 0 d); [|lia].
  change (mcast m (Z.to_N d)) with (Z.to_N d mod 2 ^ bits m). set (t := Z.to_N d mod 2 ^ bits m). cbv zeta. fold (modulus m) in *.
  destruct (N.leb_spec t (wa_end a - wa_pos a)) as [L|L].
  - rewrite !(madd_ok m Hbits) by lia. reflexivity.
  - assert (Hr63 : room m <= 2 ^ 63). { unfold room. apply N.pow_le_mono_r; [discriminate|]. lia. } fold (room m) in H2.
    assert (E : as_i64 (wa_end a - wa_pos a) = Z.of_N (wa_end a - wa_pos a)).
    { unfold as_i64, as_signed. change (2 ^ (64 - 1)) with (2 ^ 63). destruct (N.ltb_spec (wa_end a - wa_pos a) (2 ^ 63)); lia. }
    rewrite E. unfold misub.
    destruct (Z.leb_spec (- 2 ^ 63) (d - Z.of_N (wa_end a - wa_pos a))); [|lia].
    destruct (Z.ltb_spec (d - Z.of_N (wa_end a - wa_pos a)) (2 ^ 63)); [|lia]. reflexivity.
Qed.

(** The position reported after a seek that went to the source. *)
Lemma seek_reported (a a' : wacc R) s q : m_seek_inner m i a s = Ret (a', Okay q) ->
  wa_index a' = N.of_nat q mod 2 ^ bits m /\ wa_pos a' = 0 /\
  m_seek m i a' (Current 0) = Ret (a', Okay (N.to_nat (N.of_nat q mod 2 ^ bits m))).
Proof.
  unfold m_seek_inner. destruct (io_seek i (wa_inner a) s) as [r' [sz|e]]; [|discriminate].
  change (mcast m (N.of_nat sz)) with (N.of_nat sz mod 2 ^ bits m).
  destruct (m_fill_buf m i (mk_wacc r' (wa_buf a) 0 0 (N.of_nat sz mod 2 ^ bits m))) as [[a1 [d|e]]| |] eqn:F; cbn [obind]; try discriminate.
  intros E. injection E as <- <-.
  assert (wa_index a1 = N.of_nat sz mod 2 ^ bits m /\ wa_pos a1 = 0) as [Ei Ep].
  { unfold m_fill_buf in F. cbn [wa_pos wa_end wa_buf wa_inner wa_index] in F. destruct (_ || _)%bool.
    - unfold m_reset in F. cbn [wa_pos wa_end wa_buf wa_inner wa_index] in F. rewrite msub_le in F by lia. cbn [obind] in F.
      change (0 <? 0 - 0) with false in F. cbv iota in F. cbn [obind wa_pos wa_end wa_buf wa_inner wa_index] in F.
      destruct (wslice _ _ _); cbn [obind] in F; try discriminate F. destruct (io_read i r' _) as [[r2 t2] [k|e]]; [|discriminate F].
      destruct (madd m _ _); cbn [obind] in F; try discriminate F. destruct (wslice _ _ _); cbn [obind] in F; try discriminate F.
      injection F as <- _. split; reflexivity.
    - destruct (wslice _ _ _); cbn [obind] in F; try discriminate F. injection F as <- _. split; reflexivity. }
  split; [exact Ei|]. split; [exact Ep|].
  assert (N.of_nat sz mod 2 ^ bits m < modulus m) by (apply N.mod_lt; apply modulus_nz; exact Hbits).
  cbn [m_seek]. rewrite msub_le by lia. cbn [obind]. change (mcast m (Z.to_N 0)) with (0 mod 2 ^ bits m). change (0 <=? 0)%Z with true. cbv iota zeta.
  rewrite N.mod_0_l by (apply modulus_nz; exact Hbits). destruct (N.leb_spec 0 (wa_end a1 - wa_pos a1)); [|lia].
  rewrite !(madd_ok m Hbits) by lia. cbn [obind]. rewrite !N.add_0_r. rewrite Ei, Ep. destruct a1 as [r1 b1 p1 e1 x1]; cbn [wa_pos wa_index wa_buf wa_end wa_inner] in *. subst. reflexivity.
Qed.
End Seeks.

(** ** Concrete sources *)
Lemma narrow_cursor_ok m src : source_ok (narrow_cursor_io m) src (fun c => cur_src c = src) cur_pos.
Proof.
  destruct (cursor_ok src) as [Hr Hs]. constructor; [exact Hr|].
  intros r s r' res Hg E. unfold narrow_cursor_io, narrow_cursor_seek in E. cbn [io_seek] in E.
  destruct (cursor_seek r s) as [c' rs] eqn:Ec. specialize (Hs r s c' rs Hg). cbn [cursor_io io_seek] in Hs. specialize (Hs Ec).
  destruct rs as [q|e]; [|injection E as <- <-; exact Hs].
  destruct (N.of_nat q <? 2 ^ bits m); injection E as <- <-; [exact Hs|]. split; [exact Hg|reflexivity].
Qed.

Lemma narrow_cursor_within m : reports_within m (narrow_cursor_io m).
Proof.
  intros r s r' q E. unfold narrow_cursor_io, narrow_cursor_seek in E. cbn [io_seek] in E.
  destruct (cursor_seek r s) as [c' rs]. destruct rs as [q'|e]; [|discriminate E].
  destruct (N.ltb_spec (N.of_nat q') (2 ^ bits m)); [|discriminate E]. injection E as _ <-. assumption.
Qed.

Lemma narrow_legal : acc_legal (narrow_cursor_io wasm32) (with_capacity 10 ex_cursor) ex_ops.
Proof. apply acc_legalb_sound. vm_compute. reflexivity. Qed.

Lemma far_seek c : exists n a outs, N.of_nat n = 2 ^ 32 + 5 /\
  m_acc_run (mk_machine 32 c) word_cursor_io (w_with_capacity 10 (mk_cursor ex_src 0 [])) [AFill; ASeek (Start n); ARead [0]] = Ret (a, outs) /\
  outs = [OFill (Okay (firstn 10 ex_src)); OSeek (Okay 5%nat); ORead [105] (Okay 1%nat)].
Proof.
  exists (N.to_nat (2 ^ 32 + 5)). set (m := mk_machine 32 c). eexists _, _. split; [apply N2Nat.id|].
  assert (E : m_fill_buf m word_cursor_io (w_with_capacity 10 (mk_cursor ex_src 0 [])) =
    Ret (mk_wacc (mk_cursor ex_src 10 []) (firstn 10 ex_src) 0 10 0, Okay (firstn 10 ex_src))) by (destruct c; vm_compute; reflexivity).
  cbn [m_acc_run m_acc_step]. rewrite E. cbn [obind]. rewrite (seek_start_exact m); [|discriminate|discriminate|reflexivity].
  rewrite N2Nat.id. cbv zeta. change (bits m) with 32. change ((2 ^ 32 + 5) mod 2 ^ 32) with 5. cbn [wa_index wa_end wa_pos wa_buf wa_inner].
  change ((0 <=? 5) && (5 <? 0 + (10 - 0))) with true. cbv iota. cbn [obind].
  split; [destruct c; vm_compute; reflexivity|reflexivity].
Qed.

Lemma far_skip c : exists a outs,
  m_acc_run (mk_machine 32 c) word_cursor_io (w_with_capacity 10 (mk_cursor ex_src 0 [])) [AFill; ASeek (Current (2 ^ 32)); ARead [0]] = Ret (a, outs) /\
  outs = [OFill (Okay (firstn 10 ex_src)); OSeek (Okay 0%nat); ORead [100] (Okay 1%nat)].
Proof. eexists _, _. split; [destruct c; vm_compute; reflexivity|reflexivity]. Qed.
