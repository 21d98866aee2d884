(** Codeword reads with tables of any size: no panic, and an end unless the last bytes of
    the buffer cannot be loaded. *)
From Coq Require Import List Arith NArith ZArith Bool Lia Permutation.
From Coq Require Import ZifyBool ZifyNat ZifyN.
From Verif Require Import Base ByteModel ByteSpec ByteProofs BitModel BitSpec BitProofs BitProofs2 CodebookModel
  CodebookSpec CodebookProofs CodebookProofs2 CodebookProofs3 CodebookProofs4 CodebookProofs5 CodebookProofs6
  CodebookSparse CodebookLargeSpec CodebookLargeProofs
  CbMalformedSpec CbMalformedProofs CbMisfitSpec CbMisfitProofs CbEndlessSpec.
Import ListNotations.
Local Open Scope nat_scope.

(** ** Entries *)

Lemma shifted_mod : forall i, (N.shiftl i 8 mod W32 = N.shiftl (i mod 2 ^ 24) 8 mod W32)%N.
Proof.
  intros i. rewrite !N.shiftl_mul_pow2. unfold W32. change (2 ^ 32)%N with (2 ^ 24 * 2 ^ 8)%N.
  rewrite !N.mul_mod_distr_r by discriminate. rewrite N.mod_mod by discriminate. reflexivity.
Qed.

Lemma lut_entry_any : forall i b, b <= 10 ->
  (lut_entry i b =? TABLE_FILL_VALUE)%N = false /\ N.land (lut_entry i b) 127 = N.of_nat b /\
  (N.land (lut_entry i b) 128 =? 0)%N = true /\ N.shiftr (lut_entry i b) 8 = (i mod 2 ^ 24)%N.
Proof.
  intros i b Hb. assert (E : lut_entry i b = lut_entry (i mod 2 ^ 24) b) by (unfold lut_entry; rewrite shifted_mod; reflexivity).
  rewrite E. apply lut_entry_fields; [apply N.mod_lt; discriminate|exact Hb].
Qed.

Lemma esc_entry_any : forall i b, b <= 10 ->
  (esc_entry i b =? TABLE_FILL_VALUE)%N = false /\ N.land (esc_entry i b) 127 = N.of_nat b /\
  (N.land (esc_entry i b) 128 =? 0)%N = false /\ N.shiftr (esc_entry i b) 8 = (i mod 2 ^ 24)%N.
Proof.
  intros i b Hb. assert (E : esc_entry i b = esc_entry (i mod 2 ^ 24) b) by (unfold esc_entry; rewrite shifted_mod; reflexivity).
  rewrite E. apply esc_entry_fields; [apply N.mod_lt; discriminate|exact Hb].
Qed.

Lemma mod_down : forall i a b, a <> 0%N -> b <> 0%N -> ((i mod a) mod b <= i)%N.
Proof.
  intros i a b Ha Hb. apply (N.le_trans _ (i mod a)); apply N.mod_le; assumption.
Qed.

(** ** What a round does *)

Definition done (S : Type) (syms : list S) (o : option (result S codebook_error)) : Prop :=
  (forall x, o = Some (Okay x) -> In x syms) /\ (forall x, o = Some (Error x) -> x = InvalidCode).

Lemma rounds_sane : forall (S : Type) (cb : codebook S) e n, sane n (cb_table cb) -> n <= length (cb_syms cb) ->
  forall k idx L r, 1 <= L <= 10 -> N.to_nat idx + sz L <= length (cb_table cb) -> winv r ->
  exists r' o, rounds_from k e cb r idx L = Ret (r', o) /\ wstep r r' /\ done S (cb_syms cb) o.
Proof.
  intros S cb e n Hsane Hs. induction k as [|k IH]; intros idx L r HL Hidx Hr; cbn [rounds_from].
  - exists r, None. split; [reflexivity|]. split; [apply wstep_refl; exact Hr|]. split; discriminate.
  - destruct (w_get_bits_32 e r L Hr ltac:(lia)) as [r0 [v [Eg _]]].
    assert (Ep : peek_bits_32 e r L = Ret (r, v)) by (unfold peek_bits_32; rewrite Eg; reflexivity).
    rewrite Ep. cbn [obind].
    pose proof (peek_bound e r L r v (winv_cbound r Hr) ltac:(lia) Ep) as Hv.
    set (p := N.to_nat (v + idx)). assert (Hp : p < N.to_nat idx + sz L) by (unfold p, sz; lia).
    destruct (nth_error (cb_table cb) p) as [x|] eqn:Ex; [|apply nth_error_None in Ex; lia].
    rewrite (index_nth _ _ _ _ Ex). cbn [obind].
    assert (Fail : exists r' o, @Ret (reader * option (result S codebook_error)) (r, Some (Error InvalidCode)) = Ret (r', o) /\ wstep r r' /\
      done S (cb_syms cb) o).
    { exists r, (Some (Error InvalidCode)). split; [reflexivity|]. split; [apply wstep_refl; exact Hr|].
      split; [discriminate|]. intros y Hy. injection Hy as <-. reflexivity. }
    destruct (Hsane p x Ex) as [->|[[j [b [Hj [Hb ->]]]]|[o [b [Hb [Ho ->]]]]]].
    + rewrite N.eqb_refl. exact Fail.
    + destruct (lut_entry_any (N.of_nat j mod W32) b) as [G1 [G2 [G3 G4]]]; [lia|].
      rewrite G1, G2, G3, G4. cbn [negb]. rewrite (w_available r Hr). cbn [obind].
      destruct (_ <? _)%N; [exact Fail|]. rewrite Nnat.Nat2N.id.
      destruct (w_skip_small e r b Hr ltac:(lia)) as [r1 [E1 S1]]. rewrite E1. cbn [obind].
      pose proof (mod_down (N.of_nat j) W32 (2 ^ 24) ltac:(discriminate) ltac:(discriminate)) as Hm.
      set (j' := ((N.of_nat j mod W32) mod 2 ^ 24)%N) in *.
      destruct (nth_error (cb_syms cb) (N.to_nat j')) as [s|] eqn:Es; [|apply nth_error_None in Es; lia].
      rewrite (index_nth _ _ _ _ Es). cbn [obind]. exists r1, (Some (Okay s)). split; [reflexivity|]. split; [exact S1|].
      split; [|discriminate]. intros y Hy. injection Hy as <-. apply nth_error_In in Es. exact Es.
    + destruct (esc_entry_any (N.of_nat o mod W32) b) as [G1 [G2 [G3 G4]]]; [lia|].
      rewrite G1, G2, G3, G4. cbn [negb]. rewrite (w_available r Hr). cbn [obind].
      destruct (_ <? _)%N; [exact Fail|].
      destruct (w_skip_small e r L Hr ltac:(lia)) as [r1 [E1 S1]]. rewrite E1. cbn [obind]. rewrite Nnat.Nat2N.id.
      pose proof (mod_down (N.of_nat o) W32 (2 ^ 24) ltac:(discriminate) ltac:(discriminate)) as Hm.
      set (o' := ((N.of_nat o mod W32) mod 2 ^ 24)%N) in *.
      destruct (IH o' b r1 Hb ltac:(lia) (ws_inv _ _ S1)) as [r2 [s [E2 [S2 Hy]]]].
      exists r2, s. split; [exact E2|]. split; [eapply wstep_trans; eassumption|exact Hy].
Qed.

(** ** Readers that cannot move *)

Definition at_tail (r : reader) : Prop := left r = 0 /\ can_refill r = false.

Lemma skip_moves : forall e r n r', winv r -> 1 <= n <= 64 -> skip_bits e r n = Ret r' -> wpos r < wpos r' \/ at_tail r'.
Proof.
  intros e r n r' H Hn E. unfold skip_bits in E. pose proof (w_left _ H). pose proof (w_pos _ H).
  destruct (Nat.ltb_spec (left r) n).
  - destruct (Nat.ltb_spec 64 (n - left r)); [lia|].
    pose proof (ws_inv _ _ (wstep_skip_rem e r (n - left r) H)) as W2.
    destruct (can_refill (skip_rem e r (n - left r))) eqn:Hc.
    + destruct (refill64_some e _ (w_bytes _ W2) Hc) as [r3 [E3 [I3 [L3 [X3 B3]]]]].
      rewrite E3 in E. cbn [obind] in E. injection E as <-. left. unfold wpos.
      rewrite skip_rem_index, skip_rem_left. rewrite skip_rem_index in X3. lia.
    + rewrite (refill64_none e _ Hc) in E. cbn [obind] in E. injection E as <-.
      destruct (Nat.eq_dec (left r) 0) as [E0|E0].
      * right. split; [rewrite !skip_rem_left; lia|]. unfold can_refill in *. rewrite skip_rem_index, skip_rem_buffer. exact Hc.
      * left. unfold wpos. rewrite !skip_rem_index, !skip_rem_left. lia.
  - injection E as <-. left. unfold wpos. rewrite skip_rem_index, skip_rem_left. lia.
Qed.

Lemma skip_tail : forall e r n r', at_tail r -> 1 <= n <= 64 -> skip_bits e r n = Ret r' ->
  at_tail r' /\ index r' = index r /\ buffer r' = buffer r.
Proof.
  intros e r n r' [H1 H2] Hn E. unfold skip_bits in E. rewrite H1 in E.
  destruct (Nat.ltb_spec 0 n); [|lia]. destruct (Nat.ltb_spec 64 (n - 0)); [lia|].
  assert (Hc : can_refill (skip_rem e r (n - 0)) = false) by (unfold can_refill in *; rewrite skip_rem_index, skip_rem_buffer; exact H2).
  rewrite (refill64_none e _ Hc) in E. cbn [obind] in E. injection E as <-. split; [split|].
  - rewrite !skip_rem_left. lia.
  - unfold can_refill in *. rewrite skip_rem_index, skip_rem_buffer. exact Hc.
  - rewrite !skip_rem_index, !skip_rem_buffer. split; reflexivity.
Qed.

(** A round after which the loop goes on. *)
Lemma round_goes_on : forall (S : Type) (cb : codebook S) e n, sane n (cb_table cb) ->
  forall k idx L r r', 1 <= L <= 10 -> N.to_nat idx + sz L <= length (cb_table cb) -> winv r ->
  rounds_from (Datatypes.S k) e cb r idx L = Ret (r', None) ->
  exists r1 idx' L', skip_bits e r L = Ret r1 /\ wstep r r1 /\ wpos r < 8 * length (buffer r) /\
    1 <= L' <= 10 /\ N.to_nat idx' + sz L' <= length (cb_table cb) /\ rounds_from k e cb r1 idx' L' = Ret (r', None).
Proof.
  intros S cb e n Hsane k idx L r r' HL Hidx Hr E. cbn [rounds_from] in E.
  destruct (w_get_bits_32 e r L Hr ltac:(lia)) as [r0 [v [Eg _]]].
  assert (Ep : peek_bits_32 e r L = Ret (r, v)) by (unfold peek_bits_32; rewrite Eg; reflexivity).
  rewrite Ep in E. cbn [obind] in E.
  set (p := N.to_nat (v + idx)) in *.
  destruct (nth_error (cb_table cb) p) as [x|] eqn:Ex; [|unfold index_at in E; rewrite Ex in E; discriminate E].
  rewrite (index_nth _ _ _ _ Ex) in E. cbn [obind] in E.
  destruct (Hsane p x Ex) as [->|[[j [b [Hj [Hb ->]]]]|[o [b [Hb [Ho ->]]]]]].
  - rewrite N.eqb_refl in E. discriminate E.
  - destruct (lut_entry_any (N.of_nat j mod W32) b) as [G1 [G2 [G3 G4]]]; [lia|].
    rewrite G1, G2, G3, G4 in E. cbn [negb] in E. rewrite (w_available r Hr) in E. cbn [obind] in E.
    destruct (_ <? _)%N; [discriminate E|].
    destruct (skip_bits e r _) as [r1| |]; try discriminate E. cbn [obind] in E.
    destruct (index_at (cb_syms cb) _) as [y| |]; discriminate E.
  - destruct (esc_entry_any (N.of_nat o mod W32) b) as [G1 [G2 [G3 G4]]]; [lia|].
    rewrite G1, G2, G3, G4 in E. cbn [negb] in E. rewrite (w_available r Hr) in E. cbn [obind] in E.
    destruct (N.ltb_spec (N.of_nat (8 * length (buffer r) - wpos r) mod W32) (N.of_nat b)) as [|Ha]; [discriminate E|].
    destruct (w_skip_small e r L Hr ltac:(lia)) as [r1 [E1 S1]]. rewrite E1 in E. cbn [obind] in E. rewrite Nnat.Nat2N.id in E.
    pose proof (mod_down (N.of_nat o) W32 (2 ^ 24) ltac:(discriminate) ltac:(discriminate)) as Hm.
    set (o' := ((N.of_nat o mod W32) mod 2 ^ 24)%N) in *.
    exists r1, o', b. split; [exact E1|]. split; [exact S1|]. split.
    { pose proof (N.mod_le (N.of_nat (8 * length (buffer r) - wpos r)) W32 ltac:(discriminate)). lia. }
    split; [exact Hb|]. split; [lia|exact E].
Qed.

Lemma tail_goes_on : forall (S : Type) (cb : codebook S) e n, sane n (cb_table cb) ->
  forall k idx L r r', 1 <= L <= 10 -> N.to_nat idx + sz L <= length (cb_table cb) -> winv r -> at_tail r ->
  rounds_from k e cb r idx L = Ret (r', None) -> at_tail r' /\ index r' = index r /\ buffer r' = buffer r.
Proof.
  intros S cb e n Hsane. induction k as [|k IH]; intros idx L r r' HL Hidx Hr Ht E.
  - cbn [rounds_from] in E. injection E as <-. split; [exact Ht|split; reflexivity].
  - destruct (round_goes_on S cb e n Hsane k idx L r r' HL Hidx Hr E) as [r1 [idx' [L' [E1 [S1 [Ha [HL' [Hi' E']]]]]]]].
    destruct (skip_tail e r L r1 Ht ltac:(lia) E1) as [T1 [X1 B1]].
    destruct (IH idx' L' r1 r' HL' Hi' (ws_inv _ _ S1) T1 E') as [T2 [X2 B2]].
    split; [exact T2|]. split; congruence.
Qed.

Lemma long_read : forall (S : Type) (cb : codebook S) e n, sane n (cb_table cb) ->
  forall k idx L r r', 1 <= L <= 10 -> N.to_nat idx + sz L <= length (cb_table cb) -> winv r ->
  8 * length (buffer r) - wpos r + 1 < k -> rounds_from k e cb r idx L = Ret (r', None) ->
  at_tail r' /\ wpos r' < 8 * length (buffer r').
Proof.
  intros S cb e n Hsane. induction k as [|k IH]; intros idx L r r' HL Hidx Hr Hk E; [lia|].
  destruct (round_goes_on S cb e n Hsane k idx L r r' HL Hidx Hr E) as [r1 [idx' [L' [E1 [S1 [Ha [HL' [Hi' E']]]]]]]].
  pose proof (ws_buffer _ _ S1) as B1.
  destruct (skip_moves e r L r1 Hr ltac:(lia) E1) as [Hm|Ht].
  - apply (IH idx' L' r1 r' HL' Hi' (ws_inv _ _ S1)); [rewrite B1; lia|exact E'].
  - destruct (tail_goes_on S cb e n Hsane k idx' L' r1 r' HL' Hi' (ws_inv _ _ S1) Ht E') as [T2 [X2 B2]].
    destruct k as [|k]; [lia|].
    destruct (round_goes_on S cb e n Hsane k idx' L' r1 r' HL' Hi' (ws_inv _ _ S1) E') as [r2 [_ [_ [_ [_ [Ha2 _]]]]]].
    split; [exact T2|]. unfold wpos in *. destruct Ht as [Ht _]. destruct T2 as [Ht2 _]. rewrite B2, X2. lia.
Qed.

(** ** Codebooks *)

Lemma in_used_syms : forall (S : Type) (ds : list (desc S)) x, In x (used_syms ds) -> exists d, In d ds /\ used d /\ d_sym d = x.
Proof.
  intros S ds x H. unfold used_syms in H. apply in_map_iff in H. destruct H as [d [Ed Hd]]. apply filter_In in Hd.
  destruct Hd as [Hd Hb]. exists d. split; [exact Hd|]. split; [|exact Ed]. unfold used. apply Nat.ltb_lt. exact Hb.
Qed.

Lemma rounds_read : forall (S : Type) e (cb : codebook S) k r idx L, read_loop k e cb r idx L =
  match rounds_from k e cb r idx L with Ret (r', Some s) => Ret (r', s) | Ret (_, None) => Panic | Panic => Panic | UB => UB end.
Proof.
  intros S e cb. induction k as [|k IH]; intros r idx L; cbn [read_loop rounds_from]; [reflexivity|].
  destruct (peek_bits_32 e r L) as [[r0 v]| |]; cbn [obind]; [|reflexivity|reflexivity].
  destruct (index_at _ _) as [x| |]; cbn [obind]; [|reflexivity|reflexivity].
  destruct (x =? TABLE_FILL_VALUE)%N; [reflexivity|].
  destruct (available r) as [a| |]; cbn [obind]; [|reflexivity|reflexivity].
  destruct (_ <? _)%N; [reflexivity|].
  destruct (skip_bits _ _ _) as [r1| |]; cbn [obind]; [|reflexivity|reflexivity].
  destruct (negb _); [apply IH|].
  destruct (index_at _ _) as [y| |]; cbn [obind]; reflexivity.
Qed.

(** Readers that a history leaves. *)
Lemma any_size_steps : forall (S : Type) ord m (ds : list (desc S)) cb e, permuting ord ->
  new_codebook ord ds m = Ret (Okay cb) -> forall rounds steps r r' outs, winv r -> ok_in rounds e cb r steps ->
  run_in rounds e cb r steps = Ret (r', outs) -> wstep r r'.
Proof.
  intros S ord m ds cb e Hord Hcb rounds.
  destruct (planted_codebook S ord m ds cb Hord Hcb) as [Hs [HL [Hlen [Hsane _]]]].
  assert (Hsl : nused ds <= length (cb_syms cb)) by (rewrite Hs; unfold used_syms, nused; rewrite map_length; lia).
  induction steps as [|[op|d] steps IH]; intros r r' outs Hw Hok E; cbn [run_in ok_in] in *.
  - injection E as <- _. apply wstep_refl. exact Hw.
  - destruct Hok as [H1 [H2 H3]]. destruct (w_run_op e r op Hw H1 H2) as [r1 [o [E1 S1]]]. rewrite E1 in E. cbn [obind] in E.
    destruct (run_in rounds e cb r1 steps) as [[r2 os]| |] eqn:E2; inv_ret E. injection E as <- _.
    eapply wstep_trans; [exact S1|]. apply (IH r1 r2 os (ws_inv _ _ S1) (H3 r1 o E1) E2).
  - destruct (read_in rounds e cb r) as [[r1 s]| |] eqn:E1; inv_ret E.
    destruct (run_in rounds e cb r1 steps) as [[r2 os]| |] eqn:E2; inv_ret E. injection E as <- _.
    assert (S1 : wstep r r1).
    { unfold read_in in E1. rewrite rounds_read in E1.
      destruct (rounds_sane S cb e (nused ds) Hsane Hsl rounds 0%N (cb_lut_bits cb) r HL Hlen Hw) as [rx [ox [Ex [Sx _]]]].
      rewrite Ex in E1. destruct ox as [sx|]; [|discriminate E1]. injection E1 as <- _. exact Sx. }
    eapply wstep_trans; [exact S1|]. apply (IH r1 r2 os (ws_inv _ _ S1) (Hok r1 s eq_refl) E2).
Qed.

Lemma any_size : forall (S : Type) ord m (ds : list (desc S)) cb e buf r0 steps rounds r outs,
  permuting ord -> new_codebook ord ds m = Ret (Okay cb) -> bytes buf -> new e buf = Ret r0 ->
  ok_in rounds e cb r0 steps -> run_in rounds e cb r0 steps = Ret (r, outs) ->
  (forall k, exists r' o c c' a', read_rounds k e cb r = Ret (r', o) /\
    (forall x, o = Some (Okay x) -> exists d, In d ds /\ used d /\ d_sym d = x) /\ (forall x, o = Some (Error x) -> x = InvalidCode) /\
    consumed r = Ret c /\ consumed r' = Ret c' /\ available r' = Ret a' /\ c <= c' /\ c' + a' = 8 * length buf) /\
  (forall op, op_ok op -> (forall n a, op = OpSkip n -> available r = Ret a -> n <= a) -> exists r' o, run_op e r op = Ret (r', o)).
Proof.
  intros S ord m ds cb e buf r0 steps rounds r outs Hord Hcb Hb Hr Hok E.
  destruct (new_inv e buf Hb) as [r0' [E0 [I0 B0]]]. rewrite Hr in E0. injection E0 as <-.
  pose proof (any_size_steps S ord m ds cb e Hord Hcb rounds steps r0 r outs (inv_winv _ _ _ I0) Hok E) as S1.
  pose proof (ws_inv _ _ S1) as Hw.
  destruct (planted_codebook S ord m ds cb Hord Hcb) as [Hs [HL [Hlen [Hsane _]]]].
  assert (Hsl : nused ds <= length (cb_syms cb)) by (rewrite Hs; unfold used_syms, nused; rewrite map_length; lia).
  split.
  - intros k. destruct (rounds_sane S cb e (nused ds) Hsane Hsl k 0%N (cb_lut_bits cb) r HL Hlen Hw) as [r' [o [E' [S2 [D1 D2]]]]].
    exists r', o, (wpos r), (wpos r'), (8 * length buf - wpos r'). split; [exact E'|].
    split; [intros x Hx; apply in_used_syms; rewrite <- Hs; apply D1; exact Hx|]. split; [exact D2|].
    split; [apply w_consumed; exact Hw|]. split; [apply w_consumed; apply S2|].
    assert (Hbuf : buffer r' = buf) by (rewrite (ws_buffer _ _ S2), (ws_buffer _ _ S1); exact B0).
    split; [rewrite <- Hbuf; apply w_available; apply S2|]. split; [apply S2|].
    pose proof (w_index _ (ws_inv _ _ S2)). rewrite Hbuf in *. unfold wpos. lia.
  - intros op Hop Hskip. destruct (w_run_op e r op Hw Hop Hskip) as [r' [o [E' _]]]. exists r', o. exact E'.
Qed.

Lemma ends_before_tail : forall (S : Type) ord m (ds : list (desc S)) cb e buf r0 steps rounds r outs a k r',
  permuting ord -> new_codebook ord ds m = Ret (Okay cb) -> bytes buf -> new e buf = Ret r0 ->
  ok_in rounds e cb r0 steps -> run_in rounds e cb r0 steps = Ret (r, outs) ->
  available r = Ret a -> a + 1 < k -> read_rounds k e cb r = Ret (r', None) ->
  exists a', available r' = Ret a' /\ 0 < a' < 64 /\ a' mod 8 = 0.
Proof.
  intros S ord m ds cb e buf r0 steps rounds r outs a k r' Hord Hcb Hb Hr Hok E Ha Hk Er.
  destruct (new_inv e buf Hb) as [r0' [E0 [I0 B0]]]. rewrite Hr in E0. injection E0 as <-.
  pose proof (any_size_steps S ord m ds cb e Hord Hcb rounds steps r0 r outs (inv_winv _ _ _ I0) Hok E) as S1.
  pose proof (ws_inv _ _ S1) as Hw.
  destruct (planted_codebook S ord m ds cb Hord Hcb) as [Hs [HL [Hlen [Hsane _]]]].
  assert (Hsl : nused ds <= length (cb_syms cb)) by (rewrite Hs; unfold used_syms, nused; rewrite map_length; lia).
  rewrite (w_available r Hw) in Ha. injection Ha as <-.
  destruct (rounds_sane S cb e (nused ds) Hsane Hsl k 0%N (cb_lut_bits cb) r HL Hlen Hw) as [rx [ox [Ex [Sx _]]]].
  unfold read_rounds in Er. rewrite Er in Ex. injection Ex as <- <-.
  destruct (long_read S cb e (nused ds) Hsane k 0%N (cb_lut_bits cb) r r' HL Hlen Hw Hk Er) as [[T1 T2] Hpos].
  pose proof (ws_inv _ _ Sx) as Hw'.
  exists (8 * length (buffer r') - wpos r'). split; [apply w_available; exact Hw'|]. split.
  - split; [lia|]. unfold wpos in *. unfold can_refill in T2. apply Nat.leb_gt in T2. lia.
  - unfold wpos. rewrite T1, Nat.sub_0_r. pose proof (w_index _ Hw').
    replace (8 * length (buffer r') - 8 * index r') with ((length (buffer r') - index r') * 8) by lia. apply Nat.mod_mul. discriminate.
Qed.

(** ** Buffers of whole 64-bit words *)

Lemma skip_aligned : forall e r n r', n <= 64 -> bytes (buffer r) -> skip_bits e r n = Ret r' ->
  (index r' = index r \/ index r' = index r + 8).
Proof.
  intros e r n r' Hn Hb E. unfold skip_bits in E. destruct (Nat.ltb_spec (left r) n).
  - destruct (Nat.ltb_spec 64 (n - left r)); [lia|].
    destruct (can_refill (skip_rem e r (n - left r))) eqn:Hc.
    + destruct (refill64_some e (skip_rem e r (n - left r))) as [r3 [E3 [I3 [L3 [X3 B3]]]]]; [rewrite skip_rem_buffer; exact Hb|exact Hc|].
      rewrite E3 in E. cbn [obind] in E. injection E as <-. right. rewrite skip_rem_index, X3, skip_rem_index. reflexivity.
    + rewrite (refill64_none e _ Hc) in E. cbn [obind] in E. injection E as <-. left. rewrite !skip_rem_index. reflexivity.
  - injection E as <-. left. apply skip_rem_index.
Qed.

Lemma rounds_aligned : forall (S : Type) (cb : codebook S) e n, sane n (cb_table cb) ->
  forall k idx L r r' o, 1 <= L <= 10 -> N.to_nat idx + sz L <= length (cb_table cb) -> winv r ->
  rounds_from k e cb r idx L = Ret (r', o) -> index r mod 8 = 0 -> index r' mod 8 = 0.
Proof.
  intros S cb e n Hsane. induction k as [|k IH]; intros idx L r r' o HL Hidx Hr E Ha; cbn [rounds_from] in E.
  - injection E as <- _. exact Ha.
  - destruct (w_get_bits_32 e r L Hr ltac:(lia)) as [r0 [v [Eg _]]].
    assert (Ep : peek_bits_32 e r L = Ret (r, v)) by (unfold peek_bits_32; rewrite Eg; reflexivity).
    rewrite Ep in E. cbn [obind] in E. set (p := N.to_nat (v + idx)) in *.
    destruct (nth_error (cb_table cb) p) as [x|] eqn:Ex; [|unfold index_at in E; rewrite Ex in E; discriminate E].
    rewrite (index_nth _ _ _ _ Ex) in E. cbn [obind] in E.
    assert (Skip : forall b r1, b <= 10 -> skip_bits e r b = Ret r1 -> index r1 mod 8 = 0).
    { intros b r1 Hb E1. destruct (skip_aligned e r b r1 ltac:(lia) (w_bytes _ Hr) E1) as [->| ->]; [exact Ha|lia]. }
    destruct (Hsane p x Ex) as [->|[[j [b [Hj [Hb ->]]]]|[q [b [Hb [Ho ->]]]]]].
    + rewrite N.eqb_refl in E. injection E as <- _. exact Ha.
    + destruct (lut_entry_any (N.of_nat j mod W32) b) as [G1 [G2 [G3 G4]]]; [lia|].
      rewrite G1, G2, G3, G4 in E. cbn [negb] in E. rewrite (w_available r Hr) in E. cbn [obind] in E.
      destruct (_ <? _)%N; [injection E as <- _; exact Ha|]. rewrite Nnat.Nat2N.id in E.
      destruct (skip_bits e r b) as [r1| |] eqn:E1; try discriminate E. cbn [obind] in E.
      destruct (index_at (cb_syms cb) _) as [y| |]; try discriminate E. cbn [obind] in E. injection E as <- _.
      apply (Skip b r1); [lia|exact E1].
    + destruct (esc_entry_any (N.of_nat q mod W32) b) as [G1 [G2 [G3 G4]]]; [lia|].
      rewrite G1, G2, G3, G4 in E. cbn [negb] in E. rewrite (w_available r Hr) in E. cbn [obind] in E.
      destruct (_ <? _)%N; [injection E as <- _; exact Ha|].
      destruct (w_skip_small e r L Hr ltac:(lia)) as [r1 [E1 S1]]. rewrite E1 in E. cbn [obind] in E. rewrite Nnat.Nat2N.id in E.
      pose proof (mod_down (N.of_nat q) W32 (2 ^ 24) ltac:(discriminate) ltac:(discriminate)) as Hm.
      set (q' := ((N.of_nat q mod W32) mod 2 ^ 24)%N) in *.
      apply (IH q' b r1 r' o Hb ltac:(lia) (ws_inv _ _ S1) E). apply (Skip L r1); [lia|exact E1].
Qed.

Lemma whole_words : forall (S : Type) ord m (ds : list (desc S)) cb e buf r0 steps rounds r outs a k,
  permuting ord -> new_codebook ord ds m = Ret (Okay cb) -> bytes buf -> length buf mod 8 = 0 -> new e buf = Ret r0 ->
  (forall s, In s steps -> exists d, s = Codeword d) -> run_in rounds e cb r0 steps = Ret (r, outs) ->
  available r = Ret a -> a + 1 < k -> exists r' s, read_rounds k e cb r = Ret (r', Some s).
Proof.
  intros S ord m ds cb e buf r0 steps rounds r outs a k Hord Hcb Hb Hlen8 Hr Hsteps E Ha Hk.
  destruct (planted_codebook S ord m ds cb Hord Hcb) as [Hs [HL [Hlen [Hsane _]]]].
  assert (Hsl : nused ds <= length (cb_syms cb)) by (rewrite Hs; unfold used_syms, nused; rewrite map_length; lia).
  destruct (new_inv e buf Hb) as [r0' [E0 [I0 B0]]]. rewrite Hr in E0. injection E0 as <-.
  assert (Hi0 : index r0 mod 8 = 0).
  { unfold new in Hr. destruct (can_refill (mk_reader buf 0 0 0)) eqn:Hc.
    - destruct (refill64_some e (mk_reader buf 0 0 0) Hb Hc) as [r3 [E3 [I3 [L3 [X3 B3]]]]]. rewrite Hr in E3. injection E3 as <-.
      rewrite X3. reflexivity.
    - rewrite (refill64_none e _ Hc) in Hr. injection Hr as <-. reflexivity. }
  assert (Run : forall steps r1 r2 outs, (forall s, In s steps -> exists d, s = Codeword d) -> winv r1 -> index r1 mod 8 = 0 ->
    run_in rounds e cb r1 steps = Ret (r2, outs) -> wstep r1 r2 /\ index r2 mod 8 = 0).
  { clear steps r outs a k Hk Hsteps E Ha. induction steps as [|s steps IH]; intros r1 r2 outs Hst Hw Hi E; cbn [run_in] in E.
    - injection E as <- _. split; [apply wstep_refl; exact Hw|exact Hi].
    - destruct (Hst s (or_introl eq_refl)) as [d ->]. cbn [run_in] in E.
      destruct (read_in rounds e cb r1) as [[r3 s]| |] eqn:E1; inv_ret E.
      destruct (run_in rounds e cb r3 steps) as [[r4 os]| |] eqn:E2; inv_ret E. injection E as <- _.
      unfold read_in in E1. rewrite rounds_read in E1.
      destruct (rounds_sane S cb e (nused ds) Hsane Hsl rounds 0%N (cb_lut_bits cb) r1 HL Hlen Hw) as [rx [ox [Ex [Sx _]]]].
      pose proof (rounds_aligned S cb e (nused ds) Hsane rounds 0%N (cb_lut_bits cb) r1 rx ox HL Hlen Hw Ex Hi) as Hx.
      rewrite Ex in E1. destruct ox as [sx|]; [|discriminate E1]. injection E1 as <- _.
      destruct (IH rx r4 os (fun s Hin => Hst s (or_intror Hin)) (ws_inv _ _ Sx) Hx E2) as [S2 H2].
      split; [eapply wstep_trans; eassumption|exact H2]. }
  destruct (Run steps r0 r outs Hsteps (inv_winv _ _ _ I0) Hi0 E) as [S1 Hi]. pose proof (ws_inv _ _ S1) as Hw.
  rewrite (w_available r Hw) in Ha. injection Ha as <-.
  destruct (rounds_sane S cb e (nused ds) Hsane Hsl k 0%N (cb_lut_bits cb) r HL Hlen Hw) as [r' [o [E' [S2 _]]]].
  exists r'. destruct o as [s|]; [exists s; exact E'|]. exfalso.
  pose proof (rounds_aligned S cb e (nused ds) Hsane k 0%N (cb_lut_bits cb) r r' None HL Hlen Hw E' Hi) as Hi'.
  destruct (long_read S cb e (nused ds) Hsane k 0%N (cb_lut_bits cb) r r' HL Hlen Hw Hk E') as [[T1 T2] Hpos].
  assert (Hbuf : buffer r' = buf) by (rewrite (ws_buffer _ _ S2), (ws_buffer _ _ S1); exact B0).
  pose proof (w_index _ (ws_inv _ _ S2)). rewrite Hbuf in *. unfold wpos in Hpos. unfold can_refill in T2. apply Nat.leb_gt in T2.
  rewrite Hbuf in T2. lia.
Qed.

(** ** A read that never ends *)

(** 820 words of 210 bits, the word of 210 zeros last. *)
Definition endless_words : list (desc N) := rev (evenly 820 1 210).

Definition cycle : list (N * N) := [(0, 839680); (839680, 16775168); (16775168, 16776192); (16776192, 0)]%N.

Definition cycle_in (ds : list (desc N)) (len : N) (cyc : list (N * N)) : bool :=
  match sp_new ds with
  | Ret (Some (s, n)) => (n =? 10) && (sp_len s =? len)%N &&
      forallb (fun x => (fst x <? sp_len s)%N && (sp_look s (fst x) =? esc_entry (snd x) 10)%N) cyc
  | _ => false
  end.

Lemma cycle_found : cycle_in endless_words (2 ^ 24 + 17408) cycle = true.
Proof. vm_compute. reflexivity. Qed.

Lemma cycle_codebook : forall ds len cyc, cycle_in ds len cyc = true ->
  exists t, new_codebook in_order ds LSB = Ret (Okay (mk_codebook t (used_syms ds) 10)) /\ N.of_nat (length t) = len /\
  forall q q', In (q, q') cyc -> nth_error t (N.to_nat q) = Some (esc_entry q' 10).
Proof.
  intros ds len cyc H. unfold cycle_in in H.
  destruct (sp_new ds) as [[[s n]|]| |] eqn:En; try discriminate H.
  apply andb_prop in H. destruct H as [H H3]. apply andb_prop in H. destruct H as [H1 H2].
  apply Nat.eqb_eq in H1. apply N.eqb_eq in H2. subst n.
  destruct (same_new N _ s 10 En) as [t [Ec [HL [HS _]]]]. exists t. split; [exact Ec|].
  split; [rewrite HL, Nnat.N2Nat.id; exact H2|].
  intros q q' Hin. rewrite forallb_forall in H3. specialize (H3 (q, q') Hin). cbn [fst snd] in H3.
  apply andb_prop in H3. destruct H3 as [H4 H5]. apply N.ltb_lt in H4. apply N.eqb_eq in H5. rewrite <- H5. apply HS. exact H4.
Qed.

Lemma cycle_closed : forall q, In q (map fst cycle) -> exists q', In (q, q') cycle /\ In q' (map fst cycle) /\ (q' < 2 ^ 24)%N.
Proof.
  intros q H. cbn [map fst cycle In] in H. unfold cycle.
  destruct H as [<-|[<-|[<-|[<-|[]]]]]; eexists; (split; [cbn [In]; tauto|]); (split; [cbn [map fst In]; tauto|reflexivity]).
Qed.

Lemma unloaded : forall buf, length buf < 8 -> can_refill (mk_reader buf 0 0 0) = false.
Proof. intros buf H. unfold can_refill. cbn [index buffer]. apply Nat.leb_gt. lia. Qed.

Lemma endless_rounds : forall (cb : codebook N) buf, 2 <= length buf < 8 ->
  (forall q q', In (q, q') cycle -> nth_error (cb_table cb) (N.to_nat q) = Some (esc_entry q' 10)) ->
  forall k q, In q (map fst cycle) -> rounds_from k LE cb (mk_reader buf 0 0 0) q 10 = Ret (mk_reader buf 0 0 0, None).
Proof.
  intros cb buf Hb Ht. pose proof (unloaded buf ltac:(lia)) as Hc. set (r := mk_reader buf 0 0 0) in *.
  assert (Ep : peek_bits_32 LE r 10 = Ret (r, 0%N)).
  { unfold peek_bits_32, get_bits_32. cbn [Nat.eqb Nat.ltb Nat.leb left r]. rewrite (refill32_none LE r Hc). reflexivity. }
  assert (Es : skip_bits LE r 10 = Ret r).
  { unfold skip_bits. cbn [Nat.eqb Nat.ltb Nat.leb left r Nat.sub]. rewrite refill64_none by exact Hc. reflexivity. }
  assert (Ea : available r = Ret (8 * length buf)).
  { unfold available, csub. cbn [index buffer left r]. cbn [Nat.leb obind]. f_equal. lia. }
  induction k as [|k IH]; intros q Hq; [reflexivity|]. cbn [rounds_from].
  destruct (cycle_closed q Hq) as [q' [Hin [Hq' Hs]]].
  rewrite Ep. cbn [obind]. rewrite N.add_0_l. rewrite (index_nth _ _ _ _ (Ht q q' Hin)). cbn [obind].
  destruct (esc_entry_any q' 10 ltac:(lia)) as [G1 [G2 [G3 G4]]]. rewrite G1, G2, G3, G4. cbn [negb].
  rewrite Ea. cbn [obind].
  assert (Hm : (N.of_nat (8 * length buf) mod W32 = N.of_nat (8 * length buf))%N) by (apply N.mod_small; unfold W32; change (2 ^ 32)%N with 4294967296%N; lia).
  rewrite Hm. destruct (N.ltb_spec (N.of_nat (8 * length buf)) (N.of_nat 10)); [lia|].
  rewrite Es. cbn [obind]. rewrite N.mod_small by exact Hs. rewrite Nnat.Nat2N.id. apply IH. exact Hq'.
Qed.

Lemma nth_rev : forall (A : Type) (l : list A) i a, nth_error (rev l) i = Some a ->
  i < length l /\ nth_error l (length l - 1 - i) = Some a.
Proof.
  intros A l i a H. assert (Hi : i < length l) by (rewrite <- rev_length; apply nth_error_Some; congruence).
  split; [exact Hi|]. apply (nth_error_nth _ _ a) in H. rewrite rev_nth in H by exact Hi.
  replace (length l - 1 - i) with (length l - S i) by lia. rewrite (nth_error_nth' l a) by lia. f_equal. exact H.
Qed.

Lemma prefix_free_rev : forall (S : Type) m (ds : list (desc S)), prefix_free m ds -> prefix_free m (rev ds).
Proof.
  intros S m ds H i j a b Ha Hb Hij Hua Hub. apply nth_rev in Ha. apply nth_rev in Hb. destruct Ha as [Hi Ha], Hb as [Hj Hb].
  apply (H _ _ a b Ha Hb); [lia|exact Hua|exact Hub].
Qed.

Lemma endless_read : exists ord (ds : list (desc N)) cb, permuting ord /\ codes_fit LSB ds /\ prefix_free LSB ds /\
  length ds = 820 /\ new_codebook ord ds LSB = Ret (Okay cb) /\ N.of_nat (length (cb_table cb)) = (2 ^ 24 + 17408)%N /\
  forall buf, 2 <= length buf < 8 -> exists r0, new LE buf = Ret r0 /\
    forall rounds, read_rounds rounds LE cb r0 = Ret (r0, None).
Proof.
  destruct (cycle_codebook _ _ _ cycle_found) as [t [Ec [HL Ht]]].
  exists in_order, endless_words, (mk_codebook t (used_syms endless_words) 10).
  split; [exact permuting_in_order|].
  split.
  { intros d Hd. apply in_rev in Hd. revert d Hd.
    apply (evenly_fit LSB 820 1 210); [cbn [longest]; lia|vm_compute; discriminate|vm_compute; discriminate|reflexivity]. }
  split; [apply prefix_free_rev; apply evenly_prefix_free; [vm_compute; discriminate|reflexivity]|].
  split; [unfold endless_words; rewrite rev_length; unfold evenly; rewrite map_length, count_up_length; reflexivity|].
  split; [exact Ec|]. split; [exact HL|].
  intros buf Hb. exists (mk_reader buf 0 0 0). split.
  - unfold new. rewrite refill64_none by (apply unloaded; lia). reflexivity.
  - intros rounds. unfold read_rounds. cbn [cb_lut_bits].
    apply endless_rounds; [exact Hb|exact Ht|left; reflexivity].
Qed.

Lemma tail_example : exists ord (ds : list (desc N)) cb r0 outs, permuting ord /\ new_codebook ord ds LSB = Ret (Okay cb) /\
  new LE [255; 255; 255]%N = Ret r0 /\ run_in 27 LE cb r0 [Call OpPeekBit] = Ret (r0, outs) /\ ok_in 27 LE cb r0 [Call OpPeekBit] /\
  available r0 = Ret 24 /\ read_rounds 26 LE cb r0 = Ret (r0, None).
Proof.
  destruct endless_read as [ord [ds [cb [Ho [_ [_ [_ [Hn [_ H]]]]]]]]].
  destruct (H [255; 255; 255]%N ltac:(cbn; lia)) as [r0 [Er Hr]]. exists ord, ds, cb, r0, [Out (OutBit false)].
  assert (E0 : r0 = mk_reader [255; 255; 255]%N 0 0 0) by (vm_compute in Er; congruence).
  split; [exact Ho|]. split; [exact Hn|]. split; [exact Er|]. split; [rewrite E0; reflexivity|].
  split; [split; [exact I|]; split; [discriminate|intros; exact I]|]. split; [rewrite E0; reflexivity|]. apply Hr.
Qed.

Lemma watched : forall (S : Type) e (cb : codebook S) k r, read_in k e cb r =
  match read_rounds k e cb r with Ret (r', Some s) => Ret (r', s) | Ret (_, None) => Panic | Panic => Panic | UB => UB end.
Proof. intros S e cb k r. apply rounds_read. Qed.
