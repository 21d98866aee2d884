(** The bits a codeword read uses with a codebook of any description. *)
From Coq Require Import List Arith NArith ZArith Bool Lia Permutation.
From Coq Require Import ZifyBool ZifyNat ZifyN.
From Verif Require Import Base ByteModel ByteSpec ByteProofs BitModel BitSpec BitProofs BitProofs2 CodebookModel
  CodebookSpec CodebookProofs CodebookProofs2 CodebookProofs3 CodebookProofs4 CodebookProofs5 CodebookProofs6
  CbMalformedSpec CbMalformedProofs CbMalformedProofs3 CbMisfitSpec CbMisfitProofs.
Import ListNotations.
Local Open Scope nat_scope.

Definition total (W : list (nat * nat)) : nat := list_sum (map (fun w => sz (snd w)) W).

Lemma bits_size : forall k, S k <= sz k.
Proof.
  unfold sz. induction k as [|k IH]; [cbn; lia|]. rewrite pow2_S. lia.
Qed.

Lemma nodup_both : forall l l' : list nat, NoDup l -> NoDup l' -> (forall x, In x l -> In x l' -> False) -> NoDup (l ++ l').
Proof.
  induction l as [|a l IH]; intros l' H1 H2 H; [exact H2|]. inversion H1 as [|? ? Ha Hl]. subst. cbn [app]. constructor.
  - intros X. apply in_app_iff in X. destruct X as [X|X]; [contradiction|]. apply (H a (or_introl eq_refl) X).
  - apply IH; [exact Hl|exact H2|]. intros x Hx. apply H. right. exact Hx.
Qed.

(** Different tables of a forest have room side by side. *)
Lemma total_le : forall n L t regs, forest n L t regs -> forall W, NoDup (map fst W) -> (forall w, In w W -> In w regs) -> total W <= length t.
Proof.
  intros n L t regs F W Hnd Hin.
  set (cells := flat_map (fun w => seq (fst w) (sz (snd w))) W).
  assert (Hlen : length cells = total W).
  { unfold cells, total. clear. induction W as [|w W IH]; [reflexivity|]. cbn [flat_map map list_sum fold_right]. rewrite app_length, seq_length, IH. reflexivity. }
  rewrite <- Hlen. apply distinct_below.
  - unfold cells. clear Hlen cells. induction W as [|[o k] W IH]; [constructor|]. cbn [flat_map map fst snd] in *.
    inversion Hnd as [|? ? H1 H2]. subst. specialize (IH H2 ltac:(intros w Hw; apply Hin; right; exact Hw)).
    apply nodup_both; [apply seq_NoDup|exact IH|]. intros x Hx Hy. apply in_seq in Hx. apply in_flat_map in Hy. destruct Hy as [[o' k'] [Hw Hy]].
    apply in_seq in Hy. cbn [fst snd] in Hy.
    destruct (f_dis _ _ _ _ F o k o' k' (Hin _ (or_introl eq_refl)) (Hin _ (or_intror Hw))) as [[-> ->]|[X|X]]; [|lia|lia].
    apply H1. change o' with (fst (o', k')). apply in_map. exact Hw.
  - intros x Hx. unfold cells in Hx. apply in_flat_map in Hx. destruct Hx as [[o k] [Hw Hx]]. apply in_seq in Hx. cbn [fst snd] in Hx.
    destruct (f_in _ _ _ _ F o k (Hin _ Hw)). lia.
Qed.

Lemma forest_bits : forall (S : Type) (cb : codebook S) e n L0 regs, forest n L0 (cb_table cb) regs -> small n ->
  small (length (cb_table cb)) ->
  forall fuel cur L W r r' s, In (cur, L) regs -> NoDup (cur :: map fst W) ->
  (forall v, In v (cur :: map fst W) -> reached (cb_table cb) regs (map fst W) v) -> (forall w, In w W -> In w regs) -> winv r ->
  read_loop fuel e cb r (N.of_nat cur) L = Ret (r', s) -> wpos r' + total W <= wpos r + length (cb_table cb) + 8.
Proof.
  intros S cb e n L0 regs F Hn Ht. pose proof (total_le _ _ _ _ F) as Htot. destruct F as [F1 F2 F3 F4 F5].
  induction fuel as [|fuel IH]; intros cur L W r r' s Hin Hnd HV HW Hr E; [discriminate E|].
  assert (Htot1 : total ((cur, L) :: W) <= length (cb_table cb)).
  { apply Htot; [exact Hnd|]. intros w [<-|Hw]; [exact Hin|apply HW; exact Hw]. }
  unfold total in Htot1. cbn [map list_sum fold_right snd] in Htot1. fold (list_sum (map (fun w => sz (snd w)) W)) in Htot1. fold (total W) in Htot1.
  destruct (F2 cur L Hin) as [HL Hoff]. pose proof (bits_size L) as HLs.
  cbn [read_loop] in E.
  destruct (w_get_bits_32 e r L Hr ltac:(lia)) as [r0 [v [Eg _]]].
  assert (Ep : peek_bits_32 e r L = Ret (r, v)) by (unfold peek_bits_32; rewrite Eg; reflexivity).
  rewrite Ep in E. cbn [obind] in E.
  pose proof (peek_bound e r L r v (winv_cbound r Hr) ltac:(lia) Ep) as Hv.
  set (p := N.to_nat (v + N.of_nat cur)) in *. assert (Hp : cur <= p < cur + sz L) by (unfold p, sz; lia).
  destruct (nth_error (cb_table cb) p) as [x|] eqn:Ex; [|unfold index_at in E; rewrite Ex in E; discriminate E].
  rewrite (index_nth _ _ _ _ Ex) in E. cbn [obind] in E.
  destruct (F4 p x Ex) as [->|[[j [b [Hj [Hb ->]]]]|[o [k [Ho [Hpos ->]]]]]].
  - rewrite N.eqb_refl in E. injection E as <- _. lia.
  - destruct (lut_entry_fields (N.of_nat j) b) as [G1 [G2 [G3 G4]]]; [unfold small in Hn; lia|lia|].
    rewrite G1, G2, G3, G4 in E. cbn [negb] in E. rewrite (w_available r Hr) in E. cbn [obind] in E.
    destruct (_ <? _)%N; [injection E as <- _; lia|]. rewrite !Nnat.Nat2N.id in E.
    destruct (skip_bits e r b) as [r1| |] eqn:E1; inv_ret E. pose proof (skip_at_most e r b r1 Hr ltac:(lia) E1).
    destruct (index_at (cb_syms cb) j) as [y| |]; inv_ret E. injection E as <- _. lia.
  - destruct (F2 o k Ho) as [Hk Hok].
    destruct (esc_entry_fields (N.of_nat o) k (small_lt _ _ _ Hok Ht) ltac:(lia)) as [G1 [G2 [G3 G4]]].
    rewrite G1, G2, G3, G4 in E. cbn [negb] in E. rewrite (w_available r Hr) in E. cbn [obind] in E.
    destruct (_ <? _)%N; [injection E as <- _; lia|].
    destruct (w_skip_small e r L Hr ltac:(lia)) as [r1 [E1 S1]]. rewrite E1 in E. cbn [obind] in E. rewrite Nnat.Nat2N.id in E.
    pose proof (skip_at_most e r L r1 Hr ltac:(lia) E1) as H1.
    assert (New : ~ In o (cur :: map fst W)).
    { intros X. destruct (HV o X) as [->|[p' [k' [w [kw [R1 [R2 [R3 [R4 R5]]]]]]]]]; [lia|].
      pose proof (sz_pos k). pose proof (sz_pos k').
      destruct (F3 o k o k' Ho R1) as [[_ <-]|[Y|Y]]; [|lia|lia].
      pose proof (F5 p p' o k Ho Ex R2) as <-.
      destruct (F3 cur L w kw Hin R4) as [[<- _]|[Y|Y]]; [|lia|lia].
      inversion Hnd as [|? ? Hno _]. contradiction. }
    pose proof (IH o k ((cur, L) :: W) r1 r' s Ho) as H2.
    unfold total in H2. cbn [map list_sum fold_right fst snd] in H2. fold (list_sum (map (fun w => sz (snd w)) W)) in H2. fold (total W) in H2.
    enough (wpos r' + (sz L + total W) <= wpos r1 + length (cb_table cb) + 8) by lia.
    apply H2.
    + constructor; [exact New|exact Hnd].
    + intros y [<-|Hy].
      * right. exists p, k, cur, L. split; [exact Ho|]. split; [exact Ex|]. split; [left; reflexivity|]. split; [exact Hin|exact Hp].
      * destruct (HV y Hy) as [->|[p' [k' [w [kw [R1 [R2 [R3 R4]]]]]]]]; [left; reflexivity|].
        right. exists p', k', w, kw. split; [exact R1|]. split; [exact R2|]. split; [right; exact R3|exact R4].
    + intros w [<-|Hw]; [exact Hin|apply HW; exact Hw].
    + apply S1.
    + exact E.
Qed.

Lemma any_bits : forall (S : Type) ord m (ds : list (desc S)) cb e buf r0 steps rounds r outs r' s c c',
  permuting ord -> new_codebook ord ds m = Ret (Okay cb) ->
  (N.of_nat (length (words m ds)) <= 2 ^ 24)%N -> (N.of_nat (length (cb_table cb)) <= 2 ^ 24)%N ->
  bytes buf -> new e buf = Ret r0 -> length (cb_table cb) < rounds -> ok_in rounds e cb r0 steps -> run_in rounds e cb r0 steps = Ret (r, outs) ->
  read_in rounds e cb r = Ret (r', s) -> consumed r = Ret c -> consumed r' = Ret c' ->
  c' <= c + length (cb_table cb) + 8.
Proof.
  intros S ord m ds cb e buf r0 steps rounds r outs r' s c c' Hord Hcb Hn Ht Hb Hr Hro Hok Hrun Hread Hc Hc'.
  destruct (new_inv e buf Hb) as [r0' [E0 [I0 B0]]]. rewrite Hr in E0. injection E0 as <-.
  pose proof (inv_winv _ _ _ I0) as Hw0.
  destruct (any_steps S ord m ds cb e Hord Hcb Hn Ht rounds Hro steps r0 Hw0 Hok) as [r1 [outs1 [E S1]]].
  rewrite Hrun in E. injection E as <- <-. pose proof (ws_inv _ _ S1) as Hw.
  destruct (any_read S ord m ds cb e r Hord Hcb Hn Ht Hw) as [r2 [s2 [E2 [S2 _]]]]. specialize (E2 rounds Hro).
  rewrite Hread in E2. injection E2 as <- <-.
  rewrite (w_consumed _ Hw) in Hc. injection Hc as <-. rewrite (w_consumed _ (ws_inv _ _ S2)) in Hc'. injection Hc' as <-.
  rewrite <- (nused_words S m) in Hn.
  destruct (planted_codebook S ord m ds cb Hord Hcb) as [Hs [HL [_ [_ P]]]]. destruct (P Hn Ht) as [regs F].
  unfold read_in in Hread.
  pose proof (forest_bits S cb e (nused ds) (cb_lut_bits cb) regs F Hn Ht rounds 0 (cb_lut_bits cb) [] r r' s) as H.
  cbn [total map list_sum fold_right] in H. rewrite Nat.add_0_r in H. apply H.
  - apply F.
  - constructor; [intros []|constructor].
  - intros v [<-|[]]. left. reflexivity.
  - intros w [].
  - exact Hw.
  - exact Hread.
Qed.
