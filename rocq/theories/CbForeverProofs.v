(** A codeword read that has not ended after a certain number of rounds never ends: at the
    end of the buffer the reader no longer changes, so the rounds go through finitely many
    places of the table. *)
From Coq Require Import List Arith NArith ZArith Bool Lia Permutation.
From Coq Require Import ZifyBool ZifyNat ZifyN.
From Verif Require Import Base ByteModel ByteSpec ByteProofs BitModel BitSpec BitProofs BitProofs2 BitQueueSpec BitQueueProofs
  CodebookModel CodebookSpec CodebookProofs CodebookProofs2 CodebookProofs5 CodebookProofs6
  CbMalformedProofs CbMisfitSpec CbMisfitProofs CbEndlessSpec CbEndlessProofs.
Import ListNotations.
Local Open Scope nat_scope.

(** ** Readers with nothing left have an empty cache *)

Definition queued (e : endian) (r : reader) : Prop := exists q, rep e (buffer r) r q.

Lemma queued_skip : forall e r n r', bytes (buffer r) -> queued e r -> skip_bits e r n = Ret r' -> queued e r' /\ buffer r' = buffer r.
Proof.
  intros e r n r' Hb [q H] E. destruct (q_skip_rep e (buffer r) r q n Hb H) as [r1 [E1 R1]]. rewrite E in E1. injection E1 as <-.
  pose proof (rep_buffer _ _ _ _ R1) as B. split; [|exact B]. exists (q_skip (bits_of e (buffer r)) q n). rewrite B. exact R1.
Qed.

Lemma tail_fixed : forall e r n, queued e r -> at_tail r -> 1 <= n <= 64 -> skip_bits e r n = Ret r.
Proof.
  intros e r n [q H] [T1 T2] Hn.
  assert (Hw : waiting q = []) by (apply length_zero_iff_nil; rewrite <- (rep_left _ _ _ _ H); exact T1).
  assert (Hc : cache r = 0%N) by (rewrite (rep_cache _ _ _ _ H), Hw; cbn [app length Nat.sub]; apply value_zeros).
  destruct r as [buf i c l]. cbn [left cache] in T1, Hc. subst l c.
  unfold skip_bits. cbn [left]. destruct (Nat.ltb_spec 0 n); [|lia]. destruct (Nat.ltb_spec 64 (n - 0)); [lia|].
  assert (Hs : skip_rem e (mk_reader buf i 0 0) (n - 0) = mk_reader buf i 0 0).
  { destruct e; unfold skip_rem, checked_shr0, checked_shl0; cbn [buffer index cache left Nat.sub];
      destruct (_ <? _)%N; rewrite ?N.shiftl_0_l, ?N.shiftr_0_l; reflexivity. }
  rewrite Hs. rewrite (refill64_none e _ T2). cbn [obind]. rewrite Hs. reflexivity.
Qed.

(** ** Rounds one by one *)

Lemma round_on : forall (S : Type) (cb : codebook S) e n, sane n (cb_table cb) ->
  forall k idx L r r', 1 <= L <= 10 -> N.to_nat idx + sz L <= length (cb_table cb) -> winv r ->
  rounds_from (Datatypes.S k) e cb r idx L = Ret (r', None) ->
  exists r1 idx' L', skip_bits e r L = Ret r1 /\ wstep r r1 /\ 1 <= L' <= 10 /\ N.to_nat idx' + sz L' <= length (cb_table cb) /\
    forall j, rounds_from (Datatypes.S j) e cb r idx L = rounds_from j e cb r1 idx' L'.
Proof.
  intros S cb e n Hsane k idx L r r' HL Hidx Hr E. cbn [rounds_from] in *.
  destruct (w_get_bits_32 e r L Hr ltac:(lia)) as [r0 [v [Eg _]]].
  assert (Ep : peek_bits_32 e r L = Ret (r, v)) by (unfold peek_bits_32; rewrite Eg; reflexivity).
  rewrite Ep in *. cbn [obind] in *.
  set (p := N.to_nat (v + idx)) in *.
  destruct (nth_error (cb_table cb) p) as [x|] eqn:Ex; [|unfold index_at in E; rewrite Ex in E; discriminate E].
  rewrite (index_nth _ _ _ _ Ex) in *. cbn [obind] in *.
  destruct (Hsane p x Ex) as [->|[[j [b [Hj [Hb ->]]]]|[o [b [Hb [Ho ->]]]]]].
  - rewrite N.eqb_refl in E. discriminate E.
  - destruct (lut_entry_any (N.of_nat j mod W32) b) as [G1 [G2 [G3 G4]]]; [lia|].
    rewrite G1, G2, G3, G4 in E. cbn [negb] in E. rewrite (w_available r Hr) in E. cbn [obind] in E.
    destruct (_ <? _)%N; [discriminate E|].
    destruct (skip_bits e r _) as [r1| |]; try discriminate E. cbn [obind] in E.
    destruct (index_at (cb_syms cb) _) as [y| |]; discriminate E.
  - destruct (esc_entry_any (N.of_nat o mod W32) b) as [G1 [G2 [G3 G4]]]; [lia|].
    rewrite G1, G2, G3, G4 in *. cbn [negb] in *. rewrite (w_available r Hr) in *. cbn [obind] in *.
    destruct (_ <? _)%N; [discriminate E|].
    destruct (w_skip_small e r L Hr ltac:(lia)) as [r1 [E1 S1]]. rewrite E1 in *. cbn [obind] in *. rewrite Nnat.Nat2N.id in *.
    pose proof (mod_down (N.of_nat o) W32 (2 ^ 24) ltac:(discriminate) ltac:(discriminate)) as Hm.
    exists r1, ((N.of_nat o mod W32) mod 2 ^ 24)%N, b. split; [reflexivity|]. split; [exact S1|].
    split; [exact Hb|]. split; [lia|]. intros i. reflexivity.
Qed.

Definition goes_on {S : Type} (k : nat) (e : endian) (cb : codebook S) (r : reader) (idx : N) (L : nat) : Prop :=
  exists r', rounds_from k e cb r idx L = Ret (r', None).

Lemma goes_less : forall (S : Type) (cb : codebook S) e n, sane n (cb_table cb) ->
  forall k j idx L r, 1 <= L <= 10 -> N.to_nat idx + sz L <= length (cb_table cb) -> winv r ->
  goes_on k e cb r idx L -> j <= k -> goes_on j e cb r idx L.
Proof.
  intros S cb e n Hsane. induction k as [|k IH]; intros j idx L r HL Hidx Hr H Hj.
  - replace j with 0 by lia. exact H.
  - destruct j as [|j]; [exists r; reflexivity|]. destruct H as [r' E].
    destruct (round_on S cb e n Hsane k idx L r r' HL Hidx Hr E) as [r1 [idx' [L' [_ [S1 [HL' [Hi' Hon]]]]]]].
    rewrite Hon in E. unfold goes_on. rewrite Hon. apply (IH j idx' L' r1 HL' Hi' (ws_inv _ _ S1)); [exists r'; exact E|lia].
Qed.

(** A place of the table and the width read there. *)
Definition place (idx : N) (L : nat) : nat := 10 * N.to_nat idx + (L - 1).

Lemma tail_forever : forall (S : Type) (cb : codebook S) e n, sane n (cb_table cb) -> forall r, winv r -> queued e r -> at_tail r ->
  forall fuel k idx L V, 1 <= L <= 10 -> N.to_nat idx + sz L <= length (cb_table cb) ->
  10 * length (cb_table cb) < length V + fuel -> fuel <= k -> goes_on k e cb r idx L ->
  NoDup V -> (forall v, In v V -> v < 10 * length (cb_table cb)) ->
  (forall v, In v V -> exists i l c, v = place i l /\ 1 <= l <= 10 /\ 0 < c /\
    forall j, rounds_from (c + j) e cb r i l = rounds_from j e cb r idx L) ->
  forall j, goes_on j e cb r idx L.
Proof.
  intros S cb e n Hsane r Hr Hq Ht. induction fuel as [|fuel IH]; intros k idx L V HL Hidx Hfuel Hk Hg Hnd HVlt HV j.
  - pose proof (distinct_below V _ Hnd HVlt). lia.
  - destruct (in_dec Nat.eq_dec (place idx L) V) as [Hin|Hout].
    + destruct (HV _ Hin) as [i [l [c [Ep [Hl [Hc Hpath]]]]]]. unfold place in Ep.
      assert (E1 : i = idx) by lia. assert (E2 : l = L) by lia. subst i l.
      assert (Hm : forall m, goes_on (m * c + k) e cb r idx L).
      { induction m as [|m IHm]; [exact Hg|]. unfold goes_on. replace (Datatypes.S m * c + k) with (c + (m * c + k)) by lia.
        rewrite Hpath. exact IHm. }
      apply (goes_less S cb e n Hsane (j * c + k) j idx L r HL Hidx Hr (Hm j)). nia.
    + destruct k as [|k]; [lia|]. destruct Hg as [r' E].
      destruct (round_on S cb e n Hsane k idx L r r' HL Hidx Hr E) as [r1 [idx' [L' [E1 [S1 [HL' [Hi' Hon]]]]]]].
      rewrite (tail_fixed e r L Hq Ht ltac:(lia)) in E1. injection E1 as <-.
      assert (Hall : forall j, goes_on j e cb r idx' L').
      { apply (IH k idx' L' (place idx L :: V) HL' Hi'); cbn [length].
        - lia.
        - lia.
        - exists r'. rewrite <- Hon. exact E.
        - constructor; assumption.
        - intros v [<-|Hv]; [unfold place; pose proof (sz_pos L); lia|apply HVlt; exact Hv].
        - intros v [<-|Hv].
          + exists idx, L, 1. split; [reflexivity|]. split; [exact HL|]. split; [lia|]. intros i. apply Hon.
          + destruct (HV v Hv) as [i [l [c [Ep [Hl [Hc Hpath]]]]]]. exists i, l, (c + 1). split; [exact Ep|]. split; [exact Hl|].
            split; [lia|]. intros j'. rewrite <- Hon. rewrite <- Hpath. f_equal. lia. }
      destruct j as [|j]; [exists r; reflexivity|]. unfold goes_on. rewrite Hon. apply Hall.
Qed.

Lemma forever : forall (S : Type) (cb : codebook S) e n, sane n (cb_table cb) ->
  forall k idx L r, 1 <= L <= 10 -> N.to_nat idx + sz L <= length (cb_table cb) -> winv r -> queued e r ->
  8 * length (buffer r) - wpos r + 10 * length (cb_table cb) + 1 < k -> goes_on k e cb r idx L ->
  forall j, goes_on j e cb r idx L.
Proof.
  intros S cb e n Hsane. induction k as [|k IH]; intros idx L r HL Hidx Hr Hq Hk Hg j; [lia|]. destruct Hg as [r' E].
  destruct (round_on S cb e n Hsane k idx L r r' HL Hidx Hr E) as [r1 [idx' [L' [E1 [S1 [HL' [Hi' Hon]]]]]]].
  assert (Hg1 : goes_on k e cb r1 idx' L') by (exists r'; rewrite <- Hon; exact E).
  destruct (queued_skip e r L r1 (w_bytes _ Hr) Hq E1) as [Hq1 B1].
  assert (Hwb : wpos r < 8 * length (buffer r)).
  { destruct (round_goes_on S cb e n Hsane k idx L r r' HL Hidx Hr E) as [_ [_ [_ [_ [_ [H _]]]]]]. exact H. }
  assert (Hall : forall j, goes_on j e cb r1 idx' L').
  { destruct (skip_moves e r L r1 Hr ltac:(lia) E1) as [Hm|Ht].
    - apply (IH idx' L' r1 HL' Hi' (ws_inv _ _ S1) Hq1); [rewrite B1; lia|exact Hg1].
    - apply (tail_forever S cb e n Hsane r1 (ws_inv _ _ S1) Hq1 Ht (10 * length (cb_table cb) + 1) k idx' L' [] HL' Hi'); cbn [length].
      + lia.
      + lia.
      + exact Hg1.
      + constructor.
      + intros v [].
      + intros v []. }
  destruct j as [|j]; [exists r; reflexivity|]. unfold goes_on. rewrite Hon. apply Hall.
Qed.

(** ** After any history *)

Lemma queued_rounds : forall (S : Type) (cb : codebook S) e n, sane n (cb_table cb) ->
  forall k idx L r r' o, 1 <= L <= 10 -> N.to_nat idx + sz L <= length (cb_table cb) -> winv r -> queued e r ->
  rounds_from k e cb r idx L = Ret (r', o) -> queued e r'.
Proof.
  intros S cb e n Hsane. induction k as [|k IH]; intros idx L r r' o HL Hidx Hr Hq E; cbn [rounds_from] in E.
  - injection E as <- _. exact Hq.
  - destruct (w_get_bits_32 e r L Hr ltac:(lia)) as [r0 [v [Eg _]]].
    assert (Ep : peek_bits_32 e r L = Ret (r, v)) by (unfold peek_bits_32; rewrite Eg; reflexivity).
    rewrite Ep in E. cbn [obind] in E. set (p := N.to_nat (v + idx)) in *.
    destruct (nth_error (cb_table cb) p) as [x|] eqn:Ex; [|unfold index_at in E; rewrite Ex in E; discriminate E].
    rewrite (index_nth _ _ _ _ Ex) in E. cbn [obind] in E.
    destruct (Hsane p x Ex) as [->|[[j [b [Hj [Hb ->]]]]|[q [b [Hb [Ho ->]]]]]].
    + rewrite N.eqb_refl in E. injection E as <- _. exact Hq.
    + destruct (lut_entry_any (N.of_nat j mod W32) b) as [G1 [G2 [G3 G4]]]; [lia|].
      rewrite G1, G2, G3, G4 in E. cbn [negb] in E. rewrite (w_available r Hr) in E. cbn [obind] in E.
      destruct (_ <? _)%N; [injection E as <- _; exact Hq|]. rewrite Nnat.Nat2N.id in E.
      destruct (skip_bits e r b) as [r1| |] eqn:E1; try discriminate E. cbn [obind] in E.
      destruct (index_at (cb_syms cb) _) as [y| |]; try discriminate E. cbn [obind] in E. injection E as <- _.
      apply (queued_skip e r b r1 (w_bytes _ Hr) Hq E1).
    + destruct (esc_entry_any (N.of_nat q mod W32) b) as [G1 [G2 [G3 G4]]]; [lia|].
      rewrite G1, G2, G3, G4 in E. cbn [negb] in E. rewrite (w_available r Hr) in E. cbn [obind] in E.
      destruct (_ <? _)%N; [injection E as <- _; exact Hq|].
      destruct (w_skip_small e r L Hr ltac:(lia)) as [r1 [E1 S1]]. rewrite E1 in E. cbn [obind] in E. rewrite Nnat.Nat2N.id in E.
      pose proof (mod_down (N.of_nat q) W32 (2 ^ 24) ltac:(discriminate) ltac:(discriminate)) as Hm.
      apply (IH _ b r1 r' o Hb) in E; [exact E|lia|apply S1|].
      apply (queued_skip e r L r1 (w_bytes _ Hr) Hq E1).
Qed.

Lemma queued_op : forall e r op r' o, bytes (buffer r) -> queued e r -> op_ok op -> run_op e r op = Ret (r', o) -> queued e r'.
Proof.
  intros e r op r' o Hb [q H] Hok E. pose proof (q_op_rep e (buffer r) r q op Hb H Hok) as X.
  destruct (q_op e (bits_of e (buffer r)) q op) as [[q' o']|]; [|congruence].
  destruct X as [r1 [E1 R1]]. rewrite E in E1. injection E1 as <- _. exists q'. rewrite (rep_buffer _ _ _ _ R1). exact R1.
Qed.

Lemma queued_steps : forall (S : Type) ord m (ds : list (desc S)) cb e, permuting ord ->
  new_codebook ord ds m = Ret (Okay cb) -> forall rounds steps r r' outs, winv r -> queued e r -> ok_in rounds e cb r steps ->
  run_in rounds e cb r steps = Ret (r', outs) -> queued e r'.
Proof.
  intros S ord m ds cb e Hord Hcb rounds.
  destruct (planted_codebook S ord m ds cb Hord Hcb) as [Hs [HL [Hlen [Hsane _]]]].
  assert (Hsl : nused ds <= length (cb_syms cb)) by (rewrite Hs; unfold used_syms, nused; rewrite map_length; lia).
  induction steps as [|[op|d] steps IH]; intros r r' outs Hw Hq Hok E; cbn [run_in ok_in] in *.
  - injection E as <- _. exact Hq.
  - destruct Hok as [H1 [H2 H3]]. destruct (w_run_op e r op Hw H1 H2) as [r1 [o [E1 S1]]]. rewrite E1 in E. cbn [obind] in E.
    destruct (run_in rounds e cb r1 steps) as [[r2 os]| |] eqn:E2; inv_ret E. injection E as <- _.
    apply (IH r1 r2 os (ws_inv _ _ S1) (queued_op e r op r1 o (w_bytes _ Hw) Hq H1 E1) (H3 r1 o E1) E2).
  - destruct (read_in rounds e cb r) as [[r1 s]| |] eqn:E1; inv_ret E.
    destruct (run_in rounds e cb r1 steps) as [[r2 os]| |] eqn:E2; inv_ret E. injection E as <- _.
    unfold read_in in E1. rewrite rounds_read in E1.
    destruct (rounds_sane S cb e (nused ds) Hsane Hsl rounds 0%N (cb_lut_bits cb) r HL Hlen Hw) as [rx [ox [Ex [Sx _]]]].
    pose proof (queued_rounds S cb e (nused ds) Hsane rounds 0%N (cb_lut_bits cb) r rx ox HL Hlen Hw Hq Ex) as Qx.
    pose proof E1 as E1'. rewrite Ex in E1'. destruct ox as [sx|]; [|discriminate E1']. injection E1' as <- <-.
    apply (IH rx r2 os (ws_inv _ _ Sx) Qx); [|exact E2]. apply (Hok rx sx eq_refl).
Qed.

Lemma never_ends : forall (S : Type) ord m (ds : list (desc S)) cb e buf r0 steps rounds r outs a k r',
  permuting ord -> new_codebook ord ds m = Ret (Okay cb) -> bytes buf -> new e buf = Ret r0 ->
  ok_in rounds e cb r0 steps -> run_in rounds e cb r0 steps = Ret (r, outs) ->
  available r = Ret a -> a + 10 * length (cb_table cb) + 1 < k -> read_rounds k e cb r = Ret (r', None) ->
  forall j, exists r'', read_rounds j e cb r = Ret (r'', None).
Proof.
  intros S ord m ds cb e buf r0 steps rounds r outs a k r' Hord Hcb Hb Hr Hok E Ha Hk Er.
  destruct (new_inv e buf Hb) as [r0' [E0 [I0 B0]]]. rewrite Hr in E0. injection E0 as <-.
  assert (Q0 : queued e r0).
  { destruct (rep_refill64 e buf _ _ Hb (rep_start e buf)) as [rx [Ex Rx]]. unfold new in Hr. rewrite Hr in Ex. injection Ex as <-.
    exists (fetch64 (bits_of e buf) (mk_queue [] 0)). rewrite B0. exact Rx. }
  pose proof (any_size_steps S ord m ds cb e Hord Hcb rounds steps r0 r outs (inv_winv _ _ _ I0) Hok E) as S1.
  pose proof (queued_steps S ord m ds cb e Hord Hcb rounds steps r0 r outs (inv_winv _ _ _ I0) Q0 Hok E) as Q1.
  pose proof (ws_inv _ _ S1) as Hw.
  destruct (planted_codebook S ord m ds cb Hord Hcb) as [Hs [HL [Hlen [Hsane _]]]].
  rewrite (w_available r Hw) in Ha. injection Ha as <-.
  intros j. apply (forever S cb e (nused ds) Hsane k 0%N (cb_lut_bits cb) r HL Hlen Hw Q1 Hk). exists r'. exact Er.
Qed.

Lemma never_ends_example : exists ord (ds : list (desc N)) cb r0, permuting ord /\ new_codebook ord ds LSB = Ret (Okay cb) /\
  new LE [255; 255; 255]%N = Ret r0 /\ available r0 = Ret 24 /\
  read_rounds (24 + 10 * length (cb_table cb) + 2) LE cb r0 = Ret (r0, None).
Proof.
  destruct endless_read as [ord [ds [cb [Ho [_ [_ [_ [Hn [_ H]]]]]]]]].
  destruct (H [255; 255; 255]%N ltac:(cbn; lia)) as [r0 [Er Hr]]. exists ord, ds, cb, r0.
  assert (E0 : r0 = mk_reader [255; 255; 255]%N 0 0 0) by (vm_compute in Er; congruence).
  split; [exact Ho|]. split; [exact Hn|]. split; [exact Er|]. split; [rewrite E0; reflexivity|]. apply Hr.
Qed.
