(** [AccReader] without overflow checks. *)
From Coq Require Import List Arith NArith ZArith Bool Lia.
From Coq Require Import ZifyBool ZifyNat ZifyN.
From Verif Require Import Base AccModel AccSpec WordAccModel WordSpec WordBitProofs WordAccProofs ReleaseModel ReleaseBitProofs ReleaseAccModel ReleaseAccSpec.
Import ListNotations.
Local Open Scope N_scope.
Ltac Zify.zify_post_hook ::= Z.div_mod_to_equations.

(** ** Agreement with the checked functions *)

Section Agree.
Context {R : Type}.
Variable i : io R.

Definition end_fits (a : wacc R) : Prop := wa_end a < W64.

Lemma uadd_lt : forall a b c, uadd a b = Ret c -> c < W64.
Proof. intros a b c. unfold uadd. destruct (N.ltb_spec (a + b) W64); intros E; [|discriminate E]. injection E as <-. assumption. Qed.

Lemma reset_release : forall a a', end_fits a -> w_reset a = Ret a' -> ra_reset a = Ret a' /\ end_fits a'.
Proof.
  intros a a' F E. unfold w_reset in E. unfold ra_reset.
  destruct (usub (wa_end a) (wa_pos a)) as [rem| |] eqn:U; cbn [obind] in E; try discriminate E.
  pose proof (usub_le _ _ _ U) as L. rewrite (rsub_of _ _ _ F U). cbv zeta.
  destruct (if 0 <? rem then _ else _) as [buf'| |]; cbn [obind] in *; try discriminate E. injection E as <-.
  split; [reflexivity|]. unfold end_fits in *. cbn [wa_end]. lia.
Qed.

Lemma consume_release : forall a n a', end_fits a -> w_consume a n = Ret a' -> ra_consume a n = a' /\ end_fits a'.
Proof.
  intros a n a' F E. unfold w_consume in E. unfold ra_consume.
  destruct (uadd (wa_pos a) n) as [p| |] eqn:P; cbn [obind] in E; try discriminate E.
  destruct (uadd (wa_index a) n) as [x| |] eqn:X; cbn [obind] in E; try discriminate E.
  rewrite (radd_of _ _ _ P), (radd_of _ _ _ X). injection E as <-. split; [reflexivity|exact F].
Qed.

Lemma grow_release : forall a n a', end_fits a -> w_grow a n = Ret a' -> ra_grow a n = Ret a' /\ end_fits a'.
Proof.
  intros a n a' F E. unfold w_grow in E. unfold ra_grow, resize.
  destruct (uadd (blen (wa_buf a)) n) as [l| |] eqn:U; cbn [obind] in E; try discriminate E.
  rewrite (radd_of _ _ _ U). unfold uadd in U. destruct (blen (wa_buf a) + n <? W64); [|discriminate U]. injection U as <-.
  destruct (blen (wa_buf a) + n <? 2 ^ 63) eqn:L; [|discriminate E]. injection E as <-. split; [|exact F].
  destruct (N.leb_spec (blen (wa_buf a) + n) (blen (wa_buf a))).
  - assert (n = 0) as -> by lia. cbn [obind N.to_nat repeat]. rewrite app_nil_r, N.add_0_r. unfold blen. rewrite Nat2N.id, firstn_all. reflexivity.
  - cbn [obind]. replace (blen (wa_buf a) + n - blen (wa_buf a)) with n by lia. reflexivity.
Qed.

Lemma fill_release : forall a x, end_fits a -> w_fill_buf i a = Ret x -> ra_fill_buf i a = Ret x /\ end_fits (fst x).
Proof.
  intros a x F E. unfold w_fill_buf in E. unfold ra_fill_buf. destruct (negb (wa_pos a =? 0) || negb (wa_end a =? blen (wa_buf a))).
  - destruct (w_reset a) as [a1| |] eqn:Rs; cbn [obind] in E; try discriminate E.
    destruct (reset_release a a1 F Rs) as [Rs' F1]. rewrite Rs'. cbn [obind].
    destruct (wslice (wa_buf a1) (wa_end a1) (blen (wa_buf a1))) as [tail| |]; cbn [obind] in *; try discriminate E.
    destruct (io_read i (wa_inner a1) tail) as [[r' tail'] [n|e]].
    + destruct (uadd (wa_end a1) (N.of_nat n)) as [e| |] eqn:U; cbn [obind] in E; try discriminate E.
      rewrite (radd_of _ _ _ U). cbv zeta in *. destruct (wslice _ _ _) as [d| |]; cbn [obind] in *; try discriminate E.
      injection E as <-. split; [reflexivity|]. exact (uadd_lt _ _ _ U).
    + injection E as <-. split; [reflexivity|exact F1].
  - destruct (wslice _ _ _) as [d| |]; cbn [obind] in *; try discriminate E. injection E as <-. split; [reflexivity|exact F].
Qed.

Lemma read_release : forall a dst x, end_fits a -> w_read i a dst = Ret x -> ra_read i a dst = Ret x /\ end_fits (fst (fst x)).
Proof.
  intros a dst x F E. unfold w_read in E. unfold ra_read.
  destruct (usub (wa_end a) (wa_pos a)) as [rem| |] eqn:U; cbn [obind] in E; try discriminate E.
  rewrite (rsub_of _ _ _ F U). cbv zeta. destruct (blen dst <? rem).
  - destruct (uadd (wa_pos a) (blen dst)) as [e| |] eqn:U1; cbn [obind] in E; try discriminate E. rewrite (radd_of _ _ _ U1).
    destruct (wslice _ _ _) as [s| |]; cbn [obind] in *; try discriminate E. destruct (slice_read s dst) as [dst' len].
    destruct (w_consume a (N.of_nat len)) as [a1| |] eqn:C; cbn [obind] in E; try discriminate E.
    destruct (consume_release _ _ _ F C) as [<- F1]. injection E as <-. split; [reflexivity|exact F1].
  - destruct (blen (wa_buf a) <? blen dst).
    + destruct (wslice (wa_buf a) _ _) as [s| |]; cbn [obind] in *; try discriminate E. destruct (slice_read s dst) as [dst1 len].
      destruct (wslice dst1 _ _) as [tail| |]; cbn [obind] in *; try discriminate E.
      destruct (io_read i (wa_inner a) tail) as [[r' tail'] [n|e]]; cbv zeta in *.
      * destruct (uadd (N.of_nat n) (N.of_nat len)) as [t| |] eqn:U1; cbn [obind] in E; try discriminate E. rewrite (radd_of _ _ _ U1).
        set (a1 := mk_wacc r' (wa_buf a) (wa_pos a) (wa_end a) (wa_index a)) in *.
        destruct (w_consume a1 t) as [a2| |] eqn:C; cbn [obind] in E; try discriminate E.
        destruct (consume_release a1 t a2 F C) as [-> F2].
        destruct (w_reset a2) as [a3| |] eqn:Rs; cbn [obind] in E; try discriminate E.
        destruct (reset_release a2 a3 F2 Rs) as [Rs' F3]. rewrite Rs'. cbn [obind]. injection E as <-. split; [reflexivity|exact F3].
      * injection E as <-. split; [reflexivity|exact F].
    + destruct (w_fill_buf i a) as [[a1 res]| |] eqn:Fi; cbn [obind] in E; try discriminate E.
      destruct (fill_release a _ F Fi) as [Fi' F1]. rewrite Fi'. cbn [obind fst] in *. destruct res as [d|e].
      * destruct (slice_read d dst) as [dst' nread]. destruct (w_consume a1 (N.of_nat nread)) as [a2| |] eqn:C; cbn [obind] in E; try discriminate E.
        destruct (consume_release _ _ _ F1 C) as [<- F2]. injection E as <-. split; [reflexivity|exact F2].
      * injection E as <-. split; [reflexivity|exact F1].
Qed.

Lemma seek_inner_release : forall a s x, end_fits a -> w_seek_inner i a s = Ret x -> ra_seek_inner i a s = Ret x /\ end_fits (fst x).
Proof.
  intros a s x F E. unfold w_seek_inner in E. unfold ra_seek_inner. destruct (io_seek i (wa_inner a) s) as [r' [sz|e]].
  - destruct (w_fill_buf i _) as [[a1 fr]| |] eqn:Fi; cbn [obind] in E; try discriminate E.
    destruct (fill_release (mk_wacc r' (wa_buf a) 0 0 (N.of_nat sz)) (a1, fr)) as [Fi' F1]; [reflexivity|exact Fi|]. rewrite Fi'. cbn [obind fst] in *.
    destruct fr; injection E as <-; (split; [reflexivity|exact F1]).
  - injection E as <-. split; [reflexivity|exact F].
Qed.

Lemma isub_of : forall a b c, isub a b = Ret c -> risub a b = c.
Proof.
  intros a b c E. unfold isub in E. unfold risub. change (2 ^ 63)%Z with 9223372036854775808%Z in *. change (2 ^ 64)%Z with 18446744073709551616%Z.
  match type of E with (if ?c then _ else _) = _ => destruct c eqn:B end; [|discriminate E].
  apply andb_prop in B as [B1 B2]. injection E as <-. lia.
Qed.

Lemma seek_release : forall a s x, end_fits a -> call_fits (ASeek s) -> w_seek i a s = Ret x -> ra_seek i a s = Ret x /\ end_fits (fst x).
Proof.
  intros a s x F Hs E. destruct s as [n|d|sz]; cbn [w_seek ra_seek call_fits] in *.
  - cbv zeta in *. change (2 ^ 64) with W64 in Hs. destruct (wa_index a <=? N.of_nat n) eqn:L; cbn [andb].
    + destruct (uadd (wa_index a) (wa_end a)) as [t| |] eqn:U; cbn [obind] in E; try discriminate E.
      destruct (usub t (wa_pos a)) as [b| |] eqn:V; cbn [obind] in E; try discriminate E.
      rewrite (radd_of _ _ _ U), (rsub_of _ _ _ (uadd_lt _ _ _ U) V). destruct (N.of_nat n <? b); [|apply seek_inner_release; assumption].
      destruct (usub (N.of_nat n) (wa_index a)) as [d| |] eqn:D; cbn [obind] in E; try discriminate E.
      destruct (uadd (wa_pos a) d) as [p| |] eqn:P; cbn [obind] in E; try discriminate E.
      rewrite (rsub_of _ _ _ Hs D), (radd_of _ _ _ P). injection E as <-. split; [reflexivity|exact F].
    + cbn [obind] in E. apply seek_inner_release; assumption.
  - apply seek_inner_release; assumption.
  - destruct (usub (wa_end a) (wa_pos a)) as [rem| |] eqn:U; cbn [obind] in E; try discriminate E. rewrite (rsub_of _ _ _ F U). cbv zeta.
    destruct (0 <=? sz)%Z; [|apply seek_inner_release; assumption]. destruct (Z.to_N sz <=? rem).
    + destruct (uadd (wa_index a) (Z.to_N sz)) as [y| |] eqn:X; cbn [obind] in E; try discriminate E.
      destruct (uadd (wa_pos a) (Z.to_N sz)) as [p| |] eqn:P; cbn [obind] in E; try discriminate E.
      rewrite (radd_of _ _ _ X), (radd_of _ _ _ P). injection E as <-. split; [reflexivity|exact F].
    + destruct (isub sz (as_i64 rem)) as [d| |] eqn:D; cbn [obind] in E; try discriminate E. rewrite (isub_of _ _ _ D).
      apply seek_inner_release; assumption.
Qed.

Lemma step_release : forall a op x, end_fits a -> call_fits op -> w_acc_step i a op = Ret x -> ra_step i a op = Ret x /\ end_fits (fst x).
Proof.
  intros a op x F Hc E. destruct op as [dst| |n|n| | | |s]; cbn [w_acc_step ra_step] in *.
  - destruct (w_read i a dst) as [[[a' dst'] res]| |] eqn:G; cbn [obind] in E; try discriminate E.
    destruct (read_release _ _ _ F G) as [-> F']. injection E as <-. split; [reflexivity|exact F'].
  - destruct (w_fill_buf i a) as [[a' res]| |] eqn:G; cbn [obind] in E; try discriminate E.
    destruct (fill_release _ _ F G) as [-> F']. injection E as <-. split; [reflexivity|exact F'].
  - destruct (w_consume a (N.of_nat n)) as [a'| |] eqn:G; cbn [obind] in E; try discriminate E.
    destruct (consume_release _ _ _ F G) as [-> F']. injection E as <-. split; [reflexivity|exact F'].
  - destruct (w_grow a (N.of_nat n)) as [a'| |] eqn:G; cbn [obind] in E; try discriminate E.
    destruct (grow_release _ _ _ F G) as [-> F']. injection E as <-. split; [reflexivity|exact F'].
  - destruct (w_reset a) as [a'| |] eqn:G; cbn [obind] in E; try discriminate E.
    destruct (reset_release _ _ F G) as [-> F']. injection E as <-. split; [reflexivity|exact F'].
  - unfold w_data in E. unfold ra_data. destruct (wslice _ _ _); cbn [obind] in *; try discriminate E. injection E as <-. split; [reflexivity|exact F].
  - unfold w_capacity in E. unfold ra_capacity. destruct (usub (wa_end a) (wa_pos a)) as [c| |] eqn:U; cbn [obind] in E; try discriminate E.
    rewrite (rsub_of _ _ _ F U). injection E as <-. split; [reflexivity|exact F].
  - destruct (w_seek i a s) as [[a' res]| |] eqn:G; cbn [obind] in E; try discriminate E.
    destruct (seek_release _ _ _ F Hc G) as [-> F']. injection E as <-. split; [reflexivity|exact F'].
Qed.

Lemma run_release : forall ops a x, end_fits a -> Forall call_fits ops -> w_acc_run i a ops = Ret x -> ra_run i a ops = Ret x.
Proof.
  induction ops as [|op ops IH]; intros a x F Hc E; [exact E|]. cbn [w_acc_run ra_run] in *. inversion Hc as [|? ? H1 H2]; subst.
  destruct (w_acc_step i a op) as [[a1 o]| |] eqn:S; cbn [obind] in E; try discriminate E.
  destruct (step_release a op _ F H1 S) as [-> F1]. cbn [obind fst] in *.
  destruct (w_acc_run i a1 ops) as [[a2 os]| |] eqn:T; cbn [obind] in E; try discriminate E. rewrite (IH a1 _ F1 H2 T). exact E.
Qed.

Lemma acc_agree : forall cap r ops x, Forall call_fits ops ->
  w_acc_run i (w_with_capacity cap r) ops = Ret x -> ra_run i (w_with_capacity cap r) ops = Ret x.
Proof. intros cap r ops x Hc E. apply run_release; [reflexivity|exact Hc|exact E]. Qed.
End Agree.

(** ** No panics *)

Section Total.
Context {R : Type}.
Variable i : io R.
Hypothesis Hio : honest_io i.
Hypothesis Hsk : reports_u64 i.

(** The window is one, and [index] is a word; [room] more bytes may be added. *)
Record sane (room : N) (a : wacc R) : Prop := {
  sn_pos : wa_pos a <= wa_end a;
  sn_end : wa_end a <= blen (wa_buf a);
  sn_len : blen (wa_buf a) + room < 2 ^ 63;
  sn_index : wa_index a < W64
}.

Lemma rsub_le : forall a b, b <= a -> a < W64 -> rsub a b = a - b.
Proof. intros a b H H1. apply rsub_of; [exact H1|]. unfold usub. destruct (N.leb_spec b a); [reflexivity|lia]. Qed.
Lemma radd_lt : forall a b, a + b < W64 -> radd a b = a + b.
Proof. intros a b H. unfold radd. apply N.mod_small. exact H. Qed.
Lemma radd_word : forall a b, radd a b < W64.
Proof. intros a b. unfold radd. apply N.mod_lt. discriminate. Qed.

Lemma wslice_some : forall l a b, a <= b -> b <= blen l -> wslice l a b = Ret (firstn (N.to_nat (b - a)) (skipn (N.to_nat a) l)).
Proof. intros l a b H1 H2. unfold wslice. destruct (N.leb_spec a b); [|lia]. destruct (N.leb_spec b (blen l)); [reflexivity|lia]. Qed.
Lemma wslice_length : forall (l : list N) a b, a <= b -> b <= blen l -> blen (firstn (N.to_nat (b - a)) (skipn (N.to_nat a) l)) = b - a.
Proof. intros l a b H1 H2. unfold blen in *. rewrite firstn_length, skipn_length. lia. Qed.

Lemma sane_lt : forall k a, sane k a -> wa_end a < W64 /\ wa_pos a < W64 /\ blen (wa_buf a) < 2 ^ 63.
Proof. intros k a [H1 H2 H3 H4]. change W64 with (2 * 2 ^ 63). set (h := 2 ^ 63) in *. clearbody h. lia. Qed.

Lemma reset_total : forall k a, sane k a -> exists a', ra_reset a = Ret a' /\ sane k a' /\ wa_pos a' = 0 /\ blen (wa_buf a') = blen (wa_buf a) /\ wa_inner a' = wa_inner a.
Proof.
  intros k a Sa. destruct (sane_lt k a Sa) as [L1 [L2 L3]]. destruct Sa as [H1 H2 H3 H4]. unfold ra_reset. rewrite (rsub_le _ _ H1 L1). cbv zeta.
  destruct (N.ltb_spec 0 (wa_end a - wa_pos a)) as [H|H].
  - rewrite (wslice_some _ _ _ H1 H2). cbn [obind]. eexists. split; [reflexivity|].
    assert (Lb : blen (firstn (N.to_nat (wa_end a - wa_pos a)) (skipn (N.to_nat (wa_pos a)) (wa_buf a)) ++ skipn (N.to_nat (wa_end a - wa_pos a)) (wa_buf a)) = blen (wa_buf a)).
    { pose proof (wslice_length _ _ _ H1 H2) as W. unfold blen in *. rewrite app_length, skipn_length. lia. }
    cbn [wa_pos wa_buf wa_inner]. split; [|split; [reflexivity|split; [exact Lb|reflexivity]]].
    split; cbn [wa_pos wa_end wa_buf wa_index]; rewrite ?Lb; lia.
  - cbn [obind]. eexists. split; [reflexivity|]. cbn [wa_pos wa_buf wa_inner]. split; [|split; [reflexivity|split; reflexivity]].
    split; cbn [wa_pos wa_end wa_buf wa_index]; lia.
Qed.

Lemma consume_total : forall k a n, sane k a -> sane k (ra_consume a n).
Proof.
  intros k a n [H1 H2 H3 H4]. unfold ra_consume. split; cbn [wa_pos wa_end wa_buf wa_index]; [apply N.le_min_r|exact H2|exact H3|apply radd_word].
Qed.

Lemma fill_total : forall k a, sane k a -> exists a' res, ra_fill_buf i a = Ret (a', res) /\ sane k a'.
Proof.
  intros k a Sa. unfold ra_fill_buf. destruct (negb (wa_pos a =? 0) || negb (wa_end a =? blen (wa_buf a))).
  - destruct (reset_total k a Sa) as [a1 [E1 [S1 [P1 [_ _]]]]]. rewrite E1. cbn [obind].
    destruct (sane_lt k a1 S1) as [L1 [L2 L3]]. destruct S1 as [H1 H2 H3 H4].
    rewrite wslice_some by lia. cbn [obind]. pose proof (wslice_length (wa_buf a1) (wa_end a1) (blen (wa_buf a1)) H2 ltac:(lia)) as W.
    destruct (io_read i (wa_inner a1) _) as [[r' tail'] res] eqn:Er. destruct (Hio _ _ _ _ _ Er) as [Lt Hr]. cbv zeta.
    assert (Lb : blen (with_tail (wa_buf a1) (N.to_nat (wa_end a1)) tail') = blen (wa_buf a1)).
    { unfold with_tail, blen in *. rewrite app_length, firstn_length. lia. }
    destruct res as [n|e].
    + assert (Hn : wa_end a1 + N.of_nat n <= blen (wa_buf a1)) by (unfold blen in *; lia).
      rewrite radd_lt by (change W64 with (2 * 2 ^ 63); set (h := 2 ^ 63) in *; clearbody h; lia).
      cbn [wa_buf wa_pos wa_end]. rewrite wslice_some by (rewrite ?Lb; lia). cbn [obind]. eexists _, _. split; [reflexivity|].
      split; cbn [wa_pos wa_end wa_buf wa_index]; rewrite ?Lb; lia.
    + eexists _, _. split; [reflexivity|]. split; cbn [wa_pos wa_end wa_buf wa_index]; rewrite ?Lb; lia.
  - destruct Sa as [H1 H2 H3 H4]. rewrite wslice_some by lia. cbn [obind]. eexists _, _. split; [reflexivity|]. split; assumption.
Qed.

Lemma slice_read_length : forall s dst dst' n, slice_read s dst = (dst', n) -> length dst' = length dst /\ (n <= length dst)%nat /\ (n <= length s)%nat.
Proof.
  intros s dst dst' n E. unfold slice_read in E. injection E as <- <-. rewrite app_length, firstn_length, skipn_length. lia.
Qed.

Lemma read_total : forall k a dst, sane k a -> exists a' dst' res, ra_read i a dst = Ret (a', dst', res) /\ sane k a'.
Proof.
  intros k a dst Sa. destruct (sane_lt k a Sa) as [L1 [L2 L3]]. unfold ra_read. pose proof Sa as [H1 H2 H3 H4]. rewrite (rsub_le _ _ H1 L1). cbv zeta.
  destruct (N.ltb_spec (blen dst) (wa_end a - wa_pos a)) as [H|H].
  - rewrite radd_lt by lia. rewrite wslice_some by lia. cbn [obind]. destruct (slice_read _ dst) as [dst' len].
    eexists _, _, _. split; [reflexivity|]. apply consume_total. exact Sa.
  - destruct (N.ltb_spec (blen (wa_buf a)) (blen dst)) as [Hb|Hb].
    + rewrite wslice_some by lia. cbn [obind]. destruct (slice_read _ dst) as [dst1 len] eqn:Sr. destruct (slice_read_length _ _ _ _ Sr) as [Ld _].
      assert (blen dst1 = blen dst) as Ld' by (unfold blen; lia). rewrite wslice_some by lia. cbn [obind].
      destruct (io_read i (wa_inner a) _) as [[r' tail'] [n|e]].
      * set (a1 := mk_wacc r' (wa_buf a) (wa_pos a) (wa_end a) (wa_index a)).
        assert (S1 : sane k a1) by (split; assumption).
        destruct (reset_total k _ (consume_total k a1 (radd (N.of_nat n) (N.of_nat len)) S1)) as [a2 [E2 [S2 _]]].
        rewrite E2. cbn [obind]. eexists _, _, _. split; [reflexivity|exact S2].
      * eexists _, _, _. split; [reflexivity|]. split; assumption.
    + destruct (fill_total k a Sa) as [a1 [res [E1 S1]]]. rewrite E1. cbn [obind]. destruct res as [d|e].
      * destruct (slice_read d dst) as [dst' nread]. eexists _, _, _. split; [reflexivity|]. apply consume_total. exact S1.
      * eexists _, _, _. split; [reflexivity|exact S1].
Qed.

Lemma seek_inner_total : forall k a s, sane k a -> exists a' res, ra_seek_inner i a s = Ret (a', res) /\ sane k a'.
Proof.
  intros k a s Sa. unfold ra_seek_inner. destruct (io_seek i (wa_inner a) s) as [r' [sz|e]] eqn:Es.
  - destruct (fill_total k (mk_wacc r' (wa_buf a) 0 0 (N.of_nat sz))) as [a1 [res [E1 S1]]].
    { destruct Sa as [H1 H2 H3 H4]. split; cbn [wa_pos wa_end wa_buf wa_index]; [lia|lia|exact H3|exact (Hsk _ _ _ _ Es)]. }
    rewrite E1. cbn [obind]. destruct res; (eexists _, _; split; [reflexivity|exact S1]).
  - eexists _, _. split; [reflexivity|]. destruct Sa as [H1 H2 H3 H4]. split; assumption.
Qed.

Lemma seek_total : forall k a s, sane k a -> call_fits (ASeek s) -> exists a' res, ra_seek i a s = Ret (a', res) /\ sane k a'.
Proof.
  intros k a s Sa Hc. destruct (sane_lt k a Sa) as [L1 [L2 L3]]. pose proof Sa as [H1 H2 H3 H4]. destruct s as [n|d|sz]; cbn [ra_seek call_fits] in *.
  - cbv zeta. change (2 ^ 64) with W64 in Hc. destruct (N.leb_spec (wa_index a) (N.of_nat n)) as [Hi|Hi]; cbn [andb]; [|apply seek_inner_total; exact Sa].
    destruct (N.ltb_spec (N.of_nat n) (rsub (radd (wa_index a) (wa_end a)) (wa_pos a))) as [Hn|Hn]; [|apply seek_inner_total; exact Sa].
    eexists _, _. split; [reflexivity|].
    assert (Hd : N.of_nat n - wa_index a <= wa_end a - wa_pos a).
    { clear H3 L3. unfold rsub, radd in Hn. rewrite W64_eq in *. lia. }
    rewrite (rsub_le (N.of_nat n)) by lia. rewrite radd_lt by (rewrite W64_eq in *; lia).
    split; cbn [wa_pos wa_end wa_buf wa_index]; [lia|exact H2|exact H3|exact Hc].
  - apply seek_inner_total. exact Sa.
  - cbv zeta. rewrite (rsub_le _ _ H1 L1). destruct (0 <=? sz)%Z; [|apply seek_inner_total; exact Sa].
    destruct (N.leb_spec (Z.to_N sz) (wa_end a - wa_pos a)) as [Hz|Hz]; [|apply seek_inner_total; exact Sa].
    eexists _, _. split; [reflexivity|]. rewrite (radd_lt (wa_pos a)) by lia.
    split; cbn [wa_pos wa_end wa_buf wa_index]; [lia|exact H2|exact H3|apply radd_word].
Qed.

Lemma grow_total : forall k a n, sane (n + k) a -> exists a', ra_grow a n = Ret a' /\ sane k a'.
Proof.
  intros k a n Sa. pose proof Sa as [H1 H2 H3 H4]. assert (L : blen (wa_buf a) + n < 2 ^ 63) by (set (h := 2 ^ 63) in *; clearbody h; lia).
  assert (E : w_grow a n = Ret (mk_wacc (wa_inner a) (wa_buf a ++ repeat 0 (N.to_nat n)) (wa_pos a) (wa_end a) (wa_index a))).
  { unfold w_grow. rewrite uadd_ok by (change W64 with (2 * 2 ^ 63); set (h := 2 ^ 63) in *; clearbody h; lia). cbn [obind].
    destruct (N.ltb_spec (blen (wa_buf a) + n) (2 ^ 63)); [reflexivity|]. exfalso. set (h := 2 ^ 63) in *. clearbody h. lia. }
  destruct (grow_release a n _ (proj1 (sane_lt _ _ Sa)) E) as [E' _]. eexists. split; [exact E'|].
  assert (Lb : blen (wa_buf a ++ repeat 0 (N.to_nat n)) = blen (wa_buf a) + n) by (unfold blen; rewrite app_length, repeat_length; lia).
  split; cbn [wa_pos wa_end wa_buf wa_index]; rewrite ?Lb; try assumption; set (h := 2 ^ 63) in *; clearbody h; lia.
Qed.

Lemma sane_less : forall k k' a, sane k a -> k' <= k -> sane k' a.
Proof. intros k k' a [H1 H2 H3 H4] H. split; try assumption. set (h := 2 ^ 63) in *. clearbody h. lia. Qed.

Lemma step_total : forall op ops a, sane (N.of_nat (grown (op :: ops))) a -> call_fits op ->
  exists a1 o, ra_step i a op = Ret (a1, o) /\ sane (N.of_nat (grown ops)) a1.
Proof.
  intros op ops a Sa C1.
  destruct op as [dst| |n|n| | | |s]; cbn [ra_step grown] in *.
  - destruct (read_total _ a dst Sa) as [a1 [d1 [res [-> S1]]]]. cbn [obind]. eexists _, _. split; [reflexivity|exact S1].
  - destruct (fill_total _ a Sa) as [a1 [res [-> S1]]]. cbn [obind]. eexists _, _. split; [reflexivity|exact S1].
  - eexists _, _. split; [reflexivity|]. apply consume_total. exact Sa.
  - rewrite Nat2N.inj_add in Sa. destruct (grow_total _ a (N.of_nat n) Sa) as [a1 [-> S1]]. cbn [obind]. eexists _, _. split; [reflexivity|exact S1].
  - destruct (reset_total _ a Sa) as [a1 [-> [S1 _]]]. cbn [obind]. eexists _, _. split; [reflexivity|exact S1].
  - unfold ra_data. pose proof Sa as [H1 H2 H3 H4]. rewrite wslice_some by lia. cbn [obind]. eexists _, _. split; [reflexivity|exact Sa].
  - eexists _, _. split; [reflexivity|exact Sa].
  - destruct (seek_total _ a s Sa C1) as [a1 [res [-> S1]]]. cbn [obind]. eexists _, _. split; [reflexivity|exact S1].
Qed.

Lemma run_total : forall ops a, sane (N.of_nat (grown ops)) a -> Forall call_fits ops -> exists a' outs, ra_run i a ops = Ret (a', outs).
Proof.
  induction ops as [|op ops IH]; intros a Sa Hc; [eexists _, _; reflexivity|]. cbn [ra_run]. inversion Hc as [|? ? C1 C2]; subst.
  destruct (step_total op ops a Sa C1) as [a1 [o [E1 S1]]].
  rewrite E1. cbn [obind]. destruct (IH a1 S1 C2) as [a2 [os ->]]. cbn [obind]. eexists _, _. reflexivity.
Qed.

Lemma sane_start : forall cap k (r : R), cap + k < 2 ^ 63 -> sane k (w_with_capacity cap r).
Proof.
  intros cap k r Hl. unfold w_with_capacity.
  assert (blen (repeat 0 (N.to_nat cap)) = cap) as Lb by (unfold blen; rewrite repeat_length; lia).
  split; cbn [wa_pos wa_end wa_buf wa_index]; rewrite ?Lb; [lia|lia|exact Hl|reflexivity].
Qed.

Lemma acc_total : forall cap r ops, Forall call_fits ops -> cap + N.of_nat (grown ops) < 2 ^ 63 ->
  exists a outs, ra_run i (w_with_capacity cap r) ops = Ret (a, outs).
Proof.
  intros cap r ops Hc Hl. apply run_total; [|exact Hc]. apply sane_start. exact Hl.
Qed.
End Total.

(** ** Growing *)

Lemma grow_exact : forall (R : Type) (a : wacc R) n, n < 2 ^ 64 -> blen (wa_buf a) < 2 ^ 63 -> wa_pos a <= wa_end a -> wa_end a <= blen (wa_buf a) ->
  (ra_grow a n = Panic <-> 2 ^ 63 <= blen (wa_buf a) + n < 2 ^ 64) /\
  (blen (wa_buf a) + n < 2 ^ 63 -> exists a', ra_grow a n = Ret a' /\ ra_data a' = ra_data a) /\
  (2 ^ 64 <= blen (wa_buf a) + n -> exists a', ra_grow a n = Ret a' /\
     (wa_end a <= blen (wa_buf a) + n - 2 ^ 64 -> ra_data a' = ra_data a) /\
     (blen (wa_buf a) + n - 2 ^ 64 < wa_end a -> ra_data a' = Panic)).
Proof.
  intros R a n Hn Hb Hp He. unfold ra_grow, resize, radd, ra_data. change W64 with (2 ^ 64).
  set (l := blen (wa_buf a)) in *. assert (El : l = N.of_nat (length (wa_buf a))) by reflexivity. clearbody l.
  change (2 ^ 64) with (2 * 2 ^ 63) in *. assert (Hh : 0 < 2 ^ 63) by reflexivity. set (h := 2 ^ 63) in *. clearbody h.
  destruct (N.lt_ge_cases (l + n) (2 * h)) as [H|H].
  - rewrite N.mod_small by exact H. split; [|split].
    + destruct (N.leb_spec (l + n) l); cbn [obind]; [split; [discriminate|lia]|]. destruct (N.ltb_spec (l + n) h); cbn [obind]; (split; [try discriminate; lia|try reflexivity; lia]).
    + intros Hl. destruct (N.leb_spec (l + n) l).
      * cbn [obind]. eexists. split; [reflexivity|]. cbn [wa_buf wa_pos wa_end]. rewrite firstn_all2 by lia. reflexivity.
      * destruct (N.ltb_spec (l + n) h); [|lia]. cbn [obind]. eexists. split; [reflexivity|]. cbn [wa_buf wa_pos wa_end]. unfold wslice, blen.
        rewrite app_length. destruct (N.leb_spec (wa_pos a) (wa_end a)); [|lia]. cbn [andb].
        destruct (N.leb_spec (wa_end a) (N.of_nat (length (wa_buf a)))); [|lia].
        destruct (N.leb_spec (wa_end a) (N.of_nat (length (wa_buf a) + length (repeat 0 (N.to_nat (l + n - l)))))); [|lia].
        f_equal. rewrite skipn_app, firstn_app, skipn_length. replace (N.to_nat (wa_end a - wa_pos a) - (length (wa_buf a) - N.to_nat (wa_pos a)))%nat with 0%nat by lia.
        rewrite app_nil_r. reflexivity.
    + lia.
  - replace ((l + n) mod (2 * h)) with (l + n - 2 * h).
    2: { replace (l + n) with ((l + n - 2 * h) + 1 * (2 * h)) at 2 by lia. rewrite N.mod_add by lia. rewrite N.mod_small by lia. reflexivity. }
    split; [|split].
    + destruct (N.leb_spec (l + n - 2 * h) l); [|lia]. cbn [obind]. split; [discriminate|lia].
    + lia.
    + intros _. destruct (N.leb_spec (l + n - 2 * h) l); [|lia]. cbn [obind]. eexists. split; [reflexivity|]. cbn [wa_buf wa_pos wa_end].
      assert (Lf : blen (firstn (N.to_nat (l + n - 2 * h)) (wa_buf a)) = l + n - 2 * h) by (unfold blen; rewrite firstn_length; lia).
      unfold wslice. rewrite Lf. destruct (N.leb_spec (wa_pos a) (wa_end a)); [|lia]. cbn [andb]. split; intros Hx.
      * destruct (N.leb_spec (wa_end a) (l + n - 2 * h)); [|lia]. unfold blen. destruct (N.leb_spec (wa_end a) (N.of_nat (length (wa_buf a)))); [|lia].
        f_equal. rewrite skipn_firstn_comm, firstn_firstn. f_equal. lia.
      * destruct (N.leb_spec (wa_end a) (l + n - 2 * h)); [lia|reflexivity].
Qed.

Lemma grow_loses : exists (a : wacc unit) n a', n < 2 ^ 64 /\ ra_data a = Ret [1; 2; 3] /\ ra_grow a n = Ret a' /\ ra_data a' = Panic.
Proof.
  exists (mk_wacc tt [1; 2; 3; 4] 0 3 0), (2 ^ 64 - 2). eexists. split; [reflexivity|]. split; [reflexivity|]. split; [vm_compute; reflexivity|]. reflexivity.
Qed.

Lemma word_cursor_honest : honest_io word_cursor_io.
Proof.
  intros r dst r' dst' res E. destruct (so_read _ _ _ _ (word_cursor_ok (cur_src r)) r dst r' dst' res eq_refl E) as [_ [H1 H2]].
  split; [exact H1|]. destruct res as [n|e]; [|exact I]. apply H2.
Qed.
