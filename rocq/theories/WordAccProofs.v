(** [AccReader] on machine words does what the one on numbers does. *)
From Coq Require Import List Arith NArith ZArith Bool Lia.
From Coq Require Import ZifyBool ZifyNat ZifyN.
From Verif Require Import Base AccModel AccSpec AccProofs AccProofs2 AccExamples BitModel WordBitModel WordAccModel WordSpec WordBitProofs.
Import ListNotations.
Local Open Scope N_scope.

Definition wa1 {R A : Type} (p : acc R * A) : wacc R * A := (word_acc (fst p), snd p).

Lemma wslice_slice l a b : wslice l (N.of_nat a) (N.of_nat b) = slice l a b.
Proof.
  unfold wslice, slice, blen. rewrite !Nat2N.id.
  destruct (N.leb_spec (N.of_nat a) (N.of_nat b)); destruct (Nat.leb_spec a b); try lia; [|reflexivity].
  destruct (N.leb_spec (N.of_nat b) (N.of_nat (length l))); destruct (Nat.leb_spec b (length l)); try lia; [|reflexivity].
  cbn [andb]. do 2 f_equal. lia.
Qed.

Lemma reset_word {R : Type} (a : acc R) : w_reset (word_acc a) = omap word_acc (reset_buffer_position a).
Proof.
  unfold w_reset, reset_buffer_position. cbn [word_acc wa_end wa_pos wa_buf wa_inner wa_index]. rewrite usub_csub.
  destruct (csub (aend a) (apos a)) as [rem| |]; cbn [omap obind]; [|reflexivity..]. rewrite wslice_slice.
  destruct (N.ltb_spec 0 (N.of_nat rem)); destruct (Nat.ltb_spec 0 rem); try lia.
  - destruct (slice (abuf a) (apos a) (aend a)) as [w| |]; cbn [omap obind]; [|reflexivity..]. rewrite Nat2N.id. reflexivity.
  - reflexivity.
Qed.

Lemma consume_word {R : Type} (a : acc R) n : N.of_nat (apos a) + N.of_nat n < W64 -> N.of_nat (aindex a) + N.of_nat n < W64 ->
  w_consume (word_acc a) (N.of_nat n) = Ret (word_acc (consume a n)).
Proof.
  intros H1 H2. unfold w_consume, consume. cbn [word_acc wa_end wa_pos wa_buf wa_inner wa_index].
  rewrite !uadd_ok by assumption. cbn [obind]. unfold word_acc. cbn [inner abuf apos aend aindex]. do 2 f_equal; lia.
Qed.

Lemma grow_word {R : Type} (a : acc R) n : N.of_nat (length (abuf a)) + N.of_nat n < 2 ^ 63 ->
  w_grow (word_acc a) (N.of_nat n) = Ret (word_acc (grow a n)).
Proof.
  intros H. unfold w_grow, grow, blen. cbn [word_acc wa_end wa_pos wa_buf wa_inner wa_index].
  rewrite uadd_ok by (change W64 with (2 * 2 ^ 63); lia). cbn [obind].
  destruct (N.ltb_spec (N.of_nat (length (abuf a)) + N.of_nat n) (2 ^ 63)); [|lia]. rewrite Nat2N.id. reflexivity.
Qed.

Section Acc.
Context {R : Type}.
Variable i : io R.
Variable src : list N.
Variable good : R -> Prop.
Variable tell : R -> nat.
Hypothesis Hsrc : source_ok i src good tell.
Hypothesis Hseek : reports_u64 i.

(** The position is a word, and beyond the end of the source the buffer is at its start. *)
Record fits (a : acc R) : Prop := {
  ft_index : N.of_nat (aindex a) < W64;
  ft_pos : (aindex a <= length src)%nat \/ apos a = 0%nat;
  ft_room : N.of_nat (length src) < 2 ^ 63 /\ N.of_nat (length (abuf a)) < 2 ^ 63
}.
Notation rep := (rep src good tell).

Lemma fill_word a p : rep a p -> fits a -> w_fill_buf i (word_acc a) = omap wa1 (fill_buf i a).
Proof.
  intros H F. unfold w_fill_buf, fill_buf. cbn [word_acc wa_end wa_pos wa_buf wa_inner wa_index]. unfold blen.
  replace (N.of_nat (apos a) =? 0) with (apos a =? 0)%nat by lia.
  replace (N.of_nat (aend a) =? N.of_nat (length (abuf a))) with (aend a =? length (abuf a))%nat by lia.
  destruct (negb (apos a =? 0)%nat || negb (aend a =? length (abuf a))%nat).
  - change (mk_wacc (inner a) (abuf a) (N.of_nat (apos a)) (N.of_nat (aend a)) (N.of_nat (aindex a))) with (word_acc a).
    rewrite reset_word. destruct (reset_rep src good tell a p H) as [a1 [E1 [H1 [P1 [N1 [L1 _]]]]]]. rewrite E1. cbn [omap obind].
    change (wa_buf (word_acc a1)) with (abuf a1). change (wa_inner (word_acc a1)) with (inner a1).
    change (wa_end (word_acc a1)) with (N.of_nat (aend a1)). change (wa_pos (word_acc a1)) with (N.of_nat (apos a1)).
    change (wa_index (word_acc a1)) with (N.of_nat (aindex a1)). rewrite wslice_slice.
    rewrite slice_ok by (try apply H1; lia). cbn [obind].
    set (tail := firstn (length (abuf a1) - aend a1) (skipn (aend a1) (abuf a1))).
    assert (Lt : length tail = (length (abuf a1) - aend a1)%nat) by (unfold tail; rewrite firstn_length, skipn_length; lia).
    destruct (io_read i (inner a1) tail) as [[r' tail'] res] eqn:Er.
    destruct (so_read _ _ _ _ Hsrc _ _ _ _ _ (rp_good _ _ _ _ _ H1) Er) as [_ [_ Hres]]. rewrite Nat2N.id.
    pose proof (rp_end _ _ _ _ _ H1) as He. pose proof (ft_room _ F) as Hr.
    destruct res as [k|e]; [|reflexivity]. destruct Hres as [Hk _].
    rewrite uadd_ok by (change W64 with (2 * 2 ^ 63); lia). cbn [obind wa_buf wa_end wa_pos abuf aend apos].
    rewrite <- Nat2N.inj_add, wslice_slice.
    destruct (slice (with_tail (abuf a1) (aend a1) tail') (apos a1) (aend a1 + k)) as [d| |]; reflexivity.
  - rewrite wslice_slice. destruct (slice (abuf a) (apos a) (aend a)); reflexivity.
Qed.

Lemma fill_start a a' p res : rep a p -> fill_buf i a = Ret (a', res) -> apos a' = 0%nat /\ aindex a' = aindex a.
Proof.
  intros H E. destruct (fill_rep i src good tell Hsrc a p H) as [a2 [res2 [E2 [H2 _]]]].
  assert (I : aindex a' = aindex a).
  { rewrite E in E2. injection E2 as <- <-. rewrite (rp_index _ _ _ _ _ H), (rp_index _ _ _ _ _ H2). reflexivity. }
  split; [|exact I]. clear E2 H2 I a2 res2. unfold fill_buf in E.
  destruct (negb (apos a =? 0)%nat || negb (aend a =? length (abuf a))%nat) eqn:Ec.
  - destruct (reset_rep src good tell a p H) as [a1 [E1 [H1 [P1 _]]]]. rewrite E1 in E. cbn [obind] in E.
    destruct (slice (abuf a1) (aend a1) (length (abuf a1))) as [t| |]; try discriminate E. cbn [obind] in E.
    destruct (io_read i (inner a1) t) as [[r' t'] rs]. destruct rs as [n|e].
    + cbn [abuf apos aend] in E. destruct (slice _ _ _) as [d| |]; try discriminate E. cbn [obind] in E.
      injection E as <- _. exact P1.
    + injection E as <- _. exact P1.
  - destruct (slice _ _ _) as [d| |]; try discriminate E. cbn [obind] in E. injection E as <- _. lia.
Qed.

Lemma fill_fits a a' p res : rep a p -> fits a -> fill_buf i a = Ret (a', res) -> fits a'.
Proof.
  intros H F E. destruct (fill_start a a' p res H E) as [Hp Hi].
  destruct (fill_rep i src good tell Hsrc a p H) as [a2 [res2 [E2 [H2 [L2 _]]]]]. rewrite E in E2. injection E2 as <- <-.
  constructor; [rewrite Hi; apply F|right; exact Hp|rewrite L2; apply F].
Qed.

Lemma consume_fits a p n : rep a p -> fits a -> (n <= aend a - apos a)%nat -> fits (consume a n) /\
  N.of_nat (apos a) + N.of_nat n < W64 /\ N.of_nat (aindex a) + N.of_nat n < W64.
Proof.
  intros H F Hn. pose proof (rp_pos _ _ _ _ _ H). pose proof (rp_end _ _ _ _ _ H). pose proof (rp_avail _ _ _ _ _ H).
  pose proof (rp_index _ _ _ _ _ H). pose proof (ft_index _ F). pose proof (ft_room _ F) as Hr. pose proof (ft_pos _ F).
  assert (W : W64 = 2 * 2 ^ 63) by reflexivity. set (h := 2 ^ 63) in *. clearbody h.
  split; [|split; lia]. constructor; cbn [consume aindex apos abuf aend]; [lia|lia|apply F].
Qed.

Lemma read_word a p dst : rep a p -> fits a -> N.of_nat (length dst) < 2 ^ 63 ->
  w_read i (word_acc a) dst = omap (fun x => (word_acc (fst (fst x)), snd (fst x), snd x)) (read i a dst) /\
  forall a' dst' res, read i a dst = Ret (a', dst', res) -> fits a'.
Proof.
  intros H F Hd. pose proof (rp_pos _ _ _ _ _ H) as H1. pose proof (rp_end _ _ _ _ _ H) as H2. pose proof (rp_avail _ _ _ _ _ H) as H3.
  pose proof (ft_room _ F) as Hr. assert (W : W64 = 2 * 2 ^ 63) by reflexivity.
  unfold w_read, read. cbn [word_acc wa_end wa_pos wa_buf wa_inner wa_index]. rewrite usub_csub, csub_ok by lia. cbn [omap obind].
  unfold blen.
  replace (N.of_nat (length dst) <? N.of_nat (aend a - apos a)) with (length dst <? aend a - apos a)%nat by lia.
  replace (N.of_nat (length (abuf a)) <? N.of_nat (length dst)) with (length (abuf a) <? length dst)%nat by lia.
  destruct (Nat.ltb_spec (length dst) (aend a - apos a)) as [Hlt|Hge].
  - rewrite uadd_ok by lia. cbn [obind]. rewrite <- Nat2N.inj_add, wslice_slice, slice_ok by lia. cbn [obind].
    set (s := firstn _ (skipn (apos a) (abuf a))). destruct (slice_read s dst) as [dst' n] eqn:Es.
    apply slice_read_spec in Es. destruct Es as [Hn _].
    destruct (consume_fits a p n H F ltac:(lia)) as [Fc [B1 B2]].
    change (mk_wacc (inner a) (abuf a) (N.of_nat (apos a)) (N.of_nat (aend a)) (N.of_nat (aindex a))) with (word_acc a).
    rewrite consume_word by assumption. cbn [obind omap fst snd]. split; [reflexivity|].
    intros a' d' r' E. injection E as <- _ _. exact Fc.
  - destruct (Nat.ltb_spec (length (abuf a)) (length dst)) as [Hbig|Hsm].
    + rewrite wslice_slice, slice_ok by lia. cbn [obind]. set (rem := (aend a - apos a)%nat) in *.
      set (s := firstn rem (skipn (apos a) (abuf a))).
      assert (Ls : length s = rem) by (unfold s; rewrite firstn_length, skipn_length; lia).
      destruct (slice_read s dst) as [dst1 n] eqn:Es. apply slice_read_spec in Es. destruct Es as [Hn [Hl _]].
      rewrite Ls, Nat.min_r in Hn by lia. subst n. rewrite wslice_slice, slice_ok by lia. cbn [obind].
      set (tail := firstn (length dst1 - rem) (skipn rem dst1)).
      assert (Lt : length tail = (length dst - rem)%nat) by (unfold tail; rewrite firstn_length, skipn_length; lia).
      destruct (io_read i (inner a) tail) as [[r' tail'] res] eqn:Er.
      destruct (so_read _ _ _ _ Hsrc _ _ _ _ _ (rp_good _ _ _ _ _ H) Er) as [Hg [_ Hres]].
      pose proof (rp_tell _ _ _ _ _ H) as Ht. fold rem in Ht. pose proof (rp_index _ _ _ _ _ H) as Hi.
      pose proof (ft_index _ F) as Hx. pose proof (ft_pos _ F) as Hp. rewrite Nat2N.id.
      destruct res as [k|e].
      * destruct Hres as [Hk [Hks _]].
        change (mk_wacc r' (abuf a) (N.of_nat (apos a)) (N.of_nat (aend a)) (N.of_nat (aindex a)))
          with (word_acc (mk_acc r' (abuf a) (apos a) (aend a) (aindex a))).
        set (h := 2 ^ 63) in *. clearbody h.
        rewrite uadd_ok by lia. cbn [obind]. rewrite <- Nat2N.inj_add.
        rewrite consume_word by (cbn [apos aindex]; lia). cbn [obind]. rewrite reset_word.
        unfold reset_buffer_position, consume. cbn [inner apos aend abuf aindex].
        replace (Nat.min (apos a + (k + rem)) (aend a)) with (aend a) by lia.
        rewrite csub_ok, Nat.sub_diag by lia. cbn [obind omap fst snd Nat.ltb Nat.leb]. rewrite Nat2N.id. split; [reflexivity|].
        intros a' d' rs E. injection E as <- _ _. constructor; cbn [aindex apos abuf]; [lia|right; reflexivity|apply F].
      * split; [reflexivity|]. intros a' d' rs E. injection E as <- _ _. constructor; cbn [aindex apos abuf]; apply F.
    + change (mk_wacc (inner a) (abuf a) (N.of_nat (apos a)) (N.of_nat (aend a)) (N.of_nat (aindex a))) with (word_acc a).
      rewrite (fill_word a p H F). destruct (fill_rep i src good tell Hsrc a p H) as [a1 [res [E1 [H1' [L1 Hres]]]]].
      pose proof (fill_fits a a1 p res H F E1) as F1. rewrite E1. cbn [obind omap wa1 fst snd].
      destruct res as [d|e].
      * destruct Hres as [Hdt [Hb _]]. rewrite (data_rep src good tell a1 p H1') in Hdt. injection Hdt as <-.
        destruct (slice_read (firstn (buffered a1) (skipn p src)) dst) as [dst' n] eqn:Es. apply slice_read_spec in Es.
        rewrite (data_length src good tell a1 p H1') in Es. destruct Es as [Hn _]. unfold buffered in Hn.
        destruct (consume_fits a1 p n H1' F1 ltac:(lia)) as [Fc [B1 B2]].
        rewrite consume_word by assumption. cbn [obind omap fst snd]. split; [reflexivity|].
        intros a' d' r' E. injection E as <- _ _. exact Fc.
      * split; [reflexivity|]. intros a' d' r' E. injection E as <- _ _. exact F1.
Qed.

Lemma seek_inner_word a p s : rep a p -> fits a ->
  w_seek_inner i (word_acc a) s = omap wa1 (seek_inner i a s) /\
  forall a' res, seek_inner i a s = Ret (a', res) -> fits a'.
Proof.
  intros H F. unfold w_seek_inner, seek_inner. cbn [word_acc wa_end wa_pos wa_buf wa_inner wa_index].
  destruct (io_seek i (inner a) s) as [r' res] eqn:Es.
  destruct (so_seek _ _ _ _ Hsrc _ _ _ _ (rp_good _ _ _ _ _ H) Es) as [Hg Hs].
  destruct res as [sz|e].
  - destruct Hs as [Hsz Ht].
    assert (H0 : rep (mk_acc r' (abuf a) 0 0 sz) sz).
    { constructor; cbn [inner apos aend abuf aindex]; try lia; try assumption; try reflexivity. }
    assert (F0 : fits (mk_acc r' (abuf a) 0 0 sz)).
    { constructor; cbn [apos abuf aindex]; [exact (Hseek _ _ _ _ Es)|right; reflexivity|apply F]. }
    change (mk_wacc r' (abuf a) 0 0 (N.of_nat sz)) with (word_acc (mk_acc r' (abuf a) 0 0 sz)).
    rewrite (fill_word _ _ H0 F0). destruct (fill_rep i src good tell Hsrc _ _ H0) as [a1 [fr [Ef _]]].
    pose proof (fill_fits _ _ _ _ H0 F0 Ef) as F1. rewrite Ef. cbn [omap obind wa1 fst snd].
    destruct fr as [d|e]; (split; [reflexivity|]; intros a' rs E; injection E as <- _; exact F1).
  - split; [reflexivity|]. intros a' rs E. injection E as <- _. constructor; cbn [apos abuf aindex]; apply F.
Qed.

Lemma seek_word a p s : rep a p -> fits a -> call_fits (ASeek s) ->
  w_seek i (word_acc a) s = omap wa1 (seek i a s) /\
  forall a' res, seek i a s = Ret (a', res) -> fits a'.
Proof.
  intros H F Hc. pose proof (rp_pos _ _ _ _ _ H) as H1. pose proof (rp_end _ _ _ _ _ H) as H2. pose proof (rp_avail _ _ _ _ _ H) as H3.
  pose proof (rp_index _ _ _ _ _ H) as Hi. pose proof (ft_room _ F) as Hr. pose proof (ft_index _ F) as Hx. pose proof (ft_pos _ F) as Hp.
  assert (W : W64 = 2 * 2 ^ 63) by reflexivity.
  destruct s as [mv|d|d]; unfold w_seek, seek.
  - rewrite csub_ok by lia. cbn [obind]. cbn [word_acc wa_end wa_pos wa_buf wa_inner wa_index].
    change (mk_wacc (inner a) (abuf a) (N.of_nat (apos a)) (N.of_nat (aend a)) (N.of_nat (aindex a))) with (word_acc a).
    set (h := 2 ^ 63) in *. assert (h0 : 0 < h) by (unfold h; reflexivity). clearbody h.
    replace (N.of_nat (aindex a) <=? N.of_nat mv) with (aindex a <=? mv)%nat by lia.
    destruct (Nat.leb_spec (aindex a) mv) as [E1|E1]; cbn [andb].
    + rewrite uadd_ok.
      2:{ destruct Hp as [Hp|Hp]; [lia|]. rewrite Hp in *. destruct (Nat.eq_dec (aend a) 0); lia. }
      cbn [obind]. rewrite <- Nat2N.inj_add, usub_csub, csub_ok by lia. cbn [omap obind].
      replace (N.of_nat mv <? N.of_nat (aindex a + aend a - apos a)) with (mv <? aindex a + aend a - apos a)%nat by lia.
      destruct (Nat.ltb_spec mv (aindex a + aend a - apos a)) as [E2|E2].
      * rewrite usub_csub, csub_ok by lia. cbn [omap obind]. rewrite uadd_ok by lia. cbn [obind omap wa1 fst snd].
        split; [rewrite <- Nat2N.inj_add; reflexivity|].
        intros a' rs E. injection E as <- _. constructor; cbn [apos abuf aindex]; [lia|lia|apply F].
      * apply (seek_inner_word a p (Start mv) H F).
    + cbn [obind]. apply (seek_inner_word a p (Start mv) H F).
  - apply (seek_inner_word a p (End d) H F).
  - cbn [word_acc wa_end wa_pos wa_buf wa_inner wa_index]. rewrite usub_csub, csub_ok by lia. cbn [omap obind].
    change (mk_wacc (inner a) (abuf a) (N.of_nat (apos a)) (N.of_nat (aend a)) (N.of_nat (aindex a))) with (word_acc a).
    destruct (Z.leb_spec 0 d) as [Hd|Hd]; [|apply (seek_inner_word a p (Current d) H F)].
    replace (Z.to_N d <=? N.of_nat (aend a - apos a)) with (Z.to_nat d <=? aend a - apos a)%nat by lia.
    destruct (Nat.leb_spec (Z.to_nat d) (aend a - apos a)) as [Hin|Hout].
    + assert (E : Z.to_N d = N.of_nat (Z.to_nat d)) by lia. rewrite E.
      destruct (consume_fits a p (Z.to_nat d) H F Hin) as [Fc [B1 B2]].
      rewrite !uadd_ok by assumption. cbn [obind omap wa1 fst snd aindex]. split.
      * rewrite <- !Nat2N.inj_add, Nat2N.id. reflexivity.
      * intros a' rs E'. injection E' as <- _. unfold consume in Fc.
        replace (Nat.min (apos a + Z.to_nat d) (aend a)) with (apos a + Z.to_nat d)%nat in Fc by lia. exact Fc.
    + cbn [call_fits] in Hc. assert (E : as_i64 (N.of_nat (aend a - apos a)) = Z.of_nat (aend a - apos a)).
      { unfold as_i64, as_signed. change (2 ^ (64 - 1)) with (2 ^ 63).
        destruct (N.ltb_spec (N.of_nat (aend a - apos a)) (2 ^ 63)); lia. }
      rewrite E. unfold isub.
      destruct (Z.leb_spec (- 2 ^ 63) (d - Z.of_nat (aend a - apos a))); [|lia].
      destruct (Z.ltb_spec (d - Z.of_nat (aend a - apos a)) (2 ^ 63)); [|lia]. cbn [andb obind].
      apply (seek_inner_word a p (Current _) H F).
Qed.

Lemma step_word a p op : rep a p -> fits a -> call_fits op ->
  N.of_nat (length src) < 2 ^ 63 -> N.of_nat (length (abuf a)) + match op with AGrow n => N.of_nat n | _ => 0 end < 2 ^ 63 ->
  match op with AConsume n => exists d, data a = Ret d /\ (n <= length d)%nat | _ => True end ->
  w_acc_step i (word_acc a) op = omap wa1 (acc_step i a op) /\
  forall a' o, acc_step i a op = Ret (a', o) -> fits a'.
Proof.
  intros H F Hc Hq Hb Hl. destruct op as [dst| |n|n| | | |s]; cbn [w_acc_step acc_step].
  - destruct (read_word a p dst H F Hc) as [E Hf]. rewrite E.
    destruct (read i a dst) as [[[a' d'] rs]| |]; cbn [omap obind fst snd]; (split; [reflexivity|]); intros a'' o Ea; [|discriminate Ea..].
    injection Ea as <- _. exact (Hf _ _ _ eq_refl).
  - rewrite (fill_word a p H F). destruct (fill_buf i a) as [[a' rs]| |] eqn:E; cbn [omap obind wa1 fst snd];
      (split; [reflexivity|]); intros a'' o Ea; [|discriminate Ea..]. injection Ea as <- _. exact (fill_fits a a' p rs H F E).
  - destruct Hl as [d [Hd Hn]]. rewrite (data_rep src good tell a p H) in Hd. injection Hd as <-.
    rewrite (data_length src good tell a p H) in Hn.
    destruct (consume_fits a p n H F Hn) as [Fc [B1 B2]]. rewrite consume_word by assumption. cbn [obind omap wa1 fst snd].
    split; [reflexivity|]. intros a' o E. injection E as <- _. exact Fc.
  - rewrite grow_word by lia. cbn [obind omap wa1 fst snd]. split; [reflexivity|]. intros a' o E. injection E as <- _.
    constructor; cbn [grow aindex apos abuf]; [apply F|apply F|rewrite app_length, repeat_length; lia].
  - rewrite reset_word. destruct (reset_rep src good tell a p H) as [a1 [E1 [H1 [P1 [_ [L1 _]]]]]]. rewrite E1. cbn [omap obind wa1 fst snd].
    split; [reflexivity|]. intros a' o E. injection E as <- _.
    constructor; [rewrite (rp_index _ _ _ _ _ H1), <- (rp_index _ _ _ _ _ H); apply F|right; exact P1|rewrite L1; apply F].
  - unfold w_data. cbn [word_acc wa_end wa_pos wa_buf]. rewrite wslice_slice. unfold data.
    destruct (slice (abuf a) (apos a) (aend a)); cbn [obind omap]; (split; [reflexivity|]); intros a' o E; [|discriminate E..].
    injection E as <- _. exact F.
  - unfold w_capacity, capacity. cbn [word_acc wa_end wa_pos]. rewrite usub_csub.
    destruct (csub (aend a) (apos a)); cbn [obind omap wa1 fst snd]; (split; [try rewrite Nat2N.id; reflexivity|]); intros a' o E; [|discriminate E..].
    injection E as <- _. exact F.
  - destruct (seek_word a p s H F Hc) as [E Hf]. rewrite E.
    destruct (seek i a s) as [[a' rs]| |]; cbn [omap obind wa1 fst snd]; (split; [reflexivity|]); intros a'' o Ea; [|discriminate Ea..].
    injection Ea as <- _. exact (Hf _ _ eq_refl).
Qed.

Lemma step_length a p op a' o : rep a p -> match op with ASeek s => forward s | _ => True end -> acc_step i a op = Ret (a', o) ->
  length (abuf a') = (length (abuf a) + match op with AGrow n => n | _ => 0 end)%nat.
Proof.
  intros H Hl E. destruct op as [dst| |n|n| | | |s]; cbn [acc_step] in E; rewrite ?Nat.add_0_r.
  - destruct (read_rep i src good tell Hsrc a p dst H) as [a1 [d1 [rs [p1 [E1 [_ [_ L]]]]]]]. rewrite E1 in E. cbn [obind] in E.
    injection E as <- _. exact L.
  - destruct (fill_rep i src good tell Hsrc a p H) as [a1 [rs [E1 [_ [L _]]]]]. rewrite E1 in E. cbn [obind] in E. injection E as <- _. exact L.
  - injection E as <- _. reflexivity.
  - injection E as <- _. cbn [grow abuf]. rewrite app_length, repeat_length. reflexivity.
  - destruct (reset_rep src good tell a p H) as [a1 [E1 [_ [_ [_ [L _]]]]]]. rewrite E1 in E. cbn [obind] in E. injection E as <- _. exact L.
  - destruct (data a); try discriminate E. injection E as <- _. reflexivity.
  - destruct (capacity a); try discriminate E. injection E as <- _. reflexivity.
  - destruct (seek_rep i src good tell Hsrc a p s H Hl) as [a1 [rs [E1 [L _]]]]. rewrite E1 in E. cbn [obind] in E. injection E as <- _. exact L.
Qed.

Lemma run_acc_word ops : forall a p, rep a p -> fits a -> acc_legal i a ops -> Forall call_fits ops ->
  N.of_nat (length src) < 2 ^ 63 -> N.of_nat (length (abuf a)) + N.of_nat (grown ops) < 2 ^ 63 ->
  w_acc_run i (word_acc a) ops = omap wa1 (acc_run i a ops).
Proof.
  induction ops as [|op ops IH]; intros a p H F Hl Hc Hq Hb; cbn [w_acc_run acc_run]; [reflexivity|].
  cbn [acc_legal] in Hl. destruct Hl as [Hop Hnext]. inversion Hc as [|op' ops' Hc1 Hc2 Eo]; subst.
  assert (G : (grown (op :: ops) = match op with AGrow n => n | _ => 0 end + grown ops)%nat) by (destruct op; reflexivity).
  destruct (step_word a p op H F Hc1 Hq) as [Es Hf]; [rewrite G in Hb; destruct op; lia|destruct op; exact Hop || exact I|].
  destruct (step_rep i src good tell Hsrc a p op H Hop) as [a1 [o [p1 [E1 [H1 _]]]]].
  rewrite Es, E1. cbn [omap obind wa1 fst snd].
  rewrite (IH a1 p1 H1 (Hf _ _ E1) (Hnext _ _ E1) Hc2 Hq).
  - destruct (acc_run i a1 ops) as [[a2 os]| |]; reflexivity.
  - rewrite (step_length a p op a1 o H ltac:(destruct op; exact Hop || exact I) E1). lia.
Qed.

End Acc.

Lemma acc_word (R : Type) (i : io R) (src : list N) good tell r cap ops :
  source_ok i src good tell -> good r -> tell r = 0%nat -> reports_u64 i ->
  acc_legal i (with_capacity cap r) ops -> Forall call_fits ops ->
  N.of_nat (length src) < 2 ^ 63 -> N.of_nat cap + N.of_nat (grown ops) < 2 ^ 63 ->
  w_acc_run i (w_with_capacity (N.of_nat cap) r) ops =
  (let! (a, outs) := acc_run i (with_capacity cap r) ops in Ret (word_acc a, outs)).
Proof.
  intros Hs Hg Ht Hu Hl Hc Hq Hb.
  assert (E : w_with_capacity (N.of_nat cap) r = word_acc (with_capacity cap r)).
  { unfold w_with_capacity, with_capacity, word_acc. cbn [inner abuf apos aend aindex]. rewrite Nat2N.id. reflexivity. }
  rewrite E. rewrite (run_acc_word i src good tell Hs Hu ops (with_capacity cap r) 0).
  - destruct (acc_run i (with_capacity cap r) ops) as [[a os]| |]; reflexivity.
  - apply new_rep; assumption.
  - constructor; cbn [with_capacity aindex apos abuf]; [reflexivity|right; reflexivity|rewrite repeat_length; lia].
  - exact Hl.
  - exact Hc.
  - exact Hq.
  - cbn [with_capacity abuf]. rewrite repeat_length. exact Hb.
Qed.

(** ** The cursor *)

Lemma word_cursor_ok src : source_ok word_cursor_io src (fun c => cur_src c = src) cur_pos.
Proof.
  destruct (cursor_ok src) as [Hr Hs]. constructor; [exact Hr|].
  intros r s r' res Hg E. unfold word_cursor_io, word_cursor_seek in E. cbn [io_seek] in E.
  destruct (cursor_seek r s) as [c' rs] eqn:Ec. specialize (Hs r s c' rs Hg). cbn [cursor_io io_seek] in Hs. specialize (Hs Ec).
  destruct rs as [q|e]; [|injection E as <- <-; exact Hs].
  destruct (N.of_nat q <? 2 ^ 64); injection E as <- <-; [exact Hs|]. split; [exact Hg|reflexivity].
Qed.

Lemma word_cursor_u64 : reports_u64 word_cursor_io.
Proof.
  intros r s r' q E. unfold word_cursor_io, word_cursor_seek in E. cbn [io_seek] in E.
  destruct (cursor_seek r s) as [c' rs]. destruct rs as [q'|e]; [|discriminate E].
  destruct (N.ltb_spec (N.of_nat q') (2 ^ 64)); [|discriminate E]. injection E as _ <-. assumption.
Qed.

Lemma word_legal : acc_legal word_cursor_io (with_capacity 10 ex_cursor) ex_ops.
Proof. apply acc_legalb_sound. vm_compute. reflexivity. Qed.

Lemma grow_limit (R : Type) (a : wacc R) n : w_grow a n = Panic <-> 2 ^ 63 <= blen (wa_buf a) + n.
Proof.
  unfold w_grow, uadd. assert (W : W64 = 2 * 2 ^ 63) by reflexivity.
  destruct (N.ltb_spec (blen (wa_buf a) + n) W64); cbn [obind]; [|split; [lia|reflexivity]].
  destruct (N.ltb_spec (blen (wa_buf a) + n) (2 ^ 63)); (split; [try discriminate; lia|try reflexivity; lia]).
Qed.
