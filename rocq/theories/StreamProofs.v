(** Proofs about stream getters, peekers and packets. *)
From Coq Require Import List Arith NArith ZArith Bool Lia.
From Verif Require Import Base ByteModel ByteSpec ByteProofs AccModel AccSpec AccProofs AccProofs2 FormatModel MuxModel MuxSpec MuxProofs StreamModel StreamSpec.
Import ListNotations.
Local Open Scope nat_scope.

Section Reader.
Context {R : Type}.
Variable rd : reader R.
Variable src : list N.
Variable good : R -> Prop.
Variable tell : R -> nat.
Hypothesis Hrd : reader_ok rd src good tell.

(** what one call to [read] does to a half-filled buffer *)
Lemma fill_step : forall r buf nread p0, good r -> nread < length buf -> tell r = p0 + nread ->
  firstn nread buf = firstn nread (skipn p0 src) -> nread <= length src - p0 ->
  exists tail r' tail' res, slice buf nread (length buf) = Ret tail /\ rd r tail = Ret (r', tail', res) /\ good r' /\
    length (with_tail buf nread tail') = length buf /\
    match res with
    | Okay k => nread + k <= length buf /\ tell r' = p0 + (nread + k) /\ nread + k <= length src - p0 /\
        firstn (nread + k) (with_tail buf nread tail') = firstn (nread + k) (skipn p0 src) /\
        (k = 0 -> length src <= tell r')
    | Error _ => tell r' = p0 + nread /\ firstn nread (with_tail buf nread tail') = firstn nread (skipn p0 src)
    end.
Proof.
  intros r buf nread p0 Hg Hn Ht Hf Ha.
  exists (skipn nread buf). destruct (Hrd r (skipn nread buf) Hg) as [r' [tail' [res [E [Hg' Hr]]]]].
  exists r', tail', res. split; [rewrite slice_tail; destruct (Nat.leb_spec nread (length buf)); [reflexivity|lia]|].
  split; [exact E|]. split; [exact Hg'|]. destruct Hr as [Hl Hr]. rewrite skipn_length in Hl.
  assert (length (firstn nread buf) = nread) as Hfl by (rewrite firstn_length; lia).
  split; [unfold with_tail; rewrite app_length; lia|].
  destruct res as [k|e].
  - rewrite skipn_length in Hr. destruct Hr as [K1 [K2 [K3 [K4 K5]]]].
    split; [lia|]. split; [lia|]. split; [lia|]. split.
    + unfold with_tail. rewrite firstn_plus, firstn_app_exact by lia. rewrite skipn_app_exact by lia.
      rewrite Hf, K3, Ht, firstn_plus, skipn_skipn_plus. reflexivity.
    + intros Hk. destruct (K4 Hk); lia.
  - split; [lia|]. unfold with_tail. rewrite firstn_app_exact by lia. exact Hf.
Qed.

Lemma get_buffer_spec : forall fuel r buf nread p0, good r -> nread <= length buf -> tell r = p0 + nread ->
  firstn nread buf = firstn nread (skipn p0 src) -> nread <= length src - p0 ->
  exists r' buf' res, get_buffer rd fuel r buf nread = Ret (r', buf', res) /\ good r' /\
    match res with
    | Some (Okay _) => length buf <= length src - p0 /\ buf' = firstn (length buf) (skipn p0 src) /\ tell r' = p0 + length buf
    | Some (Error e) => (e = UnexpectedEof /\ length src - p0 < length buf /\ length src <= tell r') \/ fails_with rd good e
    | None => fuel + nread < length buf
    end.
Proof.
  induction fuel as [|fuel IH]; intros r buf nread p0 Hg Hn Ht Hf Ha; cbn [get_buffer];
    (destruct (Nat.ltb_spec nread (length buf)) as [Hlt|Hge];
     [|exists r, buf, (Some (Okay tt)); split; [reflexivity|]; split; [exact Hg|];
       assert (nread = length buf) as -> by lia; rewrite firstn_all in Hf; split; [lia|]; split; [exact Hf|exact Ht]]).
  - exists r, buf, None. split; [reflexivity|]. split; [exact Hg|]. cbn. exact Hlt.
  - destruct (fill_step r buf nread p0 Hg Hlt Ht Hf Ha) as [tail [r' [tail' [res [E1 [E2 [Hg' [Hl Hr]]]]]]]].
    rewrite E1. cbn [obind]. rewrite E2. cbn [obind]. destruct res as [[|k]|e].
    + eexists _, _, _. split; [reflexivity|]. split; [exact Hg'|]. left. destruct Hr as [_ [K1 [_ [_ K2]]]].
      specialize (K2 eq_refl). split; [reflexivity|]. split; [lia|exact K2].
    + destruct Hr as [K1 [K2 [K3 [K4 _]]]].
      destruct (IH r' (with_tail buf nread tail') (nread + S k) p0 Hg') as [r2 [buf2 [res2 [E3 [Hg2 H2]]]]];
        [rewrite Hl; exact K1|exact K2|exact K4|exact K3|].
      exists r2, buf2, res2. split; [exact E3|]. split; [exact Hg2|]. rewrite Hl in H2. destruct res2 as [[u|e]|]; [exact H2|exact H2|lia].
    + eexists _, _, _. split; [reflexivity|]. split; [exact Hg'|]. right. exists r, tail, r', tail'. split; assumption.
Qed.

Lemma read_exact_spec : forall fuel r buf nread p0, good r -> nread <= length buf -> tell r = p0 + nread ->
  firstn nread buf = firstn nread (skipn p0 src) -> nread <= length src - p0 ->
  exists r' buf' res, std_read_exact rd fuel r buf nread = Ret (r', buf', res) /\ good r' /\
    match res with
    | Some (Okay _) => length buf <= length src - p0 /\ buf' = firstn (length buf) (skipn p0 src) /\ tell r' = p0 + length buf
    | Some (Error e) => (e = UnexpectedEof /\ length src - p0 < length buf /\ length src <= tell r') \/ (e <> Interrupted /\ fails_with rd good e)
    | None => fuel + nread < length buf \/ fails_with rd good Interrupted
    end.
Proof.
  induction fuel as [|fuel IH]; intros r buf nread p0 Hg Hn Ht Hf Ha; cbn [std_read_exact];
    (destruct (Nat.ltb_spec nread (length buf)) as [Hlt|Hge];
     [|exists r, buf, (Some (Okay tt)); split; [reflexivity|]; split; [exact Hg|];
       assert (nread = length buf) as -> by lia; rewrite firstn_all in Hf; split; [lia|]; split; [exact Hf|exact Ht]]).
  - exists r, buf, None. split; [reflexivity|]. split; [exact Hg|]. left. cbn. exact Hlt.
  - destruct (fill_step r buf nread p0 Hg Hlt Ht Hf Ha) as [tail [r' [tail' [res [E1 [E2 [Hg' [Hl Hr]]]]]]]].
    rewrite E1. cbn [obind]. rewrite E2. cbn [obind]. destruct res as [[|k]|e].
    + eexists _, _, _. split; [reflexivity|]. split; [exact Hg'|]. left. destruct Hr as [_ [K1 [_ [_ K2]]]].
      specialize (K2 eq_refl). split; [reflexivity|]. split; [lia|exact K2].
    + destruct Hr as [K1 [K2 [K3 [K4 _]]]].
      destruct (IH r' (with_tail buf nread tail') (nread + S k) p0 Hg') as [r2 [buf2 [res2 [E3 [Hg2 H2]]]]];
        [rewrite Hl; exact K1|exact K2|exact K4|exact K3|].
      assert (Ht' : (S k <=? length tail) = true).
      { apply Nat.leb_le. unfold slice in E1. destruct ((nread <=? length buf) && (length buf <=? length buf)); [|discriminate E1].
        injection E1 as <-. rewrite firstn_length, skipn_length. lia. }
      rewrite Ht'. exists r2, buf2, res2. split; [exact E3|]. split; [exact Hg2|]. rewrite Hl in H2. destruct res2 as [[u|e]|]; [exact H2|exact H2|].
      destruct H2 as [H2|H2]; [left; lia|right; exact H2].
    + assert (fails_with rd good e) as Hfail by (exists r, tail, r', tail'; split; assumption).
      assert (e = Interrupted \/ e <> Interrupted) as [->|He] by (destruct e; auto; right; discriminate).
      * destruct Hr as [K1 K2].
        destruct (IH r' (with_tail buf nread tail') nread p0 Hg') as [r2 [buf2 [res2 [E3 [Hg2 H2]]]]];
          [rewrite Hl; exact Hn|exact K1|exact K2|exact Ha|].
        exists r2, buf2, res2. split; [exact E3|]. split; [exact Hg2|]. rewrite Hl in H2. destruct res2 as [[u|e]|]; [exact H2|exact H2|].
        right. exact Hfail.
      * exists r', (with_tail buf nread tail'), (Some (Error e)). split; [destruct e; [contradiction|reflexivity..]|].
        split; [exact Hg'|]. right. split; assumption.
Qed.

Lemma get_packet_spec : forall fuel r len, good r ->
  exists r' res, get_packet rd fuel r len = Ret (r', res) /\ good r' /\
    match res with
    | Some (Okay pkt) => len <= length src - tell r /\ tell r' = tell r + len /\
        pkt = mk_packet (firstn len (skipn (tell r) src)) None (-1) default_time false false
    | Some (Error e) => (e = UnexpectedEof /\ length src - tell r < len /\ length src <= tell r') \/ (e <> Interrupted /\ fails_with rd good e)
    | None => fuel < len \/ fails_with rd good Interrupted
    end.
Proof.
  intros fuel r len Hg. unfold get_packet. cbn [packet_zeroed p_data p_pos p_stream_index p_t p_key p_corrupted].
  destruct (read_exact_spec fuel r (repeat 0%N len) 0 (tell r) Hg) as [r' [buf' [res [E [Hg' H]]]]]; [lia|lia|reflexivity|lia|].
  rewrite E. cbn [obind]. rewrite repeat_length in H. destruct res as [[u|e]|]; eexists _, _; (split; [reflexivity|]); (split; [exact Hg'|]).
  - destruct H as [K1 [K2 K3]]. rewrite K2. split; [exact K1|]. split; [exact K3|reflexivity].
  - exact H.
  - destruct H as [H|H]; [left; lia|right; exact H].
Qed.

End Reader.

Lemma bytes_window : forall k p src, bytes src -> bytes (firstn k (skipn p src)).
Proof. intros. apply bytes_firstn, bytes_skipn. assumption. Qed.

Lemma window_length : forall k p (src : list N), k <= length src - p -> length (firstn k (skipn p src)) = k.
Proof. intros. rewrite firstn_length, skipn_length. lia. Qed.

(** ** From getters on slices to getters on streams *)

Definition decodes {V : Type} (k : nat) (val : list N -> V -> Prop) (get : list N -> outcome V) : Prop :=
  forall buf, bytes buf -> k <= length buf -> exists v, get buf = Ret v /\ val (firstn k buf) v.

Lemma reads_of : forall (V : Type) k (val : list N -> V -> Prop) get,
  decodes k val get -> reads_value k val (fun R rd fuel r => stream_get k get rd fuel r).
Proof.
  intros V k val get Hd R rd src good tell Hrd Hb fuel r Hg. unfold stream_get.
  destruct (get_buffer_spec rd src good tell Hrd fuel r (repeat 0%N k) 0 (tell r) Hg) as [r' [buf' [res [E [Hg' H]]]]]; [lia|lia|reflexivity|lia|].
  rewrite E. cbn [obind]. rewrite repeat_length in H. destruct res as [[u|e]|].
  - destruct H as [K1 [K2 K3]]. assert (length buf' = k) as Hl by (rewrite K2; apply window_length; exact K1).
    destruct (Hd buf') as [v [Ev Hv]]; [rewrite K2; apply bytes_window; exact Hb|lia|].
    rewrite Ev. cbn [obind]. eexists _, _. split; [reflexivity|]. split; [exact Hg'|]. split; [exact K1|]. split; [|exact K3].
    rewrite firstn_all2 in Hv by lia. rewrite <- K2. exact Hv.
  - eexists _, _. split; [reflexivity|]. split; [exact Hg'|]. exact H.
  - eexists _, _. split; [reflexivity|]. split; [exact Hg'|]. lia.
Qed.

Lemma prefix_of_prefix : forall (d src : list N) k p, d = firstn (length d) (skipn p src) -> k <= length d ->
  k <= length src - p /\ firstn k d = firstn k (skipn p src).
Proof.
  intros d src k p Hd Hk. assert (length d <= length src - p) as Hl.
  { rewrite Hd at 1. rewrite firstn_length, skipn_length. lia. }
  split; [lia|]. rewrite Hd. apply firstn_firstn_le. exact Hk.
Qed.

Lemma bytes_prefix : forall (d src : list N) p, bytes src -> d = firstn (length d) (skipn p src) -> bytes d.
Proof. intros d src p Hb ->. apply bytes_window. exact Hb. Qed.

Lemma peeks_of : forall (V : Type) k (val : list N -> V -> Prop) get,
  decodes k val get -> peeks_value k val (fun R fl r => stream_peek k get fl r).
Proof.
  intros V k val get Hd R fl src good tell Hfl Hb r Hg. unfold stream_peek.
  destruct (Hfl r Hg) as [r' [res [E [Hg' [Ht H]]]]]. rewrite E. cbn [obind]. destruct res as [d|e].
  - destruct (Nat.ltb_spec (length d) k) as [Hlt|Hge].
    + eexists _, _. split; [reflexivity|]. split; [exact Hg'|]. split; [exact Ht|]. left. split; [reflexivity|]. exists d. split; [reflexivity|exact Hlt].
    + destruct (Hd d (bytes_prefix d src _ Hb H) Hge) as [v [Ev Hv]]. rewrite Ev. cbn [obind].
      eexists _, _. split; [reflexivity|]. split; [exact Hg'|]. split; [exact Ht|].
      destruct (prefix_of_prefix d src k (tell r) H Hge) as [K1 K2]. rewrite <- K2. split; assumption.
  - eexists _, _. split; [reflexivity|]. split; [exact Hg'|]. split; [exact Ht|]. right. reflexivity.
Qed.

(** ** AccReader is a reader and a buffered reader *)

Section AccInstance.
Context {R : Type}.
Variable i : io R.
Variable src : list N.
Variable good : R -> Prop.
Variable tell : R -> nat.
Hypothesis Hsrc : source_ok i src good tell.

Definition acc_good (a : acc R) : Prop := rep src good tell a (aindex a).

Lemma rep_good : forall a p, rep src good tell a p -> acc_good a /\ aindex a = p.
Proof. intros a p H. pose proof (rp_index _ _ _ _ _ H) as <-. split; [exact H|reflexivity]. Qed.

Lemma acc_reader_ok : reader_ok (read i) src acc_good aindex.
Proof.
  intros a dst Hg. destruct (read_rep i src good tell Hsrc a (aindex a) dst Hg) as [a' [dst' [res [p' [E [H [Hr _]]]]]]].
  destruct (rep_good _ _ H) as [Hg' <-]. exists a', dst', res. split; [exact E|]. split; [exact Hg'|exact Hr].
Qed.

Lemma acc_filler_ok : filler_ok (fill_buf i) src acc_good aindex.
Proof.
  intros a Hg. destruct (fill_rep i src good tell Hsrc a (aindex a) Hg) as [a' [res [E [H [_ Hr]]]]].
  destruct (rep_good _ _ H) as [Hg' Ht]. exists a', res. split; [exact E|]. split; [exact Hg'|]. split; [exact Ht|].
  destruct res as [d|e]; [|exact I]. destruct Hr as [Hd _].
  assert (d = firstn (buffered a') (skipn (aindex a) src)) as ->.
  { rewrite (data_rep src good tell a' (aindex a) H) in Hd. congruence. }
  rewrite (data_length src good tell a' (aindex a) H). reflexivity.
Qed.

Lemma io_reader_ok : reader_ok (io_reader i) src good tell.
Proof.
  intros r dst Hg. unfold io_reader. destruct (io_read i r dst) as [[r' dst'] res] eqn:E.
  destruct (so_read i src good tell Hsrc r dst r' dst' res Hg E) as [K1 K2].
  exists r', dst', res. split; [reflexivity|]. split; assumption.
Qed.

Lemma acc_never_fails : never_fails i src good tell -> forall e, ~ fails_with (read i) acc_good e.
Proof.
  intros Hnf e [a [dst [a' [dst' [Hg E]]]]]. unfold acc_good in Hg. pose proof (rp_pos _ _ _ _ _ Hg) as H1.
  unfold read in E. rewrite csub_ok in E by exact H1. cbn [obind] in E.
  destruct (Nat.ltb_spec (length dst) (aend a - apos a)).
  - rewrite slice_ok in E by (pose proof (rp_end _ _ _ _ _ Hg); lia). cbn [obind] in E. destruct (slice_read _ dst); discriminate.
  - destruct (Nat.ltb_spec (length (abuf a)) (length dst)).
    + rewrite slice_ok in E by (pose proof (rp_end _ _ _ _ _ Hg); lia). cbn [obind] in E.
      destruct (slice_read _ dst) as [dst1 len]. destruct (slice dst1 _ _) as [tail| |]; try discriminate. cbn [obind] in E.
      destruct (io_read i (inner a) tail) as [[r' tail'] res] eqn:Er.
      destruct (proj1 Hnf _ _ _ _ _ (rp_good _ _ _ _ _ Hg) Er) as [k ->].
      destruct (reset_buffer_position _); discriminate.
    + destruct (fill_never_fails i src good tell Hsrc Hnf a (aindex a) Hg) as [a1 [d [Ef _]]]. rewrite Ef in E. cbn [obind] in E.
      destruct (slice_read d dst); discriminate.
Qed.

End AccInstance.

Lemma peek_get_of : forall (V : Type) k (val : list N -> V -> Prop) get,
  decodes k val get -> (forall buf, k <= length buf -> get buf = get (firstn k buf)) -> 0 < k ->
  peek_then_get k (fun R rd fuel r => stream_get k get rd fuel r) (fun R fl r => stream_peek k get fl r).
Proof.
  intros V k val get Hd Hfirst Hk R i src good tell cap r0 ops a outs a1 v Hsrc Hnf Hb Hg Ht Hl Er Ep.
  destruct (reached i src good tell Hsrc cap r0 ops a outs Hg Ht Hl Er) as [p [Hrep _]].
  destruct (rep_good src good tell a p Hrep) as [Hga Hi].
  unfold stream_peek in Ep. destruct (acc_filler_ok i src good tell Hsrc a Hga) as [a1' [res [Ef [Hg1 [Ht1 H]]]]].
  rewrite Ef in Ep. cbn [obind] in Ep. destruct res as [d|e]; [|discriminate].
  destruct (Nat.ltb_spec (length d) k); [discriminate|]. destruct (get d) as [v'| |] eqn:Ev; try discriminate. cbn [obind] in Ep.
  assert (a1' = a1) as -> by congruence. assert (v' = v) as -> by congruence.
  destruct (prefix_of_prefix d src k (aindex a) H) as [K1 K2]; [assumption|].
  unfold stream_get.
  destruct (get_buffer_spec (read i) src (acc_good src good tell) aindex (acc_reader_ok i src good tell Hsrc) k a1 (repeat 0%N k) 0 (aindex a) Hg1)
    as [a2 [buf' [res [E2 [Hg2 H2]]]]]; [lia|lia|reflexivity|lia|].
  rewrite E2. cbn [obind]. rewrite repeat_length in H2. destruct res as [[u|e]|].
  - destruct H2 as [_ [J2 J3]]. rewrite Hfirst in Ev by assumption. rewrite K2, <- J2 in Ev. rewrite Ev. cbn [obind].
    exists a2, p. split; [reflexivity|].
    assert (forall b q, rep src good tell b q -> seek i b (Current 0) = Ret (b, Okay q)) as Hseek.
    { intros b q Hb'. cbn [seek]. rewrite csub_ok by apply Hb'. cbn [obind].
      change (0 <=? 0)%Z with true. change (Z.to_nat 0) with 0. cbn [Nat.leb]. pose proof (rp_index _ _ _ _ _ Hb') as Hq.
      destruct b as [b1 b2 b3 b4 b5]; cbn in *. rewrite !Nat.add_0_r. subst. reflexivity. }
    split; [apply Hseek; exact Hrep|]. split; [apply Hseek; rewrite <- Hi, <- Ht1; exact Hg1|].
    apply Hseek. rewrite <- Hi, <- J3. exact Hg2.
  - exfalso. destruct H2 as [[_ [H2 _]]|H2]; [lia|]. exact (acc_never_fails i src good tell Hsrc Hnf e H2).
  - lia.
Qed.

(** ** The getters of byteread.rs *)

Lemma unsigned_decodes : forall number k get, getter_spec number k get -> decodes k number get.
Proof. intros number k get H buf Hb Hk. apply (H buf Hb). exact Hk. Qed.

Lemma signed_decodes : forall number k w getu geti, getter_spec number k getu -> signed_getter_spec w k getu geti ->
  decodes k (signed_number number w) geti.
Proof.
  intros number k w getu geti Hu Hi buf Hb Hk. destruct (proj2 (Hu buf Hb) Hk) as [u [Eu Hn]].
  destruct (proj2 (Hi buf Hb) Hk) as [u' [v [Eu' [Ev [Hr Hq]]]]]. assert (u' = u) as -> by congruence.
  exists v. split; [exact Ev|]. exists u. split; [exact Hn|]. split; [exact Hr|exact Hq].
Qed.

Lemma gen_first : forall f k buf, k <= length buf -> get_gen f k buf = get_gen f k (firstn k buf).
Proof.
  intros f k buf H. unfold get_gen. rewrite firstn_length, firstn_firstn, Nat.min_id.
  destruct (Nat.leb_spec k (length buf)); [|lia]. destruct (Nat.leb_spec k (Nat.min k (length buf))); [reflexivity|lia].
Qed.

Lemma first_of : forall f k (get : list N -> outcome N), (forall buf, get buf = get_gen f k buf) -> forall buf, k <= length buf -> get buf = get (firstn k buf).
Proof. intros f k get H buf Hl. rewrite !H. apply gen_first. exact Hl. Qed.

Lemma first_signed : forall k (getu : list N -> outcome N) (geti : list N -> outcome Z) w, (forall buf, k <= length buf -> getu buf = getu (firstn k buf)) ->
  (forall buf, geti buf = let! v := getu buf in Ret (as_signed w v)) -> forall buf, k <= length buf -> geti buf = geti (firstn k buf).
Proof. intros k getu geti w Hu Hi buf Hl. rewrite !Hi, (Hu buf Hl). reflexivity. Qed.

Ltac pick := first
  [ apply unsigned_decodes; apply all_getters
  | eapply signed_decodes; [|apply all_signed_getters]; apply all_getters ].
Ltac reads_one := apply (reads_of _ _ _ _); pick.

Lemma stream_getters :
  reads_value 1 le_number (@sget_u8) /\
  reads_value 1 (signed_number le_number 8) (@sget_i8) /\
  reads_value 2 le_number (@sget_u16l) /\
  reads_value 2 (signed_number le_number 16) (@sget_i16l) /\
  reads_value 4 le_number (@sget_u32l) /\
  reads_value 4 (signed_number le_number 32) (@sget_i32l) /\
  reads_value 8 le_number (@sget_u64l) /\
  reads_value 8 (signed_number le_number 64) (@sget_i64l) /\
  reads_value 4 le_number (@sget_f32l) /\
  reads_value 8 le_number (@sget_f64l) /\
  reads_value 2 be_number (@sget_u16b) /\
  reads_value 2 (signed_number be_number 16) (@sget_i16b) /\
  reads_value 4 be_number (@sget_u32b) /\
  reads_value 4 (signed_number be_number 32) (@sget_i32b) /\
  reads_value 8 be_number (@sget_u64b) /\
  reads_value 8 (signed_number be_number 64) (@sget_i64b) /\
  reads_value 4 be_number (@sget_f32b) /\
  reads_value 8 be_number (@sget_f64b).
Proof. repeat (apply conj; [reads_one|]). reads_one. Qed.

Ltac peeks_one := apply (peeks_of _ _ _ _); pick.
Lemma stream_peekers :
  peeks_value 1 le_number (@speek_u8) /\
  peeks_value 1 (signed_number le_number 8) (@speek_i8) /\
  peeks_value 2 le_number (@speek_u16l) /\
  peeks_value 2 (signed_number le_number 16) (@speek_i16l) /\
  peeks_value 4 le_number (@speek_u32l) /\
  peeks_value 4 (signed_number le_number 32) (@speek_i32l) /\
  peeks_value 8 le_number (@speek_u64l) /\
  peeks_value 8 (signed_number le_number 64) (@speek_i64l) /\
  peeks_value 4 le_number (@speek_f32l) /\
  peeks_value 8 le_number (@speek_f64l) /\
  peeks_value 2 be_number (@speek_u16b) /\
  peeks_value 2 (signed_number be_number 16) (@speek_i16b) /\
  peeks_value 4 be_number (@speek_u32b) /\
  peeks_value 4 (signed_number be_number 32) (@speek_i32b) /\
  peeks_value 8 be_number (@speek_u64b) /\
  peeks_value 8 (signed_number be_number 64) (@speek_i64b) /\
  peeks_value 4 be_number (@speek_f32b) /\
  peeks_value 8 be_number (@speek_f64b).
Proof. repeat (apply conj; [peeks_one|]). peeks_one. Qed.

Lemma get_i8_first : forall buf, 1 <= length buf -> get_i8 buf = get_i8 (firstn 1 buf).
Proof. intros [|b buf] H; [cbn in H; lia|reflexivity]. Qed.

Lemma stream_peek_then_get :
  peek_then_get 1 (@sget_u8) (@speek_u8) /\
  peek_then_get 1 (@sget_i8) (@speek_i8) /\
  peek_then_get 2 (@sget_u16l) (@speek_u16l) /\
  peek_then_get 2 (@sget_i16l) (@speek_i16l) /\
  peek_then_get 4 (@sget_u32l) (@speek_u32l) /\
  peek_then_get 4 (@sget_i32l) (@speek_i32l) /\
  peek_then_get 8 (@sget_u64l) (@speek_u64l) /\
  peek_then_get 8 (@sget_i64l) (@speek_i64l) /\
  peek_then_get 4 (@sget_f32l) (@speek_f32l) /\
  peek_then_get 8 (@sget_f64l) (@speek_f64l) /\
  peek_then_get 2 (@sget_u16b) (@speek_u16b) /\
  peek_then_get 2 (@sget_i16b) (@speek_i16b) /\
  peek_then_get 4 (@sget_u32b) (@speek_u32b) /\
  peek_then_get 4 (@sget_i32b) (@speek_i32b) /\
  peek_then_get 8 (@sget_u64b) (@speek_u64b) /\
  peek_then_get 8 (@sget_i64b) (@speek_i64b) /\
  peek_then_get 4 (@sget_f32b) (@speek_f32b) /\
  peek_then_get 8 (@sget_f64b) (@speek_f64b).
Proof.
  apply conj; [apply (peek_get_of _ 1 le_number get_u8); [pick|exact (first_of _ _ _ get_u8_eq)|lia]|].
  apply conj; [apply (peek_get_of _ 1 (signed_number le_number 8) get_i8); [pick|exact get_i8_first|lia]|].
  apply conj; [apply (peek_get_of _ 2 le_number get_u16l); [pick|exact (first_of _ _ _ get_u16l_eq)|lia]|].
  apply conj; [apply (peek_get_of _ 2 (signed_number le_number 16) get_i16l); [pick|apply (first_signed 2 get_u16l get_i16l 16%N); [exact (first_of _ _ _ get_u16l_eq)|reflexivity]|lia]|].
  apply conj; [apply (peek_get_of _ 4 le_number get_u32l); [pick|exact (first_of _ _ _ get_u32l_eq)|lia]|].
  apply conj; [apply (peek_get_of _ 4 (signed_number le_number 32) get_i32l); [pick|apply (first_signed 4 get_u32l get_i32l 32%N); [exact (first_of _ _ _ get_u32l_eq)|reflexivity]|lia]|].
  apply conj; [apply (peek_get_of _ 8 le_number get_u64l); [pick|exact (first_of _ _ _ get_u64l_eq)|lia]|].
  apply conj; [apply (peek_get_of _ 8 (signed_number le_number 64) get_i64l); [pick|apply (first_signed 8 get_u64l get_i64l 64%N); [exact (first_of _ _ _ get_u64l_eq)|reflexivity]|lia]|].
  apply conj; [apply (peek_get_of _ 4 le_number get_f32l); [pick|exact (first_of _ _ _ get_u32l_eq)|lia]|].
  apply conj; [apply (peek_get_of _ 8 le_number get_f64l); [pick|exact (first_of _ _ _ get_u64l_eq)|lia]|].
  apply conj; [apply (peek_get_of _ 2 be_number get_u16b); [pick|exact (first_of _ _ _ get_u16b_eq)|lia]|].
  apply conj; [apply (peek_get_of _ 2 (signed_number be_number 16) get_i16b); [pick|apply (first_signed 2 get_u16b get_i16b 16%N); [exact (first_of _ _ _ get_u16b_eq)|reflexivity]|lia]|].
  apply conj; [apply (peek_get_of _ 4 be_number get_u32b); [pick|exact (first_of _ _ _ get_u32b_eq)|lia]|].
  apply conj; [apply (peek_get_of _ 4 (signed_number be_number 32) get_i32b); [pick|apply (first_signed 4 get_u32b get_i32b 32%N); [exact (first_of _ _ _ get_u32b_eq)|reflexivity]|lia]|].
  apply conj; [apply (peek_get_of _ 8 be_number get_u64b); [pick|exact (first_of _ _ _ get_u64b_eq)|lia]|].
  apply conj; [apply (peek_get_of _ 8 (signed_number be_number 64) get_i64b); [pick|apply (first_signed 8 get_u64b get_i64b 64%N); [exact (first_of _ _ _ get_u64b_eq)|reflexivity]|lia]|].
  apply conj; [apply (peek_get_of _ 4 be_number get_f32b); [pick|exact (first_of _ _ _ get_u32b_eq)|lia]|].
  apply (peek_get_of _ 8 be_number get_f64b); [pick|exact (first_of _ _ _ get_u64b_eq)|lia].
Qed.

(** ** Packets *)

Lemma overwrite_length_prefix : forall l p, length (firstn p (l ++ repeat 0%N (p - length l))) = p.
Proof. intros l p. rewrite firstn_length, app_length, repeat_length. lia. Qed.

Lemma overwrite_app : forall l p a b, overwrite (overwrite l p a) (p + length a) b = overwrite l p (a ++ b).
Proof.
  intros l p a b. unfold overwrite at 1 3.
  set (L := firstn p (l ++ repeat 0%N (p - length l))).
  assert (length L = p) as HL by apply overwrite_length_prefix.
  assert (overwrite l p a = (L ++ a) ++ skipn (p + length a) l) as E by (unfold overwrite; fold L; rewrite app_assoc; reflexivity).
  rewrite E. assert (length (L ++ a) = p + length a) as HLa by (rewrite app_length; lia).
  rewrite <- (app_assoc (L ++ a)). rewrite firstn_app_exact by lia.
  rewrite skipn_app, HLa, skipn_all2 by lia. cbn [app].
  replace (p + length a + length b - (p + length a)) with (length b) by lia.
  rewrite skipn_skipn_plus, app_length, <- !app_assoc, Nat.add_assoc. reflexivity.
Qed.

Lemma overwrite_nil : forall l p, p <= length l -> overwrite l p [] = l.
Proof.
  intros l p H. unfold overwrite. replace (p - length l) with 0 by lia. cbn [repeat length app].
  rewrite app_nil_r, Nat.add_0_r. apply firstn_skipn.
Qed.

Lemma overwrite_window : forall l p b, firstn (length b) (skipn p (overwrite l p b)) = b.
Proof.
  intros l p b. unfold overwrite. rewrite skipn_app_exact by (rewrite overwrite_length_prefix; reflexivity).
  apply firstn_app_exact. reflexivity.
Qed.

Lemma overwrite_size : forall l p b, length b <= length (overwrite l p b) - p.
Proof. intros l p b. unfold overwrite. rewrite !app_length, overwrite_length_prefix. lia. Qed.

Section Packets.
Context {W : Type}.
Variable s : sink W.
Variable good : W -> Prop.
Variable content : W -> list N.
Variable tell : W -> nat.
Hypothesis Hs : stores s good content tell.

Lemma write_all_stores : forall fuel w buf w', good w -> buf <> [] -> write_all s fuel w buf = Ret (w', Some (Okay tt)) ->
  good w' /\ content w' = overwrite (content w) (tell w) buf /\ tell w' = tell w + length buf.
Proof.
  induction fuel as [|fuel IH]; intros w buf w' Hg Hb E; (destruct buf as [|x buf]; [contradiction|]); cbn [write_all] in E; [discriminate|].
  destruct (sk_write s w (x :: buf)) as [w1 res] eqn:E1. destruct (Hs w (x :: buf) w1 res Hg E1) as [Hg1 H1].
  destruct res as [[|n]|e].
  - discriminate.
  - rewrite slice_tail in E. destruct (Nat.leb_spec (S n) (length (x :: buf))) as [Hle|]; [|discriminate]. cbn [obind] in E.
    destruct H1 as [_ [H1 H2]]. set (b := x :: buf) in *.
    assert (length (firstn (S n) b) = S n) as Hfl by (rewrite firstn_length; lia).
    destruct (skipn (S n) b) as [|y rest] eqn:Es.
    + assert (w' = w1) as -> by (destruct fuel; cbn [write_all] in E; congruence).
      assert (length b = S n) as Hlen. { pose proof (skipn_length (S n) b) as Hsl. rewrite Es in Hsl. cbn [length] in Hsl. lia. }
      split; [exact Hg1|]. rewrite H1, H2, Hlen. rewrite firstn_all2 by lia. split; reflexivity.
    + destruct (IH w1 (y :: rest) w' Hg1 ltac:(discriminate) E) as [Hg2 [H3 H4]]. split; [exact Hg2|].
      rewrite H3, H1, H2. replace (tell w + S n) with (tell w + length (firstn (S n) b)) by lia. rewrite overwrite_app, <- Es, firstn_skipn.
      split; [reflexivity|]. rewrite H4, <- Es, skipn_length. lia.
  - destruct e; try discriminate. destruct H1 as [H1 H2]. destruct (IH w1 (x :: buf) w' Hg1 ltac:(discriminate) E) as [Hg2 [H3 H4]].
    split; [exact Hg2|]. rewrite H3, H4, H1, H2. split; reflexivity.
Qed.

Lemma put_packet_stores : forall fuel w pkt w', good w -> put_packet s fuel w pkt = Ret (w', Some (Okay tt)) ->
  good w' /\ tell w' = tell w + length (p_data pkt) /\
  (p_data pkt <> [] -> content w' = overwrite (content w) (tell w) (p_data pkt)) /\ (p_data pkt = [] -> content w' = content w).
Proof.
  intros fuel w pkt w' Hg E. unfold put_packet in E. destruct (p_data pkt) as [|x buf] eqn:Ed.
  - assert (w' = w) as -> by (destruct fuel; cbn [write_all] in E; congruence). cbn [length]. rewrite Nat.add_0_r.
    split; [exact Hg|]. split; [reflexivity|]. split; [contradiction|reflexivity].
  - destruct (write_all_stores fuel w (x :: buf) w' Hg ltac:(discriminate) E) as [H1 [H2 H3]].
    split; [exact H1|]. split; [exact H3|]. split; [intros _; exact H2|discriminate].
Qed.

Lemma packet_round_trip : forall fuel w pkt w', good w -> put_packet s fuel w pkt = Ret (w', Some (Okay tt)) ->
  forall (R : Type) (rd : reader R) goodr tellr fuel' r r' res, reader_ok rd (content w') goodr tellr -> goodr r -> tellr r = tell w ->
  get_packet rd fuel' r (length (p_data pkt)) = Ret (r', Some res) ->
  (res = Okay (mk_packet (p_data pkt) None (-1) default_time false false) /\ tellr r' = tell w' ) \/
  (exists e, res = Error e /\ e <> Interrupted /\ fails_with rd goodr e).
Proof.
  intros fuel w pkt w' Hg E R rd goodr tellr fuel' r r' res Hrd Hr Ht Eg.
  destruct (put_packet_stores fuel w pkt w' Hg E) as [_ [K1 [K2 _]]].
  destruct (get_packet_spec rd (content w') goodr tellr Hrd fuel' r (length (p_data pkt)) Hr) as [r2 [res2 [E2 [_ H2]]]].
  rewrite E2 in Eg. assert (r2 = r') as -> by congruence. assert (res2 = Some res) as -> by congruence. clear Eg.
  assert (p_data pkt = [] \/ p_data pkt <> []) as [Hnil|Hne] by (destruct (p_data pkt); [left; reflexivity|right; discriminate]).
  - destruct res as [q|e].
    + left. destruct H2 as [_ [J2 ->]]. rewrite Hnil in *. cbn [length] in *. rewrite K1. split; [reflexivity|lia].
    + right. exists e. split; [reflexivity|]. destruct H2 as [[_ [H2 _]]|H2]; [rewrite Hnil in H2; cbn in H2; lia|exact H2].
  - specialize (K2 Hne). destruct res as [q|e].
    + left. destruct H2 as [_ [J2 ->]]. rewrite Ht, K2, overwrite_window. split; [reflexivity|lia].
    + right. exists e. split; [reflexivity|]. destruct H2 as [[_ [H2 _]]|H2]; [|exact H2]. exfalso.
      pose proof (overwrite_size (content w) (tell w) (p_data pkt)). rewrite K2, Ht in H2. lia.
Qed.

End Packets.

Lemma file_stores : stores file_sink (fun _ => True) f_data f_pos.
Proof.
  intros w buf w' res _ E. cbn [file_sink sk_write] in E. unfold file_write in E. split; [exact I|].
  destruct (f_script w) as [|[n|e] rest]; inversion E; subst; cbn [f_pos f_data].
  - split; [lia|]. split; reflexivity.
  - split; [lia|]. split; reflexivity.
  - split; reflexivity.
Qed.

(** ** Repeated peeks *)

Lemma rep_position : forall (R : Type) (i : io R) src good tell a p, rep src good tell a p -> seek i a (Current 0) = Ret (a, Okay p).
Proof.
  intros R i src good tell a p H. cbn [seek]. rewrite csub_ok by apply H. cbn [obind].
  change (0 <=? 0)%Z with true. change (Z.to_nat 0) with 0. cbn [Nat.leb]. pose proof (rp_index _ _ _ _ _ H) as Hq.
  destruct a as [b1 b2 b3 b4 b5]; cbn in *. rewrite !Nat.add_0_r. subst. reflexivity.
Qed.

Lemma peek_retry_of : forall (V : Type) k (val : list N -> V -> Prop) get,
  decodes k val get -> 0 < k -> peek_succeeds k val (fun R fl r => stream_peek k get fl r).
Proof.
  intros V k val get Hd Hk R i src good tell cap r0 ops a outs p Hsrc Hnf Hb Hg Ht Hl Er Hcap Hp Hlen.
  destruct (reached i src good tell Hsrc cap r0 ops a outs Hg Ht Hl Er) as [p' [Hrep _]].
  pose proof (rep_position R i src good tell a p' Hrep) as Hp'. assert (p' = p) as -> by congruence. clear Hp'.
  pose proof (run_size i src good tell Hsrc ops _ 0 a outs (new_rep src good tell cap r0 Hg Ht) Hl Er) as Hsz.
  cbn [with_capacity abuf] in Hsz. rewrite repeat_length in Hsz.
  assert (forall n b, n <= k -> rep src good tell b p -> k <= length (abuf b) -> 0 < n -> k <= buffered b + n ->
    exists a' v, peek_retry n (fun r => stream_peek k get (fill_buf i) r) b = Ret (a', Okay v) /\ val (firstn k (skipn p src)) v /\
      seek i a' (Current 0) = Ret (a', Okay p)) as Hmain.
  { induction n as [|n IH]; intros b Hn Hrb Hsb Hpos Hbuf; [lia|]. cbn [peek_retry].
    destruct (fill_rep i src good tell Hsrc b p Hrb) as [b' [res [Ef [Hrb' [Hsb' Hres]]]]].
    destruct (fill_never_fails i src good tell Hsrc Hnf b p Hrb) as [b2 [d [Ef2 _]]].
    rewrite Ef in Ef2. assert (b2 = b') as -> by congruence. assert (res = Okay d) as -> by congruence. clear Ef2.
    destruct Hres as [Hdata [Hgrow Hsame]].
    assert (d = firstn (buffered b') (skipn p src)) as Ed.
    { rewrite (data_rep src good tell b' p Hrb') in Hdata. congruence. }
    assert (length d = buffered b') as Eld by (rewrite Ed; apply (data_length src good tell); exact Hrb').
    unfold stream_peek at 1. rewrite Ef. cbn [obind]. destruct (Nat.ltb_spec (length d) k) as [Hlt|Hge].
    - cbn [obind]. apply IH; [lia|exact Hrb'|lia| |].
      + assert (buffered b' <> buffered b) as Hne by (intros Heq; destruct (Hsame Heq); lia). lia.
      + assert (buffered b' <> buffered b) as Hne by (intros Heq; destruct (Hsame Heq); lia). lia.
    - assert (d = firstn (length d) (skipn p src)) as Ed' by (rewrite Eld; exact Ed).
      destruct (Hd d (bytes_prefix d src p Hb Ed') Hge) as [v [Ev Hv]]. rewrite Ev. cbn [obind].
      exists b', v. split; [reflexivity|]. split; [|apply (rep_position R i src good tell); exact Hrb'].
      destruct (prefix_of_prefix d src k p Ed' Hge) as [_ K2]. rewrite <- K2. exact Hv. }
  apply Hmain; [lia|exact Hrep|lia|lia|lia].
Qed.

Ltac retries_one := apply (peek_retry_of _ _ _ _); [pick|lia].
Lemma stream_peeks_succeed :
  peek_succeeds 1 le_number (@speek_u8) /\
  peek_succeeds 1 (signed_number le_number 8) (@speek_i8) /\
  peek_succeeds 2 le_number (@speek_u16l) /\
  peek_succeeds 2 (signed_number le_number 16) (@speek_i16l) /\
  peek_succeeds 4 le_number (@speek_u32l) /\
  peek_succeeds 4 (signed_number le_number 32) (@speek_i32l) /\
  peek_succeeds 8 le_number (@speek_u64l) /\
  peek_succeeds 8 (signed_number le_number 64) (@speek_i64l) /\
  peek_succeeds 4 le_number (@speek_f32l) /\
  peek_succeeds 8 le_number (@speek_f64l) /\
  peek_succeeds 2 be_number (@speek_u16b) /\
  peek_succeeds 2 (signed_number be_number 16) (@speek_i16b) /\
  peek_succeeds 4 be_number (@speek_u32b) /\
  peek_succeeds 4 (signed_number be_number 32) (@speek_i32b) /\
  peek_succeeds 8 be_number (@speek_u64b) /\
  peek_succeeds 8 (signed_number be_number 64) (@speek_i64b) /\
  peek_succeeds 4 be_number (@speek_f32b) /\
  peek_succeeds 8 be_number (@speek_f64b).
Proof. repeat (apply conj; [retries_one|]). retries_one. Qed.
