(** Proofs for C195. *)
From Coq Require Import List Arith NArith ZArith Bool Lia.
From Coq Require Import ZifyBool ZifyNat ZifyN.
From Verif Require Import Base ByteModel ByteSpec ByteProofs BitModel BitSpec BitProofs BitProofs2 FieldSpec.
Import ListNotations.
Local Open Scope nat_scope.

Definition from_bytes (e : endian) (l : list N) : N := match e with LE => from_le_bytes l | BE => from_be_bytes l end.

Lemma skipn2 : forall (A : Type) a b (l : list A), skipn a (skipn b l) = skipn (b + a) l.
Proof.
  intros A a. induction b as [|b IH]; intros l; [reflexivity|]. destruct l as [|x l]; [rewrite !skipn_nil; reflexivity|]. exact (IH l).
Qed.

Lemma get_field_eq : forall e s buf, get_field e s buf = get_gen (from_bytes e) (count s) buf.
Proof.
  intros [] [] buf; cbn [get_field count from_bytes]; try (apply get_u16l_eq || apply get_u32l_eq || apply get_u64l_eq || apply get_u16b_eq || apply get_u32b_eq || apply get_u64b_eq || apply get_u8_eq).
  rewrite get_u8_eq. unfold get_gen. destruct buf as [|b buf]; [reflexivity|]. cbn. unfold from_be_bytes, from_le_bytes. cbn. destruct b; reflexivity.
Qed.

Lemma put_field_spec : forall e s, put_get_spec (unsigned_range (8 * N.of_nat (count s))) (count s) (put_field e s) (get_field e s).
Proof.
  intros e s. destruct all_put_get as [P1 [P2 [P3 [P4 [P5 [P6 [P7 _]]]]]]]. destruct s, e; assumption.
Qed.

Lemma from_bytes_value : forall e l, bytes l -> from_bytes e l = value e (bits_of e l).
Proof. intros [] l H; [exact (from_le_value l H)|exact (from_be_value l H)]. Qed.

Lemma bits_skipn : forall e o buf, bits_of e (skipn o buf) = skipn (8 * o) (bits_of e buf).
Proof.
  intros e. induction o as [|o IH]; intros buf; [reflexivity|]. destruct buf as [|b buf]; [rewrite skipn_nil; reflexivity|]. cbn [skipn].
  rewrite IH. unfold bits_of. cbn [flat_map]. replace (8 * S o) with (8 + 8 * o) by lia.
  rewrite skipn_app, byte_bits_length. replace (8 + 8 * o - 8) with (8 * o) by lia. rewrite (skipn_all2 (byte_bits e b)) by (rewrite byte_bits_length; lia). reflexivity.
Qed.

Lemma bits_firstn : forall e o buf, bits_of e (firstn o buf) = firstn (8 * o) (bits_of e buf).
Proof.
  intros e. induction o as [|o IH]; intros buf; [reflexivity|]. destruct buf as [|b buf]; [rewrite firstn_nil; reflexivity|]. cbn [firstn].
  unfold bits_of in *. cbn [flat_map]. replace (8 * S o) with (8 + 8 * o) by lia.
  rewrite firstn_app, byte_bits_length. replace (8 + 8 * o - 8) with (8 * o) by lia. rewrite (firstn_all2 (byte_bits e b)) by (rewrite byte_bits_length; lia). rewrite IH. reflexivity.
Qed.

Lemma field_value : forall e s buf o, bytes buf -> o + count s <= length buf ->
  get_field e s (skipn o buf) = Ret (value e (window (bits_of e buf) (8 * o) (8 * count s))).
Proof.
  intros e s buf o Hb Hl. rewrite get_field_eq. unfold get_gen. rewrite skipn_length. destruct (Nat.leb_spec (count s) (length buf - o)); [|lia].
  f_equal. rewrite from_bytes_value by (apply bytes_firstn, bytes_skipn; exact Hb). unfold window. rewrite bits_firstn, bits_skipn. reflexivity.
Qed.

Lemma read_ok : forall w s, op_ok (read_field w s).
Proof. intros [] []; cbn; lia. Qed.
Lemma read_bits_field : forall w s p, op_bits p (read_field w s) = 8 * count s.
Proof. intros [] [] p; reflexivity. Qed.
Lemma read_spec : forall e l w s p, spec_op e l p (read_field w s) = (p + 8 * count s, OutWord (value e (window l p (8 * count s)))).
Proof. intros e l [] [] p; reflexivity. Qed.

Lemma bit_and_byte : forall e buf ops o s w, bytes buf -> 8 <= length buf -> ops_within e (bits_of e buf) (8 * length buf - 64) 0 ops ->
  fst (spec_ops e (bits_of e buf) 0 ops) = 8 * o -> o + count s + 8 <= length buf ->
  exists r r' outs v, run_from_new e buf ops = Ret (r, outs) /\ get_field e s (skipn o buf) = Ret v /\
    run_op e r (read_field w s) = Ret (r', OutWord v) /\ consumed r' = Ret (8 * (o + count s)).
Proof.
  intros e buf ops o s w Hb Hl Hw Ho Hfar.
  destruct (bit_ops_exact e buf ops Hb Hl Hw) as [r [Er _]].
  assert (Hw2 : ops_within e (bits_of e buf) (8 * length buf - 64) 0 (ops ++ [read_field w s])).
  { apply ops_within_app. split; [exact Hw|]. rewrite Ho. cbn [ops_within]. split; [apply read_ok|]. split; [|exact I]. rewrite read_bits_field. lia. }
  destruct (bit_ops_exact e buf _ Hb Hl Hw2) as [r' [Er' Cr']]. rewrite spec_ops_app, Ho in Er', Cr'. cbn [spec_ops] in Er', Cr'. rewrite read_spec in Er', Cr'. cbn [fst snd] in Er', Cr'.
  unfold run_from_new in Er, Er'. destruct (new e buf) as [r0| |] eqn:En; try discriminate Er. cbn [obind] in Er, Er'. rewrite run_ops_app in Er'. rewrite Er in Er'. cbn [obind run_ops] in Er'.
  destruct (run_op e r (read_field w s)) as [[r1 x]| |] eqn:Eo; try discriminate Er'. cbn [obind] in Er'. injection Er' as -> E. apply app_inv_head in E. injection E as ->.
  exists r, r', (snd (spec_ops e (bits_of e buf) 0 ops)), (value e (window (bits_of e buf) (8 * o) (8 * count s))).
  split; [unfold run_from_new; rewrite En; exact Er|]. split; [apply field_value; [exact Hb|lia]|]. split; [exact Eo|]. rewrite Cr'. f_equal. lia.
Qed.

(** ** Records *)

Lemma put_keeps : forall e fs buf at_ , bytes buf -> Forall field_ok fs -> at_ + total fs <= length buf ->
  exists buf', put_fields e buf at_ fs = Ret buf' /\ bytes buf' /\ length buf' = length buf /\ firstn at_ buf' = firstn at_ buf /\
    skipn (at_ + total fs) buf' = skipn (at_ + total fs) buf /\
    spec_ops e (bits_of e buf') (8 * at_) (map (fun f => read_field (f_wide f) (f_size f)) fs) = (8 * (at_ + total fs), map (fun f => OutWord (f_value f)) fs).
Proof.
  intros e. induction fs as [|f fs IH]; intros buf at_ Hb Hok Hl; cbn [put_fields total map spec_ops].
  - exists buf. rewrite Nat.add_0_r. repeat split; try reflexivity. exact Hb.
  - inversion Hok as [|x y Hf Hfs]; subst. cbn [total] in Hl. set (k := count (f_size f)) in *.
    destruct (put_field_spec e (f_size f) (skipn at_ buf) (f_value f) Hf) as [_ P]. fold k in P.
    destruct P as [t [Et [Gt [St [Lt Bt]]]]]; [rewrite skipn_length; lia|]. rewrite Et. cbn [obind]. rewrite skipn_length in Lt.
    assert (La : length (firstn at_ buf) = at_) by (rewrite firstn_length; lia).
    assert (Lm : length (firstn at_ buf ++ t) = length buf) by (rewrite app_length, La, Lt; lia).
    assert (Bm : bytes (firstn at_ buf ++ t)) by (apply Forall_app; split; [apply bytes_firstn; exact Hb|apply Bt, bytes_skipn; exact Hb]).
    destruct (IH (firstn at_ buf ++ t) (at_ + k) Bm Hfs ltac:(lia)) as [buf' [Ep [B' [L' [F' [S' O']]]]]]. exists buf'. split; [exact Ep|]. split; [exact B'|]. split; [congruence|].
    assert (Fa : firstn at_ buf' = firstn at_ buf).
    { replace (firstn at_ buf') with (firstn at_ (firstn (at_ + k) buf')) by (rewrite firstn_firstn; f_equal; lia). rewrite F', firstn_firstn.
      replace (Nat.min at_ (at_ + k)) with at_ by lia. rewrite firstn_app, La, Nat.sub_diag, firstn_O, app_nil_r, firstn_firstn. f_equal. lia. }
    split; [exact Fa|]. split.
    { replace (at_ + (k + total fs)) with (at_ + k + total fs) by lia. rewrite S', skipn_app, La. rewrite (skipn_all2 (firstn at_ buf)) by lia.
      replace (at_ + k + total fs - at_) with (k + total fs) by lia. cbn [app].
      transitivity (skipn (total fs) (skipn k t)); [rewrite skipn2; f_equal; lia|]. rewrite St, !skipn2. f_equal. lia. }
    rewrite read_spec. fold k. replace (8 * at_ + 8 * k) with (8 * (at_ + k)) by lia. rewrite O'.
    assert (V : value e (window (bits_of e buf') (8 * at_) (8 * k)) = f_value f).
    { assert (Hkl : at_ + k <= length (firstn at_ buf ++ t)) by lia.
      pose proof (field_value e (f_size f) (firstn at_ buf ++ t) at_ Bm Hkl) as Q. rewrite skipn_app, La, Nat.sub_diag in Q.
      rewrite (skipn_all2 (firstn at_ buf)) in Q by lia. cbn [app skipn] in Q. rewrite Gt in Q. injection Q as Q. fold k in Q. rewrite Q.
      assert (W : firstn (8 * at_ + 8 * k) (bits_of e buf') = firstn (8 * at_ + 8 * k) (bits_of e (firstn at_ buf ++ t))).
      { replace (8 * at_ + 8 * k) with (8 * (at_ + k)) by lia. rewrite <- !bits_firstn, F'. reflexivity. }
      unfold window. rewrite !firstn_skipn_comm, W. reflexivity. }
    rewrite V. f_equal. lia.
Qed.

Lemma reads_within : forall e l fs limit at_, 8 * (at_ + total fs) <= limit ->
  ops_within e l limit (8 * at_) (map (fun f => read_field (f_wide f) (f_size f)) fs).
Proof.
  intros e l. induction fs as [|f fs IH]; intros limit at_ H; [exact I|]. cbn [map ops_within total] in *. split; [apply read_ok|]. rewrite read_bits_field, read_spec. cbn [fst].
  split; [lia|]. replace (8 * at_ + 8 * count (f_size f)) with (8 * (at_ + count (f_size f))) by lia. apply IH. lia.
Qed.

Lemma fields_read_back : forall e fs buf, bytes buf -> Forall field_ok fs -> total fs + 8 <= length buf ->
  exists buf' r, put_fields e buf 0 fs = Ret buf' /\ length buf' = length buf /\ skipn (total fs) buf' = skipn (total fs) buf /\
    run_from_new e buf' (map (fun f => read_field (f_wide f) (f_size f)) fs) = Ret (r, map (fun f => OutWord (f_value f)) fs) /\
    consumed r = Ret (8 * total fs).
Proof.
  intros e fs buf Hb Hok Hl. destruct (put_keeps e fs buf 0 Hb Hok ltac:(lia)) as [buf' [Ep [B' [L' [_ [S' O']]]]]].
  destruct (bit_ops_exact e buf' (map (fun f => read_field (f_wide f) (f_size f)) fs) B') as [r [Er Cr]]; [lia| |].
  - apply (reads_within e (bits_of e buf') fs (8 * length buf' - 64) 0). lia.
  - change (8 * 0) with 0 in O'. rewrite O' in Er, Cr. exists buf', r. auto.
Qed.
