(** Lemmas about the byte getters and putters. *)
From Coq Require Import List Arith NArith ZArith Bool Lia.
From Coq Require Import ZifyBool ZifyNat ZifyN.
From Verif Require Import Base ByteModel ByteSpec.
Import ListNotations.

Lemma pow2_8S : forall n, (2 ^ (8 * N.of_nat (S n)) = 256 * 2 ^ (8 * N.of_nat n))%N.
Proof.
  intros n. replace (8 * N.of_nat (S n))%N with (8 + 8 * N.of_nat n)%N by lia.
  rewrite N.pow_add_r. reflexivity.
Qed.

Lemma from_le_bound : forall l, bytes l -> (from_le_bytes l < 2 ^ (8 * N.of_nat (length l)))%N.
Proof.
  induction l as [|b l IH]; intros H; [cbn; lia|].
  inversion H as [|? ? Hb Hl]; subst. specialize (IH Hl). unfold is_byte in Hb.
  cbn [from_le_bytes fold_right length]. fold (from_le_bytes l). rewrite pow2_8S. lia.
Qed.

Lemma testbit_low : forall b h j, (b < 256)%N -> (j < 8)%N ->
  N.testbit (b + 256 * h) j = N.testbit b j.
Proof.
  intros b h j Hb Hj.
  rewrite <- (N.mod_pow2_bits_low (b + 256 * h) 8 j Hj).
  change (2 ^ 8)%N with 256%N.
  rewrite N.mul_comm, N.mod_add by lia. rewrite N.mod_small by lia. reflexivity.
Qed.

Lemma testbit_high : forall b h j, (b < 256)%N ->
  N.testbit (b + 256 * h) (8 + j) = N.testbit h j.
Proof.
  intros b h j Hb. rewrite (N.add_comm 8 j), <- N.div_pow2_bits.
  change (2 ^ 8)%N with 256%N.
  rewrite (N.mul_comm 256), N.div_add by lia. rewrite N.div_small by lia. reflexivity.
Qed.

Lemma from_le_number : forall l, bytes l -> le_number l (from_le_bytes l).
Proof.
  intros l H. split; [apply from_le_bound; exact H|].
  induction l as [|b l IH]; intros i x j Hn Hj; [destruct i; discriminate|].
  inversion H as [|? ? Hb Hl]; subst.
  cbn [from_le_bytes fold_right]. fold (from_le_bytes l).
  destruct i as [|i].
  - cbn in Hn. injection Hn as ->. change (8 * N.of_nat 0 + j)%N with j.
    apply testbit_low; assumption.
  - replace (8 * N.of_nat (S i) + j)%N with (8 + (8 * N.of_nat i + j))%N by lia.
    rewrite testbit_high by exact Hb. apply (IH Hl i); assumption.
Qed.

Lemma fold_left_be : forall l a, fold_left (fun acc b => acc * 256 + b)%N l a
  = (a * 2 ^ (8 * N.of_nat (length l)) + from_be_bytes l)%N.
Proof.
  unfold from_be_bytes.
  induction l as [|b l IH]; intros a; [cbn; lia|].
  cbn [fold_left length]. rewrite IH. rewrite (IH (0 * 256 + b)%N). rewrite pow2_8S. lia.
Qed.

Lemma from_le_app : forall l1 l2, from_le_bytes (l1 ++ l2)
  = (from_le_bytes l1 + 2 ^ (8 * N.of_nat (length l1)) * from_le_bytes l2)%N.
Proof.
  induction l1 as [|b l IH]; intros l2; [cbn [app length]; change (2 ^ (8 * N.of_nat 0))%N with 1%N; change (from_le_bytes []) with 0%N; lia|].
  cbn [from_le_bytes fold_right length app]. fold (from_le_bytes (l ++ l2)). fold (from_le_bytes l).
  rewrite IH. rewrite pow2_8S. lia.
Qed.

Lemma from_be_rev : forall l, from_be_bytes l = from_le_bytes (rev l).
Proof.
  induction l as [|b l IH]; [reflexivity|].
  unfold from_be_bytes. cbn [fold_left rev]. rewrite fold_left_be, from_le_app, IH.
  rewrite rev_length. cbn [from_le_bytes fold_right]. lia.
Qed.

Lemma nth_error_rev : forall (A : Type) (l : list A) i, i < length l ->
  nth_error (rev l) i = nth_error l (length l - 1 - i).
Proof.
  intros A l i Hi.
  destruct (nth_error l (length l - 1 - i)) as [x|] eqn:E.
  - assert (Hd : nth i (rev l) x = x).
    { rewrite rev_nth by exact Hi. replace (length l - S i) with (length l - 1 - i) by lia.
      apply nth_error_nth. exact E. }
    rewrite <- Hd. apply nth_error_nth'. rewrite rev_length. exact Hi.
  - apply nth_error_None in E. lia.
Qed.

Lemma bytes_rev : forall l, bytes l -> bytes (rev l).
Proof. intros l H. apply Forall_rev. exact H. Qed.

Lemma from_be_number : forall l, bytes l -> be_number l (from_be_bytes l).
Proof.
  intros l H. rewrite from_be_rev.
  destruct (from_le_number (rev l) (bytes_rev l H)) as [Hb Hn].
  rewrite rev_length in Hb. split; [exact Hb|].
  intros i b j Hi Hj.
  assert (Hlt : i < length l) by (apply nth_error_Some; rewrite Hi; discriminate).
  apply Hn; [|exact Hj]. rewrite nth_error_rev by lia.
  replace (length l - 1 - (length l - 1 - i)) with i by lia. exact Hi.
Qed.

Lemma to_le_length : forall k v, length (to_le_bytes k v) = k.
Proof. induction k; intros v; cbn; [|rewrite IHk]; reflexivity. Qed.

Lemma to_be_length : forall k v, length (to_be_bytes k v) = k.
Proof. intros. unfold to_be_bytes. rewrite rev_length. apply to_le_length. Qed.

Lemma to_le_bytes_bytes : forall k v, bytes (to_le_bytes k v).
Proof.
  induction k; intros v; cbn [to_le_bytes]; constructor; [|apply IHk].
  unfold is_byte. apply N.mod_lt. lia.
Qed.

Lemma from_to_le : forall k v, (v < 2 ^ (8 * N.of_nat k))%N -> from_le_bytes (to_le_bytes k v) = v.
Proof.
  induction k; intros v H; [cbn in *; lia|].
  rewrite pow2_8S in H. cbn [to_le_bytes from_le_bytes fold_right]. fold (from_le_bytes (to_le_bytes k (v / 256))).
  rewrite IHk.
  - rewrite N.add_comm. symmetry. apply N.div_mod. lia.
  - apply N.div_lt_upper_bound; lia.
Qed.

Lemma from_to_be : forall k v, (v < 2 ^ (8 * N.of_nat k))%N -> from_be_bytes (to_be_bytes k v) = v.
Proof.
  intros. rewrite from_be_rev. unfold to_be_bytes. rewrite rev_involutive. apply from_to_le. assumption.
Qed.

(** Closed forms of the getters. *)
Definition get_gen (f : list N -> N) (k : nat) (buf : list N) : outcome N :=
  if k <=? length buf then Ret (f (firstn k buf)) else Panic.


Lemma get_u8_eq : forall buf, get_u8 buf = get_gen from_le_bytes 1 buf.
Proof.
  intros [|b buf]; [reflexivity|]. unfold get_gen, get_u8, index_at, from_le_bytes. cbn -[N.mul N.add].
  f_equal. lia.
Qed.

Ltac get_closed := intros buf; do 8 (destruct buf as [|? buf]; [reflexivity|]); reflexivity.

Lemma get_u16l_eq : forall buf, get_u16l buf = get_gen from_le_bytes 2 buf.
Proof. get_closed. Qed.
Lemma get_u16b_eq : forall buf, get_u16b buf = get_gen from_be_bytes 2 buf.
Proof. get_closed. Qed.
Lemma get_u32l_eq : forall buf, get_u32l buf = get_gen from_le_bytes 4 buf.
Proof. get_closed. Qed.
Lemma get_u32b_eq : forall buf, get_u32b buf = get_gen from_be_bytes 4 buf.
Proof. get_closed. Qed.
Lemma get_u64l_eq : forall buf, get_u64l buf = get_gen from_le_bytes 8 buf.
Proof. get_closed. Qed.
Lemma get_u64b_eq : forall buf, get_u64b buf = get_gen from_be_bytes 8 buf.
Proof. get_closed. Qed.

Lemma bytes_firstn : forall k l, bytes l -> bytes (firstn k l).
Proof.
  induction k; intros [|b l] H; cbn; try constructor; inversion H; subst; [assumption|].
  apply IHk. assumption.
Qed.

Lemma bytes_skipn : forall k l, bytes l -> bytes (skipn k l).
Proof.
  induction k; intros [|b l] H; cbn; try assumption. inversion H; subst. apply IHk. assumption.
Qed.

Lemma getter_of : forall f (number : list N -> N -> Prop) k get,
  (forall l, bytes l -> number l (f l)) ->
  (forall buf, get buf = get_gen f k buf) -> getter_spec number k get.
Proof.
  intros f number k get Hf Hg buf Hb. rewrite Hg. unfold get_gen. split; intros Hl.
  - destruct (Nat.leb_spec k (length buf)); [lia|reflexivity].
  - destruct (Nat.leb_spec k (length buf)); [|lia].
    eexists. split; [reflexivity|]. apply Hf. apply bytes_firstn. exact Hb.
Qed.

Lemma getter_bound : forall (number : list N -> N -> Prop) k get buf v,
  (forall l v, number l v -> (v < 2 ^ (8 * N.of_nat (length l)))%N) ->
  getter_spec number k get -> bytes buf -> k <= length buf -> get buf = Ret v ->
  (v < 2 ^ (8 * N.of_nat k))%N.
Proof.
  intros number k get buf v Hb Hg Hbuf Hk Hv.
  destruct (Hg buf Hbuf) as [_ H]. destruct (H Hk) as [v' [E Hn]].
  rewrite E in Hv. injection Hv as ->. apply Hb in Hn. rewrite firstn_length in Hn.
  replace (Nat.min k (length buf)) with k in Hn by lia. exact Hn.
Qed.

Lemma as_signed_spec : forall w n, (0 < w)%N -> (n < 2 ^ w)%N ->
  (- 2 ^ (Z.of_N w - 1) <= as_signed w n < 2 ^ (Z.of_N w - 1))%Z /\
  (exists q, as_signed w n = Z.of_N n + q * 2 ^ Z.of_N w)%Z.
Proof.
  intros w n Hw Hn. unfold as_signed.
  assert (E : (2 ^ Z.of_N w = 2 * 2 ^ (Z.of_N w - 1))%Z).
  { rewrite <- Z.pow_succ_r by lia. f_equal. lia. }
  assert (E1 : Z.of_N (2 ^ w) = (2 ^ Z.of_N w)%Z) by (rewrite N2Z.inj_pow; reflexivity).
  assert (E2 : Z.of_N (2 ^ (w - 1)) = (2 ^ (Z.of_N w - 1))%Z).
  { rewrite N2Z.inj_pow. f_equal. lia. }
  destruct (N.ltb_spec n (2 ^ (w - 1))).
  - split; [lia|]. exists 0%Z. lia.
  - split; [lia|]. exists (-1)%Z. lia.
Qed.

Lemma signed_getter_of : forall w k (number : list N -> N -> Prop) getu geti,
  (0 < w)%N -> w = (8 * N.of_nat k)%N ->
  (forall l v, number l v -> (v < 2 ^ (8 * N.of_nat (length l)))%N) ->
  getter_spec number k getu ->
  (forall buf, geti buf = let! v := getu buf in Ret (as_signed w v)) ->
  signed_getter_spec (Z.of_N w) k getu geti.
Proof.
  intros w k number getu geti Hw Hk Hnum Hg He buf Hb.
  destruct (Hg buf Hb) as [H1 H2]. split; intros Hl; rewrite He.
  - rewrite (H1 Hl). reflexivity.
  - destruct (H2 Hl) as [v [Ev Hv]]. exists v, (as_signed w v).
    rewrite Ev. cbn [obind]. repeat split.
    all: assert (Hvb : (v < 2 ^ w)%N) by (rewrite Hk; eapply getter_bound; eauto).
    all: destruct (as_signed_spec w v Hw Hvb) as [[Ha Hc] Hq]; assumption.
Qed.

Lemma unsigned_signed : forall w z, (0 < w)%N -> signed_range (Z.of_N w) z ->
  as_signed w (as_unsigned w z) = z /\ (as_unsigned w z < 2 ^ w)%N.
Proof.
  intros w z Hw [Hlo Hhi]. unfold as_signed, as_unsigned.
  assert (E : (2 ^ Z.of_N w = 2 * 2 ^ (Z.of_N w - 1))%Z).
  { rewrite <- Z.pow_succ_r by lia. f_equal. lia. }
  assert (E1 : Z.of_N (2 ^ w) = (2 ^ Z.of_N w)%Z) by (rewrite N2Z.inj_pow; reflexivity).
  assert (E2 : Z.of_N (2 ^ (w - 1)) = (2 ^ (Z.of_N w - 1))%Z).
  { rewrite N2Z.inj_pow. f_equal. lia. }
  set (P := (2 ^ Z.of_N w)%Z) in *. set (Q := (2 ^ (Z.of_N w - 1))%Z) in *.
  assert (HQ : (0 < Q)%Z) by (apply Z.pow_pos_nonneg; lia).
  pose proof (Z.mod_pos_bound z P ltac:(lia)) as HM.
  assert (HZ : (z mod P = if z <? 0 then z + P else z)%Z).
  { destruct (Z.ltb_spec z 0).
    - symmetry. apply Z.mod_unique with (-1)%Z; lia.
    - apply Z.mod_small. lia. }
  split; [|lia].
  destruct (N.ltb_spec (Z.to_N (z mod P)) (2 ^ (w - 1)));
    destruct (Z.ltb_spec z 0); lia.
Qed.

Lemma write_prefix_ok : forall buf bs, length bs <= length buf ->
  write_prefix buf bs = Ret (bs ++ skipn (length bs) buf).
Proof. intros. unfold write_prefix. destruct (Nat.leb_spec (length bs) (length buf)); [reflexivity|lia]. Qed.

Lemma put_get_of : forall (enc : nat -> N -> list N) (f : list N -> N) k w put get,
  w = (8 * N.of_nat k)%N ->
  (forall v, length (enc k v) = k) ->
  (forall v, bytes (enc k v)) ->
  (forall v, (v < 2 ^ w)%N -> f (enc k v) = v) ->
  (forall buf v, put buf v = write_prefix buf (enc k v)) ->
  (forall buf, get buf = get_gen f k buf) ->
  put_get_spec (unsigned_range w) k put get.
Proof.
  intros enc f k w put get Hw Hlen Hby Hfe Hput Hget buf v Hv. rewrite Hput. split; intros Hl.
  - unfold write_prefix. rewrite Hlen. destruct (Nat.leb_spec k (length buf)); [lia|reflexivity].
  - rewrite write_prefix_ok by (rewrite Hlen; exact Hl).
    eexists. split; [reflexivity|].
    assert (Hlen' : length (enc k v ++ skipn (length (enc k v)) buf) = length buf).
    { rewrite app_length, skipn_length, Hlen. lia. }
    repeat split.
    + rewrite Hget. unfold get_gen. rewrite Hlen'.
      destruct (Nat.leb_spec k (length buf)); [|lia].
      rewrite firstn_app, Hlen, Nat.sub_diag, firstn_O, app_nil_r.
      rewrite firstn_all2 by (rewrite Hlen; lia). rewrite Hfe by exact Hv. reflexivity.
    + rewrite skipn_app, Hlen, Nat.sub_diag, skipn_O.
      rewrite skipn_all2 by (rewrite Hlen; lia). reflexivity.
    + exact Hlen'.
    + intros Hb. apply Forall_app. split; [apply Hby|]. apply bytes_skipn. exact Hb.
Qed.

Lemma put_get_signed : forall w k putu getu puti geti,
  (0 < w)%N ->
  put_get_spec (unsigned_range w) k putu getu ->
  (forall buf z, puti buf z = putu buf (as_unsigned w z)) ->
  (forall buf, geti buf = let! v := getu buf in Ret (as_signed w v)) ->
  put_get_spec (signed_range (Z.of_N w)) k puti geti.
Proof.
  intros w k putu getu puti geti Hw Hu Hp Hg buf z Hz.
  destruct (unsigned_signed w z Hw Hz) as [Es Hr].
  destruct (Hu buf (as_unsigned w z) Hr) as [H1 H2]. rewrite Hp. split; [exact H1|].
  intros Hl. destruct (H2 Hl) as [buf' [E1 [E2 [E3 [E4 E5]]]]].
  exists buf'. repeat split; try assumption. rewrite Hg, E2. cbn [obind]. rewrite Es. reflexivity.
Qed.

Lemma put_u8_eq : forall buf v, (v < 2 ^ 8)%N -> put_u8 buf v = write_prefix buf (to_le_bytes 1 v).
Proof.
  intros [|b buf] v Hv; [reflexivity|]. unfold put_u8, store, write_prefix. cbn -[N.modulo].
  rewrite N.mod_small by exact Hv. reflexivity.
Qed.

Lemma put_get_u8 : put_get_spec (unsigned_range 8) 1 put_u8 get_u8.
Proof.
  intros buf v Hv. rewrite put_u8_eq by exact Hv.
  assert (H : put_get_spec (unsigned_range 8) 1 (fun b v => write_prefix b (to_le_bytes 1 v)) get_u8).
  { eapply (put_get_of to_le_bytes from_le_bytes 1 8); intros; auto using to_le_length, to_le_bytes_bytes, get_u8_eq.
    apply (from_to_le 1). exact H. }
  apply H. exact Hv.
Qed.

Ltac pg enc dec k :=
  eapply (put_get_of enc dec k);
  [ reflexivity
  | intros; first [apply to_le_length | apply to_be_length]
  | intros; first [apply to_le_bytes_bytes | apply bytes_rev; apply to_le_bytes_bytes]
  | intros; first [apply (from_to_le k); assumption | apply (from_to_be k); assumption]
  | reflexivity
  | idtac ].

Lemma put_get_u16l : put_get_spec (unsigned_range 16) 2 put_u16l get_u16l.
Proof. pg to_le_bytes from_le_bytes 2. apply get_u16l_eq. Qed.
Lemma put_get_u16b : put_get_spec (unsigned_range 16) 2 put_u16b get_u16b.
Proof. pg to_be_bytes from_be_bytes 2. apply get_u16b_eq. Qed.
Lemma put_get_u32l : put_get_spec (unsigned_range 32) 4 put_u32l get_u32l.
Proof. pg to_le_bytes from_le_bytes 4. apply get_u32l_eq. Qed.
Lemma put_get_u32b : put_get_spec (unsigned_range 32) 4 put_u32b get_u32b.
Proof. pg to_be_bytes from_be_bytes 4. apply get_u32b_eq. Qed.
Lemma put_get_u64l : put_get_spec (unsigned_range 64) 8 put_u64l get_u64l.
Proof. pg to_le_bytes from_le_bytes 8. apply get_u64l_eq. Qed.
Lemma put_get_u64b : put_get_spec (unsigned_range 64) 8 put_u64b get_u64b.
Proof. pg to_be_bytes from_be_bytes 8. apply get_u64b_eq. Qed.

Lemma put_get_i8 : put_get_spec (signed_range 8) 1 put_i8 get_i8.
Proof.
  apply (put_get_signed 8 1 put_u8 get_u8); [reflexivity|apply put_get_u8|reflexivity|].
  intros [|b buf]; reflexivity.
Qed.

Lemma number_le_bound : forall l v, le_number l v -> (v < 2 ^ (8 * N.of_nat (length l)))%N.
Proof. intros l v [H _]. exact H. Qed.
Lemma number_be_bound : forall l v, be_number l v -> (v < 2 ^ (8 * N.of_nat (length l)))%N.
Proof. intros l v [H _]. exact H. Qed.

Lemma all_getters :
  getter_spec le_number 1 get_u8 /\ getter_spec be_number 1 get_u8 /\
  getter_spec le_number 2 get_u16l /\ getter_spec be_number 2 get_u16b /\
  getter_spec le_number 4 get_u32l /\ getter_spec be_number 4 get_u32b /\
  getter_spec le_number 8 get_u64l /\ getter_spec be_number 8 get_u64b /\
  getter_spec le_number 4 get_f32l /\ getter_spec be_number 4 get_f32b /\
  getter_spec le_number 8 get_f64l /\ getter_spec be_number 8 get_f64b.
Proof.
  assert (L : forall k get, (forall buf, get buf = get_gen from_le_bytes k buf) -> getter_spec le_number k get)
    by (intros; eapply getter_of; [apply from_le_number|assumption]).
  assert (B : forall k get, (forall buf, get buf = get_gen from_be_bytes k buf) -> getter_spec be_number k get)
    by (intros; eapply getter_of; [apply from_be_number|assumption]).
  split; [apply L, get_u8_eq|]. split.
  { apply B. intros buf. rewrite get_u8_eq. unfold get_gen.
    destruct buf as [|b buf]; [reflexivity|]. cbn -[N.add N.mul]. f_equal. lia. }
  split; [apply L, get_u16l_eq|]. split; [apply B, get_u16b_eq|].
  split; [apply L, get_u32l_eq|]. split; [apply B, get_u32b_eq|].
  split; [apply L, get_u64l_eq|]. split; [apply B, get_u64b_eq|].
  split; [apply L, get_u32l_eq|]. split; [apply B, get_u32b_eq|].
  split; [apply L, get_u64l_eq|apply B, get_u64b_eq].
Qed.

Lemma all_signed_getters :
  signed_getter_spec 8 1 get_u8 get_i8 /\
  signed_getter_spec 16 2 get_u16l get_i16l /\ signed_getter_spec 16 2 get_u16b get_i16b /\
  signed_getter_spec 32 4 get_u32l get_i32l /\ signed_getter_spec 32 4 get_u32b get_i32b /\
  signed_getter_spec 64 8 get_u64l get_i64l /\ signed_getter_spec 64 8 get_u64b get_i64b.
Proof.
  destruct all_getters as (H8 & _ & H16l & H16b & H32l & H32b & H64l & H64b & _).
  split.
  { apply (signed_getter_of 8 1 le_number); try reflexivity; try assumption.
    - intros l v [H _]; exact H.
    - intros [|b buf]; reflexivity. }
  split; [apply (signed_getter_of 16 2 le_number); try reflexivity; try assumption; apply number_le_bound|].
  split; [apply (signed_getter_of 16 2 be_number); try reflexivity; try assumption; apply number_be_bound|].
  split; [apply (signed_getter_of 32 4 le_number); try reflexivity; try assumption; apply number_le_bound|].
  split; [apply (signed_getter_of 32 4 be_number); try reflexivity; try assumption; apply number_be_bound|].
  split; [apply (signed_getter_of 64 8 le_number); try reflexivity; try assumption; apply number_le_bound|].
  apply (signed_getter_of 64 8 be_number); try reflexivity; try assumption; apply number_be_bound.
Qed.

Lemma all_put_get :
  put_get_spec (unsigned_range 8) 1 put_u8 get_u8 /\
  put_get_spec (unsigned_range 16) 2 put_u16l get_u16l /\ put_get_spec (unsigned_range 16) 2 put_u16b get_u16b /\
  put_get_spec (unsigned_range 32) 4 put_u32l get_u32l /\ put_get_spec (unsigned_range 32) 4 put_u32b get_u32b /\
  put_get_spec (unsigned_range 64) 8 put_u64l get_u64l /\ put_get_spec (unsigned_range 64) 8 put_u64b get_u64b /\
  put_get_spec (signed_range 8) 1 put_i8 get_i8 /\
  put_get_spec (signed_range 16) 2 put_i16l get_i16l /\ put_get_spec (signed_range 16) 2 put_i16b get_i16b /\
  put_get_spec (signed_range 32) 4 put_i32l get_i32l /\ put_get_spec (signed_range 32) 4 put_i32b get_i32b /\
  put_get_spec (signed_range 64) 8 put_i64l get_i64l /\ put_get_spec (signed_range 64) 8 put_i64b get_i64b /\
  put_get_spec (unsigned_range 32) 4 put_f32l get_f32l /\ put_get_spec (unsigned_range 32) 4 put_f32b get_f32b /\
  put_get_spec (unsigned_range 64) 8 put_f64l get_f64l /\ put_get_spec (unsigned_range 64) 8 put_f64b get_f64b.
Proof.
  repeat (match goal with |- _ /\ _ => split end).
  - apply put_get_u8.
  - apply put_get_u16l.
  - apply put_get_u16b.
  - apply put_get_u32l.
  - apply put_get_u32b.
  - apply put_get_u64l.
  - apply put_get_u64b.
  - apply put_get_i8.
  - apply (put_get_signed 16 2 put_u16l get_u16l); try reflexivity; apply put_get_u16l.
  - apply (put_get_signed 16 2 put_u16b get_u16b); try reflexivity; apply put_get_u16b.
  - apply (put_get_signed 32 4 put_u32l get_u32l); try reflexivity; apply put_get_u32l.
  - apply (put_get_signed 32 4 put_u32b get_u32b); try reflexivity; apply put_get_u32b.
  - apply (put_get_signed 64 8 put_u64l get_u64l); try reflexivity; apply put_get_u64l.
  - apply (put_get_signed 64 8 put_u64b get_u64b); try reflexivity; apply put_get_u64b.
  - apply put_get_u32l.
  - apply put_get_u32b.
  - apply put_get_u64l.
  - apply put_get_u64b.
Qed.

(** The number relations determine the value. *)
Lemma le_number_unique : forall l v w, le_number l v -> le_number l w -> v = w.
Proof.
  intros l v w [Hv Hvn] [Hw Hwn]. apply N.bits_inj. intros n.
  assert (H0 : forall x, (x < 2 ^ (8 * N.of_nat (length l)))%N -> (8 * N.of_nat (length l) <= n)%N -> N.testbit x n = false).
  { intros x Hx Hn. destruct (N.eq_dec x 0) as [->|Hne]; [apply N.bits_0|].
    apply N.bits_above_log2. eapply N.lt_le_trans; [|exact Hn]. apply N.log2_lt_pow2; lia. }
  destruct (N.lt_ge_cases n (8 * N.of_nat (length l))) as [Hlt|Hge].
  - pose (i := N.to_nat (n / 8)). assert (Hi : i < length l).
    { unfold i. assert (n / 8 < N.of_nat (length l))%N by (apply N.div_lt_upper_bound; lia). lia. }
    destruct (nth_error l i) as [b|] eqn:E; [|apply nth_error_None in E; lia].
    assert (En : n = (8 * N.of_nat i + n mod 8)%N).
    { unfold i. rewrite N2Nat.id. apply N.div_mod. lia. }
    rewrite En. pose proof (N.mod_lt n 8 ltac:(lia)).
    rewrite (Hvn i b _ E), (Hwn i b _ E) by assumption. reflexivity.
  - rewrite !H0 by assumption. reflexivity.
Qed.

Lemma short_buffers_panic :
  (forall buf, bytes buf -> length buf < 8 -> get_u64l buf = Panic /\ get_u64b buf = Panic) /\
  (forall buf v, (v < 2 ^ 64)%N -> length buf < 8 -> put_u64l buf v = Panic /\ put_u64b buf v = Panic) /\
  (forall v, (v < 2 ^ 8)%N -> get_u8 [] = Panic /\ put_u8 [] v = Panic).
Proof.
  split; [|split].
  - intros buf Hb Hl. destruct all_getters as (_ & _ & _ & _ & _ & _ & Hgl & Hgb & _).
    split; [apply (Hgl buf Hb); exact Hl|apply (Hgb buf Hb); exact Hl].
  - intros buf v Hv Hl. split; [apply (put_get_u64l buf v Hv); exact Hl|apply (put_get_u64b buf v Hv); exact Hl].
  - intros v Hv. split; reflexivity.
Qed.
