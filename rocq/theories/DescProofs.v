(** Lemmas about description readers. *)
From Coq Require Import List Arith NArith ZArith Bool Lia.
From Coq Require Import ZifyBool ZifyNat ZifyN.
From Verif Require Import Base BitModel BitSpec CodebookModel CodebookSpec CodebookProofs5 CodebookProofs6 DescModel DescSpec.
Import ListNotations.
Local Open Scope nat_scope.

(** [rd] agrees with [ds] from index [k] on. *)
Definition agrees {S : Type} (rd : desc_reader S) (k : nat) (ds : list (desc S)) : Prop :=
  forall i d, nth_error ds i = Some d ->
    dr_bits rd (k + i) = Ret (d_bits d) /\ dr_code rd (k + i) = Ret (d_code d) /\ dr_sym rd (k + i) = Ret (d_sym d).

Lemma agrees_cons : forall S (rd : desc_reader S) k d ds, agrees rd k (d :: ds) ->
  (dr_bits rd k = Ret (d_bits d) /\ dr_code rd k = Ret (d_code d) /\ dr_sym rd k = Ret (d_sym d)) /\
  agrees rd (Datatypes.S k) ds.
Proof.
  intros S rd k d ds H. split.
  - specialize (H 0 d eq_refl). rewrite Nat.add_0_r in H. exact H.
  - intros i d' E. specialize (H (1 + i) d' E). replace (Datatypes.S k + i) with (k + (1 + i)) by lia. exact H.
Qed.

Lemma from_pass1_list : forall S (rd : desc_reader S) m ds k maxbits symidx cc, agrees rd k ds ->
  from_pass1 rd m (seq k (length ds)) maxbits symidx cc = new_pass1 m ds maxbits symidx cc.
Proof.
  intros S rd m ds. induction ds as [|d ds IH]; intros k maxbits symidx cc H; [reflexivity|].
  apply agrees_cons in H. destruct H as [[Hb [Hc _]] H].
  cbn [length seq from_pass1 new_pass1]. rewrite Hb. cbn [obind].
  destruct (MAX_LUT_BITS <? d_bits d); [rewrite Hc; cbn [obind]|].
  - destruct (add_long_code cc m (mk_code (d_code d) (d_bits d) symidx)); cbn [obind]; try reflexivity. apply IH. exact H.
  - cbn [obind]. apply IH. exact H.
Qed.

Lemma from_pass2_list : forall S (rd : desc_reader S) m maxbits ds k table symidx cc, agrees rd k ds ->
  from_pass2 rd table m maxbits (seq k (length ds)) symidx cc = new_pass2 table m maxbits ds symidx cc.
Proof.
  intros S rd m maxbits ds. induction ds as [|d ds IH]; intros k table symidx cc H; [reflexivity|].
  apply agrees_cons in H. destruct H as [[Hb [Hc _]] H].
  cbn [length seq from_pass2 new_pass2]. rewrite Hb, Hc. cbn [obind].
  destruct (d_bits d =? 0); [apply IH; exact H|].
  match goal with |- obind ?x _ = _ => destruct x as [[t c]| |] end; cbn [obind]; try reflexivity.
  destruct (add32 symidx 1); cbn [obind]; try reflexivity. apply IH. exact H.
Qed.

Lemma from_syms_list : forall S (rd : desc_reader S) ds k, agrees rd k ds ->
  from_syms rd (seq k (length ds)) = Ret (used_syms ds).
Proof.
  intros S rd ds. induction ds as [|d ds IH]; intros k H; [reflexivity|].
  apply agrees_cons in H. destruct H as [[Hb [_ Hs]] H].
  cbn [length seq from_syms]. rewrite Hb. cbn [obind]. unfold used_syms. cbn [filter].
  destruct (0 <? d_bits d).
  - rewrite Hs. cbn [obind]. rewrite (IH _ H). reflexivity.
  - apply IH. exact H.
Qed.

Lemma new_from_list : forall S ord (rd : desc_reader S) ds m, describes rd ds ->
  new_codebook_from ord rd m = new_codebook ord ds m.
Proof.
  intros S ord rd ds m [Hl H].
  assert (A : agrees rd 0 ds) by (intros i d E; apply H; exact E).
  unfold new_codebook_from, new_codebook. rewrite Hl, from_pass1_list by exact A.
  destruct (new_pass1 m ds 0 0 []) as [[maxbits0 cc]| |]; cbn [obind]; try reflexivity.
  destruct (maxbits0 =? 0); [reflexivity|].
  destruct (shl32 1 _) as [tl| |]; cbn [obind]; try reflexivity.
  rewrite from_pass2_list by exact A.
  destruct (new_pass2 _ m _ ds 0 cc) as [[t c]| |]; cbn [obind]; try reflexivity.
  destruct (build_all _ t (ord [] c)) as [t'| |]; cbn [obind]; try reflexivity.
  rewrite from_syms_list by exact A. reflexivity.
Qed.

Lemma index_at_nth : forall (A : Type) (l : list A) i x, nth_error l i = Some x -> index_at l i = Ret x.
Proof. intros A l i x E. unfold index_at. rewrite E. reflexivity. Qed.

Lemma full_describes : forall S (v : list (desc S)), describes (full_reader v) v.
Proof.
  intros S v. split; [reflexivity|]. intros i d E. cbn [full_reader dr_bits dr_code dr_sym].
  rewrite (index_at_nth _ _ _ _ E). repeat split; reflexivity.
Qed.

(** The description with the symbols a short or table reader supplies. *)
Definition resym (f : nat -> N) (d : desc nat) : desc N := mk_desc (d_code d) (d_bits d) (f (d_sym d)).

Lemma numbered_nth : forall v k i d, nth_error (numbered k v) i = Some d ->
  exists s, nth_error v i = Some s /\ d = mk_desc (sh_code s) (sh_bits s) (k + i).
Proof.
  induction v as [|s v IH]; intros k i d E; [destruct i; discriminate E|].
  destruct i; cbn [numbered nth_error] in E.
  - injection E as <-. exists s. split; [reflexivity|]. rewrite Nat.add_0_r. reflexivity.
  - destruct (IH _ _ _ E) as [s' [E' ->]]. exists s'. split; [exact E'|]. f_equal. lia.
Qed.

Lemma numbered_length : forall v k, length (numbered k v) = length v.
Proof. induction v as [|s v IH]; intros k; [reflexivity|]. cbn [numbered length]. rewrite IH. reflexivity. Qed.

Lemma nth_error_map_inv : forall (A B : Type) (f : A -> B) l i y, nth_error (map f l) i = Some y ->
  exists x, nth_error l i = Some x /\ y = f x.
Proof.
  intros A B f l. induction l as [|a l IH]; intros i y E; [destruct i; discriminate E|].
  destruct i; cbn [map nth_error] in *; [|apply IH; exact E]. injection E as <-. exists a. split; reflexivity.
Qed.

Lemma short_describes : forall v,
  describes (short_reader v) (map (resym (fun i => N.of_nat i mod W32)%N) (numbered 0 v)).
Proof.
  intros v. split; [rewrite map_length, numbered_length; reflexivity|].
  intros i d E. apply nth_error_map_inv in E. destruct E as [x [E ->]].
  destruct (numbered_nth _ _ _ _ E) as [s [E' ->]]. cbn [short_reader dr_bits dr_code dr_sym resym d_code d_bits d_sym].
  rewrite (index_at_nth _ _ _ _ E'). repeat split; reflexivity.
Qed.

Lemma side_by_side_nth : forall bits codes i s, nth_error (side_by_side bits codes) i = Some s ->
  nth_error bits i = Some (sh_bits s) /\ nth_error codes i = Some (sh_code s).
Proof.
  induction bits as [|b bits IH]; intros codes i s E; [destruct i; discriminate E|].
  destruct codes as [|c codes]; [destruct i; discriminate E|].
  destruct i; cbn [side_by_side nth_error] in *; [injection E as <-; split; reflexivity|apply IH; exact E].
Qed.

Lemma side_by_side_length : forall bits codes, length bits <= length codes ->
  length (side_by_side bits codes) = length bits.
Proof.
  induction bits as [|b bits IH]; intros codes H; [reflexivity|].
  destruct codes; cbn [length side_by_side] in *; [lia|]. rewrite IH by lia. reflexivity.
Qed.

Lemma table_describes : forall w t, length (td_bits t) <= length (td_codes t) ->
  describes (table_reader w t)
    (map (resym (fun i => N.of_nat i mod 2 ^ w)%N) (numbered 0 (side_by_side (td_bits t) (td_codes t)))).
Proof.
  intros w t H. split; [rewrite map_length, numbered_length, side_by_side_length by exact H; reflexivity|].
  intros i d E. apply nth_error_map_inv in E. destruct E as [x [E ->]].
  destruct (numbered_nth _ _ _ _ E) as [s [E' ->]]. destruct (side_by_side_nth _ _ _ _ E') as [E1 E2].
  cbn [table_reader dr_bits dr_code dr_sym resym d_code d_bits d_sym].
  rewrite (index_at_nth _ _ _ _ E1), (index_at_nth _ _ _ _ E2). repeat split; reflexivity.
Qed.

(** Symbols do not matter for validity. *)
Lemma resym_word : forall f m d, word m (resym f d) = word m d.
Proof. reflexivity. Qed.

Lemma resym_valid : forall f m ds, valid_description m ds -> valid_description m (map (resym f) ds).
Proof.
  intros f m ds [H1 [H2 H3]]. split; [|split].
  - intros d Hd Hu. apply in_map_iff in Hd. destruct Hd as [d' [<- Hd']]. apply (H1 d' Hd' Hu).
  - intros i j a b Ea Eb Hij Ha Hb.
    apply nth_error_map_inv in Ea. destruct Ea as [a' [Ea ->]].
    apply nth_error_map_inv in Eb. destruct Eb as [b' [Eb ->]].
    exact (H2 i j a' b' Ea Eb Hij Ha Hb).
  - assert (T : words m (map (resym f) ds) = words m ds).
    { clear. unfold words. induction ds as [|d ds IH]; [reflexivity|]. cbn [map filter resym d_bits].
      destruct (0 <? d_bits d); cbn [map]; rewrite IH; reflexivity. }
    unfold small_enough. rewrite T. exact H3.
Qed.

Lemma encode_resym : forall f m msg, encode m (map (resym f) msg) = encode m msg.
Proof.
  intros f m msg. unfold encode, message_bits.
  replace (flat_map (word m) (map (resym f) msg)) with (flat_map (word m) msg); [reflexivity|].
  induction msg as [|d msg IH]; [reflexivity|]. cbn [map flat_map]. rewrite IH. reflexivity.
Qed.

(** Round trip for a reader that numbers its entries, the numbers being passed
    through [f]. *)
Lemma numbered_round_trip : forall f ord m v rd msg cb, permuting ord ->
  describes rd (map (resym f) (numbered 0 v)) -> valid_description m (numbered 0 v) ->
  new_codebook_from ord rd m = Ret (Okay cb) ->
  Forall (fun d => In d (numbered 0 v) /\ used d) msg ->
  (N.of_nat (8 * length (encode m msg)) < 2 ^ 32)%N ->
  exists r0 r, new (reader_for m) (encode m msg) = Ret r0 /\
    run_mixed (reader_for m) cb r0 (map (fun d => Codeword (resym f d)) msg)
      = Ret (r, map (fun d => Sym (Okay (f (d_sym d)))) msg) /\
    consumed r = Ret (length (message_bits m msg)).
Proof.
  intros f ord m v rd msg cb Ho Hd Hv Hn Hm Hl.
  rewrite (new_from_list _ _ _ _ _ Hd) in Hn.
  assert (Hm' : Forall (fun d => In d (map (resym f) (numbered 0 v)) /\ used d) (map (resym f) msg)).
  { apply Forall_forall. intros d Hin. apply in_map_iff in Hin. destruct Hin as [d' [<- Hin]].
    rewrite Forall_forall in Hm. destruct (Hm d' Hin) as [A B]. split; [apply in_map; exact A|exact B]. }
  destruct (message_round_trip N ord m _ (map (resym f) msg) cb Ho (resym_valid f m _ Hv) Hn Hm') as [r0 [r [E0 [E C]]]].
  { rewrite encode_resym. exact Hl. }
  rewrite encode_resym in E0. exists r0, r. split; [exact E0|].
  rewrite !map_map in E. split; [exact E|].
  rewrite C. do 2 f_equal. unfold message_bits. clear. induction msg as [|d msg IH]; [reflexivity|].
  cbn [map flat_map]. rewrite IH. reflexivity.
Qed.

(** The symbols recorded in the steps are irrelevant for [run_mixed]. *)
Lemma run_mixed_steps : forall S e (cb : codebook S) (f g : desc nat -> desc S) msg r,
  run_mixed e cb r (map (fun d => Codeword (f d)) msg) = run_mixed e cb r (map (fun d => Codeword (g d)) msg).
Proof.
  intros S e cb f g msg. induction msg as [|d msg IH]; intros r; [reflexivity|].
  cbn [map run_mixed]. destruct (read_cb e cb r) as [[r1 s]| |]; cbn [obind]; try reflexivity. rewrite IH. reflexivity.
Qed.

(** ** Tables of different lengths *)
Lemma pass1_nonzero : forall S (rd : desc_reader S) m is maxbits symidx cc mb cc',
  from_pass1 rd m is maxbits symidx cc = Ret (mb, cc') -> maxbits <= mb.
Proof.
  intros S rd m is. induction is as [|i is IH]; intros maxbits symidx cc mb cc' E; cbn [from_pass1] in E.
  - injection E as <- _. lia.
  - destruct (dr_bits rd i) as [b| |]; cbn [obind] in E; try discriminate E.
    match type of E with obind ?x _ = _ => destruct x as [c| |] end; cbn [obind] in E; try discriminate E.
    apply IH in E. lia.
Qed.

Lemma pass1_some : forall S (rd : desc_reader S) m is maxbits symidx cc mb cc' i b,
  from_pass1 rd m is maxbits symidx cc = Ret (mb, cc') -> In i is -> dr_bits rd i = Ret b -> b <= mb.
Proof.
  intros S rd m is. induction is as [|j is IH]; intros maxbits symidx cc mb cc' i b E Hin Hb; [destruct Hin|].
  cbn [from_pass1] in E. destruct Hin as [-> |Hin].
  - rewrite Hb in E. cbn [obind] in E.
    match type of E with obind ?x _ = _ => destruct x as [c| |] end; cbn [obind] in E; try discriminate E.
    apply pass1_nonzero in E. lia.
  - destruct (dr_bits rd j) as [b'| |]; cbn [obind] in E; try discriminate E.
    match type of E with obind ?x _ = _ => destruct x as [c| |] end; cbn [obind] in E; try discriminate E.
    eapply IH; eassumption.
Qed.

Lemma pass2_not_ret : forall S (rd : desc_reader S) m maxbits is table symidx cc i,
  In i is -> dr_code rd i = Panic -> forall x, from_pass2 rd table m maxbits is symidx cc <> Ret x.
Proof.
  intros S rd m maxbits is. induction is as [|j is IH]; intros table symidx cc i Hin Hp x E; [destruct Hin|].
  cbn [from_pass2] in E.
  destruct (dr_bits rd j) as [b| |]; cbn [obind] in E; try discriminate E.
  destruct (dr_code rd j) as [c| |] eqn:Ej; cbn [obind] in E; try discriminate E.
  assert (Hin' : In i is) by (destruct Hin as [-> |]; [congruence|assumption]).
  destruct (b =? 0); [exact (IH _ _ _ _ Hin' Hp _ E)|].
  match type of E with obind ?x _ = _ => destruct x as [[t c']| |] end; cbn [obind] in E; try discriminate E.
  destruct (add32 symidx 1); cbn [obind] in E; try discriminate E.
  exact (IH _ _ _ _ Hin' Hp _ E).
Qed.
