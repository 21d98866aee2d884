(** The proofs of the theorems of [DescProps]. *)
From Coq Require Import List Arith NArith ZArith Bool Lia.
From Coq Require Import ZifyBool ZifyNat ZifyN.
From Verif Require Import Base BitModel BitSpec CodebookModel CodebookSpec CodebookProofs5 CodebookProofs6 DescModel DescSpec DescProofs.
Import ListNotations.
Local Open Scope nat_scope.

Lemma numbered_nth_error : forall v k i s, nth_error v i = Some s ->
  nth_error (numbered k v) i = Some (mk_desc (sh_code s) (sh_bits s) (k + i)).
Proof.
  induction v as [|s0 v IH]; intros k i s E; [destruct i; discriminate E|].
  destruct i; cbn [numbered nth_error] in *.
  - injection E as ->. rewrite Nat.add_0_r. reflexivity.
  - rewrite (IH _ _ _ E). do 2 f_equal. lia.
Qed.

Lemma entry_spec : forall v i, used_position v i ->
  In (entry v i) (numbered 0 v) /\ used (entry v i) /\ d_sym (entry v i) = i /\ i < length v.
Proof.
  intros v i [s [E Hs]]. pose proof (numbered_nth_error v 0 i s E) as En.
  assert (Ee : entry v i = mk_desc (sh_code s) (sh_bits s) i).
  { unfold entry. apply nth_error_nth. exact En. }
  rewrite Ee. split; [eapply nth_error_In; exact En|]. split; [exact Hs|]. split; [reflexivity|].
  apply nth_error_Some. congruence.
Qed.

Lemma run_read : forall S e (cb : codebook S) steps r r' outs,
  run_mixed e cb r (map (@Codeword S) steps) = Ret (r', map (fun x => Sym x) outs) ->
  read_symbols e cb r (length steps) = Ret (r', outs).
Proof.
  intros S e cb steps. induction steps as [|d steps IH]; intros r r' outs E; cbn [map run_mixed] in E.
  - injection E as <- E. destruct outs; [reflexivity|discriminate E].
  - cbn [length read_symbols]. destruct (read_cb e cb r) as [[r1 s]| |]; cbn [obind] in *; try discriminate E.
    destruct (run_mixed e cb r1 (map (@Codeword S) steps)) as [[r2 os]| |] eqn:E2; cbn [obind] in *; try discriminate E.
    injection E as <- E. destruct outs as [|o outs]; [discriminate E|]. injection E as -> ->.
    rewrite (IH _ _ _ E2). reflexivity.
Qed.

Lemma positions_general : forall f ord m v rd msg cb, permuting ord ->
  describes rd (map (resym f) (numbered 0 v)) -> valid_description m (numbered 0 v) ->
  new_codebook_from ord rd m = Ret (Okay cb) -> Forall (used_position v) msg ->
  (forall i, i < length v -> f i = N.of_nat i) ->
  (N.of_nat (8 * length (encode m (map (entry v) msg))) < 2 ^ 32)%N ->
  exists r0 r, new (reader_for m) (encode m (map (entry v) msg)) = Ret r0 /\
    read_symbols (reader_for m) cb r0 (length msg) = Ret (r, map (fun i => Okay (N.of_nat i)) msg) /\
    consumed r = Ret (length (message_bits m (map (entry v) msg))).
Proof.
  intros f ord m v rd msg cb Ho Hd Hv Hn Hm Hf Hl.
  assert (Hm' : Forall (fun d => In d (numbered 0 v) /\ used d) (map (entry v) msg)).
  { apply Forall_forall. intros d Hin. apply in_map_iff in Hin. destruct Hin as [i [<- Hin]].
    rewrite Forall_forall in Hm. destruct (entry_spec v i (Hm i Hin)) as [A [B _]]. split; assumption. }
  destruct (numbered_round_trip f ord m v rd (map (entry v) msg) cb Ho Hd Hv Hn Hm' Hl) as [r0 [r [E0 [E C]]]].
  exists r0, r. split; [exact E0|]. split; [|exact C].
  replace (length msg) with (length (map (resym f) (map (entry v) msg))) by (rewrite !map_length; reflexivity).
  apply run_read. rewrite map_map. rewrite E. f_equal. f_equal. rewrite !map_map.
  apply map_ext_in. intros i Hi. rewrite Forall_forall in Hm.
  destruct (entry_spec v i (Hm i Hi)) as [_ [_ [Es Hlt]]]. rewrite Es, (Hf i Hlt). reflexivity.
Qed.

Lemma positions_construct : forall f ord m v rd, permuting ord ->
  describes rd (map (resym f) (numbered 0 v)) -> valid_description m (numbered 0 v) ->
  (exists i, used_position v i) -> exists cb, new_codebook_from ord rd m = Ret (Okay cb).
Proof.
  intros f ord m v rd Ho Hd Hv [i Hi]. rewrite (new_from_list _ _ _ _ _ Hd).
  destruct (construction_total N ord m _ Ho (resym_valid f m _ Hv)) as [A _]. apply A.
  destruct (entry_spec v i Hi) as [B [C _]]. exists (resym f (entry v i)). split; [apply in_map; exact B|exact C].
Qed.

Lemma short_positions : forall ord m v, permuting ord -> (N.of_nat (length v) <= 2 ^ 32)%N ->
  valid_description m (numbered 0 v) ->
  ((exists i, used_position v i) -> exists cb, new_codebook_from ord (short_reader v) m = Ret (Okay cb)) /\
  (forall msg cb, new_codebook_from ord (short_reader v) m = Ret (Okay cb) -> Forall (used_position v) msg ->
     (N.of_nat (8 * length (encode m (map (entry v) msg))) < 2 ^ 32)%N ->
     exists r0 r, new (reader_for m) (encode m (map (entry v) msg)) = Ret r0 /\
       read_symbols (reader_for m) cb r0 (length msg) = Ret (r, map (fun i => Okay (N.of_nat i)) msg) /\
       consumed r = Ret (length (message_bits m (map (entry v) msg)))).
Proof.
  intros ord m v Ho Hlen Hv. split.
  - intros Hi. eapply positions_construct; [exact Ho|apply short_describes|exact Hv|exact Hi].
  - intros msg cb Hn Hm Hl. eapply positions_general; [exact Ho|apply short_describes|exact Hv|exact Hn|exact Hm| |exact Hl].
    intros i Hi. cbv beta. apply N.mod_small.
    change W32 with (2 ^ 32)%N. lia.
Qed.

Lemma table_positions : forall w ord m bits codes, permuting ord ->
  length bits <= length codes -> (N.of_nat (length bits) <= 2 ^ w)%N ->
  valid_description m (numbered 0 (side_by_side bits codes)) ->
  ((exists i, used_position (side_by_side bits codes) i) ->
     exists cb, new_codebook_from ord (table_reader w (mk_table_desc bits codes)) m = Ret (Okay cb)) /\
  (forall msg cb, new_codebook_from ord (table_reader w (mk_table_desc bits codes)) m = Ret (Okay cb) ->
     Forall (used_position (side_by_side bits codes)) msg ->
     (N.of_nat (8 * length (encode m (map (entry (side_by_side bits codes)) msg))) < 2 ^ 32)%N ->
     exists r0 r, new (reader_for m) (encode m (map (entry (side_by_side bits codes)) msg)) = Ret r0 /\
       read_symbols (reader_for m) cb r0 (length msg) = Ret (r, map (fun i => Okay (N.of_nat i)) msg) /\
       consumed r = Ret (length (message_bits m (map (entry (side_by_side bits codes)) msg)))).
Proof.
  intros w ord m bits codes Ho Hl Hw Hv.
  pose proof (table_describes w (mk_table_desc bits codes) Hl) as D. cbn [td_bits td_codes] in D. split.
  - intros Hi. eapply positions_construct; [exact Ho|exact D|exact Hv|exact Hi].
  - intros msg cb Hn Hm Hlen. eapply positions_general; [exact Ho|exact D|exact Hv|exact Hn|exact Hm| |exact Hlen].
    intros i Hi. cbv beta. apply N.mod_small. rewrite side_by_side_length in Hi by exact Hl. lia.
Qed.

Lemma table_too_short : forall w ord m bits codes, length codes < length bits ->
  (exists i b, nth_error bits i = Some b /\ 0 < b) ->
  forall x, new_codebook_from ord (table_reader w (mk_table_desc bits codes)) m <> Ret x.
Proof.
  intros w ord m bits codes Hl [i [b [Ei Hb]]] x E. unfold new_codebook_from in E.
  set (rd := table_reader w (mk_table_desc bits codes)) in *.
  assert (Hi : i < length bits) by (apply nth_error_Some; congruence).
  change (dr_len rd) with (length bits) in E.
  destruct (from_pass1 rd m (seq 0 (length bits)) 0 0 []) as [[mb cc]| |] eqn:E1; cbn [obind] in E; try discriminate E.
  assert (b <= mb).
  { eapply pass1_some; [exact E1|apply in_seq; split; [lia|exact Hi]|]. cbn. apply index_at_nth. exact Ei. }
  destruct (Nat.eqb_spec mb 0); [lia|].
  destruct (shl32 1 _) as [tl| |]; cbn [obind] in E; try discriminate E.
  match type of E with obind ?y _ = _ => destruct y as [[t c]| |] eqn:E2 end; cbn [obind] in E; try discriminate E.
  revert E2. eapply (pass2_not_ret _ rd m); [apply in_seq; split; [|exact Hl]; lia|].
  cbn. unfold index_at. rewrite (proj2 (nth_error_None codes (length codes))) by lia. reflexivity.
Qed.

(** 257 codewords of 9 bits and symbols of 8 bits. *)
Definition wide_bits : list nat := repeat 9 257.
Definition wide_codes : list N := map N.of_nat (seq 0 257).

Definition wide_codebook : codebook N :=
  match new_codebook_from (fun _ cc => cc) (table_reader 8 (mk_table_desc wide_bits wide_codes)) MSB with
  | Ret (Okay cb) => cb
  | _ => mk_codebook [] [] 0
  end.

Lemma wide_fits : forall i d, nth_error (numbered 0 (side_by_side wide_bits wide_codes)) i = Some d ->
  d = mk_desc (N.of_nat i) 9 i /\ i < 257.
Proof.
  intros i d E. assert (Hi : i < 257).
  { assert (i < length (numbered 0 (side_by_side wide_bits wide_codes))) as Hl by (apply nth_error_Some; congruence).
    rewrite numbered_length, side_by_side_length in Hl by (vm_compute; lia). exact Hl. }
  destruct (numbered_nth _ _ _ _ E) as [s [Es ->]].
  destruct (side_by_side_nth _ _ _ _ Es) as [E1 E2]. unfold wide_bits, wide_codes in *.
  apply nth_error_In, repeat_spec in E1. rewrite E1.
  rewrite (map_nth_error N.of_nat i (seq 0 257) (d := i)) in E2.
  - injection E2 as E2. rewrite <- E2. split; [reflexivity|exact Hi].
  - rewrite (nth_error_nth' _ 0) by (rewrite seq_length; exact Hi). rewrite seq_nth by exact Hi. reflexivity.
Qed.

Lemma codeword_length : forall m c b, length (codeword m c b) = b.
Proof.
  intros m c b. unfold codeword. destruct m; rewrite ?rev_length, map_length, seq_length; reflexivity.
Qed.

Lemma prefix_same_length : forall a b, is_prefix a b -> length a = length b -> a = b.
Proof.
  intros a b [c ->] H. rewrite app_length in H. destruct c; [symmetry; apply app_nil_r|cbn [length] in H; lia].
Qed.

Lemma wide_words_distinct : forall i j, i < 257 -> j < 257 ->
  codeword MSB (N.of_nat i) 9 = codeword MSB (N.of_nat j) 9 -> i = j.
Proof.
  intros i j Hi Hj E.
  assert (V : forall k, k < 257 -> value_be (codeword MSB (N.of_nat k) 9) = N.of_nat k).
  { assert (A : forallb (fun k => (value_be (codeword MSB (N.of_nat k) 9) =? N.of_nat k)%N) (seq 0 257) = true)
      by (vm_compute; reflexivity).
    intros k Hk. rewrite forallb_forall in A. apply N.eqb_eq. apply A. apply in_seq. lia. }
  pose proof (V i Hi) as A. rewrite E, (V j Hj) in A. lia.
Qed.

Lemma wide_valid : valid_description MSB (numbered 0 (side_by_side wide_bits wide_codes)).
Proof.
  split; [|split].
  - intros d Hin _. apply In_nth_error in Hin. destruct Hin as [i E]. apply wide_fits in E. destruct E as [-> Hi].
    cbn [d_bits d_code longest]. split; [lia|]. change (2 ^ N.of_nat 9)%N with 512%N. split; lia.
  - intros i j a b Ea Eb Hij _ _ P. apply wide_fits in Ea. apply wide_fits in Eb.
    destruct Ea as [-> Hi], Eb as [-> Hj]. unfold word in P. cbn [d_bits d_code] in P.
    apply prefix_same_length in P; [|rewrite !codeword_length; reflexivity].
    apply Hij. apply wide_words_distinct; assumption.
  - split; vm_compute; discriminate.
Qed.

Lemma narrow_symbols_refuted : exists w ord m bits codes cb i j r0 r,
  permuting ord /\ length bits <= length codes /\ valid_description m (numbered 0 (side_by_side bits codes)) /\
  new_codebook_from ord (table_reader w (mk_table_desc bits codes)) m = Ret (Okay cb) /\
  used_position (side_by_side bits codes) i /\ used_position (side_by_side bits codes) j /\ i <> j /\
  new (reader_for m) (encode m [entry (side_by_side bits codes) i; entry (side_by_side bits codes) j]) = Ret r0 /\
  read_symbols (reader_for m) cb r0 2 = Ret (r, [Okay 0%N; Okay 0%N]).
Proof.
  exists 8%N, (fun _ cc => cc), MSB, wide_bits, wide_codes, wide_codebook, 0, 256.
  eexists _, _. split; [intros path cc; apply Permutation.Permutation_refl|].
  split; [vm_compute; lia|]. split; [exact wide_valid|].
  split; [vm_compute; reflexivity|].
  split; [exists (mk_short 0%N 9); split; [reflexivity|cbn; lia]|].
  split; [exists (mk_short 256%N 9); split; [vm_compute; reflexivity|cbn; lia]|].
  split; [discriminate|].
  split; [vm_compute; reflexivity|]. vm_compute. reflexivity.
Qed.

(** Four words, the second entry unused. *)
Definition demo_short : list short_desc := [mk_short 0 1; mk_short 0 0; mk_short 2 2; mk_short 6 3].

Lemma demo_short_valid : valid_description MSB (numbered 0 demo_short).
Proof.
  split; [|split].
  - intros d Hin Hu. cbn in Hin. repeat (destruct Hin as [<- |Hin]; [cbn; split; [lia|split; reflexivity]|]). destruct Hin.
  - intros i j a b Ea Eb Hij Ha Hb [c P].
    destruct i as [|[|[|[|i]]]]; destruct j as [|[|[|[|j]]]]; cbn in Ea, Eb;
      try (destruct i; discriminate Ea); try (destruct j; discriminate Eb);
      try (exfalso; apply Hij; reflexivity);
      injection Ea as <-; injection Eb as <-; vm_compute in P; try discriminate P;
      unfold used in *; cbn in Ha, Hb; lia.
  - split; vm_compute; discriminate.
Qed.

Lemma readers_empty :
  (forall (S : Type) (v : list (desc S)), dr_is_empty (full_reader v) = true <-> dr_len (full_reader v) = 0) /\
  (forall v, dr_is_empty (short_reader v) = true <-> dr_len (short_reader v) = 0) /\
  (forall w t, dr_is_empty (table_reader w t) = true <-> dr_len (table_reader w t) = 0).
Proof. split; [intros S v; destruct v|split; [intros v; destruct v|intros w [[|b bits] codes]]]; (split; [reflexivity || discriminate|reflexivity || discriminate]). Qed.
