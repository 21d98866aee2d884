(** Counting table entries: the tables below one 10-bit string. *)
From Coq Require Import List Arith NArith ZArith Bool Lia Permutation.
From Coq Require Import ZifyBool ZifyNat ZifyN.
From Verif Require Import Base BitModel BitSpec BitProofs CodebookModel CodebookSpec CodebookProofs CodebookProofs2.
Import ListNotations.
Local Open Scope nat_scope.
Ltac Zify.zify_post_hook ::= Z.div_mod_to_equations.

Lemma cuts_in : forall w p, In p (cuts w) <->
  exists k r, 1 <= k /\ length p = 10 * k /\ r <> [] /\ w = p ++ r.
Proof.
  intros w p. unfold cuts. rewrite in_map_iff. split.
  - intros [k [<- Hk]]. apply in_seq in Hk. exists k, (skipn (10 * k) w).
    split; [lia|]. split; [rewrite firstn_length; lia|]. split; [|symmetry; apply firstn_skipn].
    intros H. apply (f_equal (@length bool)) in H. rewrite skipn_length in H. cbn [length] in H. lia.
  - intros [k [r [Hk [Hp [Hr ->]]]]]. exists k. rewrite firstn_app, Hp, Nat.sub_diag, firstn_O, app_nil_r.
    split; [rewrite <- Hp; apply firstn_all|]. apply in_seq. rewrite app_length, Hp.
    assert (0 < length r) by (destruct r; [congruence|cbn; lia]). lia.
Qed.

Lemma all_cuts_in : forall ws p, In p (all_cuts ws) <-> exists w, In w ws /\ In p (cuts w).
Proof. intros ws p. unfold all_cuts. rewrite nodup_In, in_flat_map. reflexivity. Qed.

Lemma all_cuts_nodup : forall ws, NoDup (all_cuts ws).
Proof. intros ws. apply NoDup_nodup. Qed.

Lemma left_after_app : forall p r, left_after p (p ++ r) = length r.
Proof.
  intros p r. unfold left_after. rewrite firstn_app, Nat.sub_diag, firstn_O, app_nil_r, firstn_all.
  destruct (list_eq_dec bool_dec p p); [|congruence]. rewrite app_length. lia.
Qed.

Lemma left_after_pos : forall p w, 0 < left_after p w -> exists r, w = p ++ r.
Proof.
  intros p w H. unfold left_after in H. destruct (list_eq_dec bool_dec (firstn (length p) w) p) as [E|]; [|lia].
  exists (skipn (length p) w). rewrite <- E at 1. rewrite firstn_skipn. reflexivity.
Qed.

Lemma list_max_in : forall l x, In x l -> x <= list_max l.
Proof.
  induction l as [|y l IH]; intros x H; [destruct H|].
  change (list_max (y :: l)) with (Nat.max y (list_max l)).
  destruct H as [->|H]; [lia|]. specialize (IH x H). lia.
Qed.

Lemma list_max_bound : forall l n, (forall x, In x l -> x <= n) -> list_max l <= n.
Proof. intros l n H. apply list_max_le. apply Forall_forall. exact H. Qed.

(** Bits left, seen from the table of [u]. *)
Lemma longest_sub : forall u p B, length u = 10 ->
  list_max (map (left_after (u ++ p)) (map fst B)) = list_max (map (left_after p) (map fst (sub u B))).
Proof.
  intros u p B Hu. apply Nat.le_antisymm; apply list_max_bound; intros x Hx;
    apply in_map_iff in Hx; destruct Hx as [w [<- Hw]]; apply in_map_iff in Hw; destruct Hw as [[w0 i] [<- Hin]];
    cbn [fst].
  - destruct (Nat.eq_dec (left_after (u ++ p) w0) 0) as [->|Hne]; [lia|].
    destruct (left_after_pos (u ++ p) w0 ltac:(lia)) as [r ->]. rewrite left_after_app in *.
    rewrite <- (left_after_app p r). apply list_max_in. apply in_map. 
    change (p ++ r) with (fst (p ++ r, i)). apply in_map. apply sub_in. split; [exact Hu|]. split.
    + intros E. apply app_eq_nil in E. destruct E as [_ ->]. cbn in Hne. lia.
    + rewrite app_assoc. exact Hin.
  - apply sub_in in Hin. destruct Hin as [_ [_ Hin]].
    destruct (Nat.eq_dec (left_after p w0) 0) as [->|Hne]; [lia|].
    destruct (left_after_pos p w0 ltac:(lia)) as [r ->]. rewrite left_after_app.
    rewrite <- (left_after_app (u ++ p) r). apply list_max_in. apply in_map.
    rewrite <- app_assoc. change (u ++ p ++ r) with (fst (u ++ p ++ r, i)). apply in_map. exact Hin.
Qed.

Lemma longest_root : forall B, list_max (map (left_after []) (map fst B)) = maxl B.
Proof.
  induction B as [|[w i] B IH]; [reflexivity|]. cbn [map fst maxl].
  change (list_max (left_after [] w :: map (left_after []) (map fst B)))
    with (Nat.max (left_after [] w) (list_max (map (left_after []) (map fst B)))).
  rewrite IH. change w with ([] ++ w) at 1. rewrite left_after_app. reflexivity.
Qed.

(** The tables below [u], as strings. *)
Definition below (u : list bool) (B : list item) : list (list bool) :=
  map (app u) ([] :: all_cuts (map fst (sub u B))).

Lemma below_head : forall u B p, length u = 10 -> In p (below u B) -> firstn 10 p = u.
Proof.
  intros u B p Hu H. unfold below in H. apply in_map_iff in H. destruct H as [q [<- _]].
  rewrite <- Hu, firstn_app, Nat.sub_diag, firstn_O, app_nil_r. apply firstn_all.
Qed.

Lemma nodup_map_app : forall (u : list bool) l, NoDup l -> NoDup (map (app u) l).
Proof.
  intros u l H. induction H as [|x l Hx H IH]; cbn [map]; constructor; [|exact IH].
  intros Hin. apply in_map_iff in Hin. destruct Hin as [y [E Hy]]. apply app_inv_head in E. congruence.
Qed.

Lemma below_nodup : forall u B, NoDup (below u B).
Proof.
  intros u B. unfold below. apply nodup_map_app. constructor; [|apply all_cuts_nodup].
  intros H. apply all_cuts_in in H. destruct H as [w [_ H]]. apply cuts_in in H. destruct H as [k [r [Hk [Hl _]]]].
  cbn [length] in Hl. lia.
Qed.

Lemma flat_below_nodup : forall B us, NoDup us -> (forall u, In u us -> length u = 10) ->
  NoDup (flat_map (fun u => below u B) us).
Proof.
  intros B us H. induction H as [|u us Hu H IH]; intros HL; cbn [flat_map]; [constructor|].
  assert (Lu : length u = 10) by (apply HL; left; reflexivity).
  assert (HL' : forall v, In v us -> length v = 10) by (intros v Hv; apply HL; right; exact Hv).
  specialize (IH HL'). revert IH. generalize (below_head u B) (below_nodup u B). generalize (below u B) as l.
  intros l Hh ND IH. induction ND as [|x l Hx ND IHl]; cbn [app]; [exact IH|]. constructor.
  - intros Hin. apply in_app_or in Hin. destruct Hin as [Hin|Hin]; [exact (Hx Hin)|].
    apply in_flat_map in Hin. destruct Hin as [v [Hv Hxv]].
    apply (below_head v B x (HL' v Hv)) in Hxv. rewrite (Hh x Lu (or_introl eq_refl)) in Hxv. congruence.
  - apply IHl. intros p L Hp. apply Hh; [exact L|right; exact Hp].
Qed.

Lemma in_below : forall u B p, length u = 10 -> sub u B <> [] ->
  (In p (below u B) <-> In p (all_cuts (map fst B)) /\ firstn 10 p = u).
Proof.
  intros u B p Hu Hs. split.
  - intros H. split; [|apply (below_head u B p Hu H)]. unfold below in H. apply in_map_iff in H.
    destruct H as [q [<- H]]. apply all_cuts_in. destruct H as [<-|H].
    + destruct (sub u B) as [|[w i] r] eqn:E; [congruence|].
      assert (Hin : In (w, i) (sub u B)) by (rewrite E; left; reflexivity).
      apply sub_in in Hin. destruct Hin as [_ [Hw Hin]]. exists (u ++ w). split.
      * change (u ++ w) with (fst (u ++ w, i)). apply in_map. exact Hin.
      * apply cuts_in. exists 1, w. rewrite app_nil_r. repeat split; [lia|lia|exact Hw].
    + apply all_cuts_in in H. destruct H as [w [Hw Hq]]. apply in_map_iff in Hw. destruct Hw as [[w0 i] [E Hin]].
      cbn [fst] in E. subst w0. apply sub_in in Hin. destruct Hin as [_ [_ Hin]]. exists (u ++ w). split.
      * change (u ++ w) with (fst (u ++ w, i)). apply in_map. exact Hin.
      * apply cuts_in in Hq. destruct Hq as [k [r [Hk [Hl [Hr ->]]]]]. apply cuts_in. exists (k + 1), r.
        rewrite app_length. repeat split; [lia|lia|exact Hr|rewrite app_assoc; reflexivity].
  - intros [H F]. apply all_cuts_in in H. destruct H as [w [Hw Hp]]. apply in_map_iff in Hw.
    destruct Hw as [[w0 i] [E Hin]]. cbn [fst] in E. subst w0.
    apply cuts_in in Hp. destruct Hp as [k [r [Hk [Hl [Hr ->]]]]].
    rewrite <- (firstn_skipn 10 p), F in Hin |- *. set (q := skipn 10 p) in *.
    assert (Lq : length q = 10 * (k - 1)) by (unfold q; rewrite skipn_length; lia).
    unfold below. apply in_map. destruct q as [|x q'] eqn:Eq; [left; reflexivity|]. right. rewrite <- Eq in *.
    apply all_cuts_in. exists (q ++ r). split.
    + change (q ++ r) with (fst (q ++ r, i)). apply in_map. apply sub_in. split; [exact Hu|]. split.
      * intros E. apply app_eq_nil in E. destruct E as [_ E]. exact (Hr E).
      * rewrite app_assoc. exact Hin.
    + apply cuts_in. exists (k - 1), r. repeat split; [|exact Lq|exact Hr].
      rewrite Eq in Lq. cbn [length] in Lq. lia.
Qed.

Lemma all_cuts_split : forall B us, NoDup us -> (forall u, In u us <-> length u = 10 /\ sub u B <> []) ->
  Permutation (all_cuts (map fst B)) (flat_map (fun u => below u B) us).
Proof.
  intros B us ND H. apply NoDup_Permutation.
  - apply all_cuts_nodup.
  - apply flat_below_nodup; [exact ND|]. intros u Hu. apply H in Hu. apply Hu.
  - intros p. rewrite in_flat_map. split.
    + intros Hp. exists (firstn 10 p).
      assert (Hx : length (firstn 10 p) = 10 /\ sub (firstn 10 p) B <> []).
      { apply all_cuts_in in Hp. destruct Hp as [w [Hw Hp]]. apply in_map_iff in Hw.
        destruct Hw as [[w0 i] [E Hin]]. cbn [fst] in E. subst w0.
        apply cuts_in in Hp. destruct Hp as [k [r [Hk [Hl [Hr ->]]]]].
        assert (L10 : length (firstn 10 p) = 10) by (rewrite firstn_length; lia). split; [exact L10|].
        intros E. assert (Hs : In (skipn 10 p ++ r, i) (sub (firstn 10 p) B)); [|rewrite E in Hs; exact Hs].
        apply sub_in. split; [exact L10|]. split.
        - intros E'. apply app_eq_nil in E'. destruct E' as [_ E']. exact (Hr E').
        - rewrite app_assoc, firstn_skipn. exact Hin. }
      split; [apply H; exact Hx|]. apply in_below; [apply Hx|apply Hx|]. split; [exact Hp|reflexivity].
    + intros [u [Hu Hp]]. apply H in Hu. destruct Hu as [Lu Hs]. apply (in_below u B p Lu Hs) in Hp. apply Hp.
Qed.

(** ** Sums *)

Definition nsum (l : list N) : N := fold_right N.add 0%N l.

Lemma nsum_app : forall a b, nsum (a ++ b) = (nsum a + nsum b)%N.
Proof. induction a as [|x a IH]; intros b; [reflexivity|]. cbn [app nsum fold_right]. fold (nsum (a ++ b)) (nsum a). rewrite IH. lia. Qed.

Lemma nsum_cons : forall x a, nsum (x :: a) = (x + nsum a)%N.
Proof. reflexivity. Qed.

Lemma nsum_perm : forall a b, Permutation a b -> nsum a = nsum b.
Proof. intros a b H. induction H; rewrite ?nsum_cons in *; lia. Qed.

Lemma nsum_flat : forall (A : Type) (f : A -> list N) l, nsum (flat_map f l) = nsum (map (fun x => nsum (f x)) l).
Proof.
  intros A f. induction l as [|x l IH]; [reflexivity|]. cbn [flat_map map]. rewrite nsum_app, IH. reflexivity.
Qed.

(** Entries of the tables below the first one. *)
Definition cost (B : list item) : N := sum_entries (map fst B) (all_cuts (map fst B)).

Lemma cost_split : forall B us, NoDup us -> (forall u, In u us <-> length u = 10 /\ sub u B <> []) ->
  cost B = nsum (map (fun u => pow2 (lbits (sub u B)) + cost (sub u B))%N us).
Proof.
  intros B us ND H. unfold cost, sum_entries. fold (nsum (map (entries_at (map fst B)) (all_cuts (map fst B)))).
  rewrite (nsum_perm _ _ (Permutation_map _ (all_cuts_split B us ND H))).
  assert (E : forall l, (forall u, In u l -> In u us) ->
     nsum (map (entries_at (map fst B)) (flat_map (fun u => below u B) l)) =
     nsum (map (fun u => pow2 (lbits (sub u B)) + fold_right N.add 0%N
        (map (entries_at (map fst (sub u B))) (all_cuts (map fst (sub u B)))))%N l)).
  2:{ apply E. intros u Hu. exact Hu. }
  induction l as [|u l IH]; intros Hl; [reflexivity|]. cbn [flat_map map]. rewrite map_app, nsum_app, nsum_cons.
  rewrite IH by (intros v Hv; apply Hl; right; exact Hv). f_equal.
  destruct (proj1 (H u) (Hl u (or_introl eq_refl))) as [Lu Hs].
  unfold below. rewrite map_map. cbn [map]. rewrite nsum_cons. f_equal.
  - unfold entries_at. rewrite longest_sub by exact Lu. rewrite longest_root. reflexivity.
  - unfold nsum. f_equal. apply map_ext. intros p. unfold entries_at. rewrite longest_sub by exact Lu. reflexivity.
Qed.

Lemma cost_root : forall B, table_entries (map fst B) = (pow2 (lbits B) + cost B)%N.
Proof.
  intros B. unfold table_entries, sum_entries, cost. cbn [map fold_right]. f_equal.
  unfold entries_at. rewrite longest_root. reflexivity.
Qed.

(** A word is cut at most [(length - 1) / 10] times, so long tables need many long
    words. *)
Lemma nodup_shorter : forall (l : list (list bool)), length (nodup (list_eq_dec bool_dec) l) <= length l.
Proof.
  induction l as [|x l IH]; [apply Nat.le_refl|]. cbn [nodup].
  destruct (in_dec (list_eq_dec bool_dec) x l); cbn [length]; lia.
Qed.

Lemma all_cuts_length : forall ws,
  length (all_cuts ws) <= list_sum (map (fun w => (length w - 1) / 10) ws).
Proof.
  intros ws. unfold all_cuts. etransitivity; [apply nodup_shorter|].
  induction ws as [|w ws IH]; [apply Nat.le_refl|]. cbn [flat_map map].
  rewrite app_length. change (list_sum (?x :: ?l)) with (x + list_sum l).
  unfold cuts at 1. rewrite map_length, seq_length. lia.
Qed.

Lemma entries_at_le : forall ws p, (entries_at ws p <= 1024)%N.
Proof. intros ws p. unfold entries_at. change 1024%N with (2 ^ 10)%N. apply N.pow_le_mono_r; lia. Qed.

Lemma table_entries_le : forall ws,
  (table_entries ws <= 1024 + 1024 * N.of_nat (list_sum (map (fun w => (length w - 1) / 10)%nat ws)))%N.
Proof.
  intros ws. unfold table_entries, sum_entries. cbn [map fold_right].
  pose proof (entries_at_le ws []) as H0. pose proof (all_cuts_length ws) as HL. revert HL.
  generalize (list_sum (map (fun w => (length w - 1) / 10) ws)) as k. generalize (all_cuts ws) as l.
  assert (G : forall l, (fold_right N.add 0 (map (entries_at ws) l) <= 1024 * N.of_nat (length l))%N).
  { induction l as [|p l IH]; cbn [map fold_right length]; [lia|]. pose proof (entries_at_le ws p). lia. }
  intros l k Hk. specialize (G l). lia.
Qed.
