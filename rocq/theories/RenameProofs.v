(** Proofs for C194. *)
From Coq Require Import List Arith NArith ZArith Bool Lia Permutation.
From Coq Require Import ZifyBool ZifyNat ZifyN.
From Verif Require Import Base BitModel BitSpec BitProofs BitQueueSpec BitQueueProofs CodebookModel CodebookSpec CodebookProofs CodebookProofs5 CbQueueSpec CbQueueProofs
  CompleteProofs RenameSpec.
Import ListNotations.
Local Open Scope nat_scope.

Definition ren {S T : Type} (f : S -> T) (c : list bool * S) : list bool * T := (fst c, f (snd c)).

Definition apart {S : Type} (a b : list bool * S) : Prop := ~ is_prefix (fst a) (fst b) /\ ~ is_prefix (fst b) (fst a).
Definition free {S : Type} (codes : pending S) : Prop := ForallOrdPairs apart codes.

Lemma free_cons : forall (S : Type) (c : list bool * S) cs, free (c :: cs) <-> Forall (apart c) cs /\ free cs.
Proof. intros S c cs. split; [intros H; inversion H; subst; auto|intros [A B]; constructor; assumption]. Qed.

Lemma free_filter : forall (S : Type) p (codes : pending S), free codes -> free (filter p codes).
Proof.
  intros S p codes. induction codes as [|c cs IH]; intros H; [constructor|]. apply free_cons in H as [A B]. cbn [filter].
  destruct (p c); [|exact (IH B)]. apply free_cons. split; [|exact (IH B)]. apply Forall_forall. intros x Hx. apply filter_In in Hx as [Hx _].
  rewrite Forall_forall in A. exact (A x Hx).
Qed.

Lemma free_one : forall (S : Type) u (codes : pending S), free codes -> length (complete u codes) <= 1.
Proof.
  intros S u codes H. pose proof (free_filter S (fun c => (length (fst c) <=? 10) && same_bits (firstn (length (fst c)) u) (fst c)) codes H) as F.
  change (free (complete u codes)) in F. destruct (complete u codes) as [|a [|b t]] eqn:E; cbn [length]; try lia. exfalso.
  apply free_cons in F as [A _]. inversion A as [|x y [K1 K2] _]; subst.
  assert (Ia : In (fst a, snd a) (complete u codes)) by (rewrite E, <- surjective_pairing; left; reflexivity).
  assert (Ib : In (fst b, snd b) (complete u codes)) by (rewrite E, <- surjective_pairing; right; left; reflexivity).
  apply complete_in in Ia as [_ [_ Pa]]. apply complete_in in Ib as [_ [_ Pb]].
  destruct (Nat.le_ge_cases (length (fst a)) (length (fst b))) as [L|L].
  - exact (K1 (prefix_comparable _ _ _ Pa Pb L)).
  - exact (K2 (prefix_comparable _ _ _ Pb Pa L)).
Qed.

Lemma same_bits_true : forall a b, same_bits a b = true <-> a = b.
Proof. intros a b. unfold same_bits. destruct (list_eq_dec bool_dec a b); split; congruence. Qed.

Lemma longer_in : forall (S : Type) u (codes : pending S) x, In x (longer u codes) -> exists w, In (w, snd x) codes /\ w = u ++ fst x.
Proof.
  intros S u codes x H. unfold longer in H. apply in_flat_map in H as [c [Hc H]].
  destruct ((10 <? length (fst c)) && same_bits (firstn 10 (fst c)) u) eqn:E; [|destruct H]. apply andb_true_iff in E as [_ E]. apply same_bits_true in E.
  destruct H as [<-|[]]. cbn [fst snd]. exists (fst c). split; [rewrite <- surjective_pairing; exact Hc|]. rewrite <- E. symmetry. apply firstn_skipn.
Qed.

Lemma prefix_cancel : forall u a b, is_prefix a b -> is_prefix (u ++ a) (u ++ b).
Proof. intros u a b [c ->]. exists c. rewrite app_assoc. reflexivity. Qed.

Lemma free_longer : forall (S : Type) u (codes : pending S), free codes -> free (longer u codes).
Proof.
  intros S u codes. induction codes as [|c cs IH]; intros H; [constructor|]. apply free_cons in H as [A B]. unfold longer. cbn [flat_map]. fold (longer u cs).
  destruct ((10 <? length (fst c)) && same_bits (firstn 10 (fst c)) u) eqn:E; [|exact (IH B)]. cbn [app]. apply free_cons. split; [|exact (IH B)].
  apply andb_true_iff in E as [_ E]. apply same_bits_true in E.
  apply Forall_forall. intros x Hx. destruct (longer_in S u cs x Hx) as [w [Hw Ew]]. rewrite Forall_forall in A. destruct (A _ Hw) as [K1 K2]. cbn [fst] in K1, K2.
  assert (Ec : fst c = u ++ skipn 10 (fst c)) by (rewrite <- E; symmetry; apply firstn_skipn).
  split; cbn [fst]; intros P; [apply K1|apply K2]; rewrite Ew, Ec; apply prefix_cancel; exact P.
Qed.

(** ** Renaming and reordering *)

Lemma look_perm : forall (S T : Type) (a : pending S) (b : pending T), Permutation (map fst a) (map fst b) -> look_ahead a = look_ahead b.
Proof.
  intros S T a b H. unfold look_ahead. f_equal. rewrite <- (map_map fst (@length bool) a), <- (map_map fst (@length bool) b).
  apply (Permutation_map (@length bool)) in H. revert H. generalize (map (@length bool) (map fst a)) (map (@length bool) (map fst b)). clear.
  intros x y H. induction H; cbn [fold_right]; lia.
Qed.

Lemma complete_ren : forall (S T : Type) (f : S -> T) u codes, complete u (map (ren f) codes) = map (ren f) (complete u codes).
Proof.
  intros S T f u codes. unfold complete. induction codes as [|c cs IH]; [reflexivity|]. cbn [map filter ren fst].
  destruct ((length (fst c) <=? 10) && same_bits (firstn (length (fst c)) u) (fst c)); [|exact IH]. cbn [map]. rewrite IH. reflexivity.
Qed.

Lemma longer_ren : forall (S T : Type) (f : S -> T) u codes, longer u (map (ren f) codes) = map (ren f) (longer u codes).
Proof.
  intros S T f u codes. unfold longer. induction codes as [|c cs IH]; [reflexivity|]. cbn [map flat_map ren fst snd]. rewrite IH, map_app.
  destruct ((10 <? length (fst c)) && same_bits (firstn 10 (fst c)) u); reflexivity.
Qed.

Lemma complete_perm : forall (S : Type) u (a b : pending S), Permutation a b -> Permutation (complete u a) (complete u b).
Proof.
  intros S u a b H. unfold complete. induction H as [|x a b H IH|x y a|a b c H1 IH1 H2 IH2]; cbn [filter].
  - apply perm_nil.
  - destruct (_ && _); [apply perm_skip|]; exact IH.
  - destruct ((length (fst y) <=? 10) && _); destruct ((length (fst x) <=? 10) && _); try apply perm_swap; apply Permutation_refl.
  - exact (Permutation_trans IH1 IH2).
Qed.

Lemma decode_ren : forall (S T : Type) (f : S -> T) e m l rounds q codes codes', free codes -> Permutation (map (ren f) codes) codes' ->
  q_decode rounds e m l q codes' = match q_decode rounds e m l q codes with
                                   | Some (q', Some s) => Some (q', Some (f s))
                                   | Some (q', None) => Some (q', None)
                                   | None => None
                                   end.
Proof.
  intros S T f e m l. induction rounds as [|k IH]; intros q codes codes' Hf Hp; [reflexivity|]. cbn [q_decode].
  assert (F : forall c : pending S, map fst (map (ren f) c) = map fst c) by (intros c; rewrite map_map; reflexivity).
  assert (L : look_ahead codes' = look_ahead codes).
  { symmetry. apply look_perm. rewrite <- F. apply Permutation_map. exact Hp. }
  rewrite L. set (u := as_written e m (snd (q_get32 l q (look_ahead codes)))).
  pose proof (complete_perm T u _ _ Hp) as Pc. rewrite complete_ren in Pc. pose proof (free_one S u codes Hf) as One.
  destruct (complete u codes) as [|[w s] t] eqn:Ec.
  - cbn [map] in Pc. apply Permutation_nil in Pc. rewrite Pc.
    assert (Pl : Permutation (map (ren f) (longer u codes)) (longer u codes')).
    { rewrite <- longer_ren. unfold longer. apply Permutation_flat_map. exact Hp. }
    pose proof (free_longer S u codes Hf) as Fl. destruct (longer u codes) as [|c rest] eqn:El.
    + cbn [map] in Pl. apply Permutation_nil in Pl. rewrite Pl. reflexivity.
    + destruct (longer u codes') as [|c' rest'] eqn:El'.
      * apply Permutation_sym, Permutation_nil in Pl. discriminate Pl.
      * assert (L' : look_ahead (c' :: rest') = look_ahead (c :: rest)).
        { symmetry. apply look_perm. rewrite <- F. apply Permutation_map. exact Pl. }
        rewrite L'. destruct (enough _ _ _) as [[]|]; [|reflexivity|reflexivity]. apply IH; assumption.
  - cbn [length] in One. destruct t; [|cbn [length] in One; lia]. cbn [map ren fst snd] in Pc. apply Permutation_length_1_inv in Pc. rewrite Pc. cbn [ren fst snd].
    destruct (enough _ _ _) as [[]|]; reflexivity.
Qed.

Lemma free_codes : forall (S : Type) m (ds : list (desc S)), prefix_free m ds -> free (all_codes m ds).
Proof.
  intros S m ds. unfold all_codes. induction ds as [|d ds IH]; intros H; [constructor|].
  assert (H' : prefix_free m ds).
  { intros i j a b Ha Hb Hij Ua Ub. apply (H (Datatypes.S i) (Datatypes.S j) a b Ha Hb); try assumption. congruence. }
  cbn [filter]. destruct (0 <? d_bits d) eqn:E; [|exact (IH H')]. cbn [map]. apply free_cons. split; [|exact (IH H')].
  assert (Hu : used d) by (unfold used; lia).
  apply Forall_forall. intros x Hx. apply in_map_iff in Hx as [a [<- Ha]]. apply filter_In in Ha as [Ha Ua]. apply In_nth_error in Ha as [i Hi].
  assert (Hua : used a) by (unfold used; lia). split; cbn [fst].
  - exact (H 0 (Datatypes.S i) d a eq_refl Hi ltac:(discriminate) Hu Hua).
  - exact (H (Datatypes.S i) 0 a d Hi eq_refl ltac:(discriminate) Hua Hu).
Qed.

Lemma steps_ren : forall (S T : Type) (f : S -> T) e m (ds : list (desc S)) (ds' : list (desc T)) l, prefix_free m ds -> renamed f m ds ds' -> forall steps q,
  q_steps e m ds' l q (map (rename_step f) steps) =
  match q_steps e m ds l q steps with Some (q', os) => Some (q', map (rename_out f) os) | None => None end.
Proof.
  intros S T f e m ds ds' l Hp Hr. induction steps as [|st steps IH]; intros q; [reflexivity|]. cbn [map q_steps].
  assert (K : q_step e m ds' l q (rename_step f st) = match q_step e m ds l q st with Some (q', o) => Some (q', rename_out f o) | None => None end).
  { destruct st as [op|d]; cbn [rename_step q_step].
    - destruct (q_op e l q op) as [[q1 o]|]; reflexivity.
    - unfold q_codeword. rewrite (decode_ren S T f e m l 26 q (all_codes m ds) (all_codes m ds') (free_codes S m ds Hp) Hr).
      destruct (q_decode 26 e m l q (all_codes m ds)) as [[q1 [s|]]|]; reflexivity. }
  rewrite K. destruct (q_step e m ds l q st) as [[q1 o]|]; [|reflexivity]. rewrite IH. destruct (q_steps e m ds l q1 steps) as [[q2 os]|]; reflexivity.
Qed.

Lemma only_meaning : forall (S T : Type) (f : S -> T) ord ord' m (ds : list (desc S)) (ds' : list (desc T)) cb e buf steps r0,
  permuting ord -> permuting ord' -> valid_description m ds -> valid_description m ds' -> renamed f m ds ds' ->
  new_codebook ord ds m = Ret (Okay cb) -> bytes buf -> Forall step_ok steps -> new e buf = Ret r0 ->
  exists cb', new_codebook ord' ds' m = Ret (Okay cb') /\
    match run_mixed e cb r0 steps with
    | Ret (r, outs) => exists r', run_mixed e cb' r0 (map (rename_step f) steps) = Ret (r', map (rename_out f) outs) /\
                         left r' = left r /\ consumed r' = consumed r
    | Panic => run_mixed e cb' r0 (map (rename_step f) steps) = Panic
    | UB => False
    end.
Proof.
  intros S T f ord ord' m ds ds' cb e buf steps r0 Ho Ho' Hv Hv' Hr Hcb Hb Hs E0.
  assert (X : exists cb', new_codebook ord' ds' m = Ret (Okay cb')).
  { destruct (meaning m ds') as [|c cs] eqn:Em.
    - exfalso. unfold renamed in Hr. rewrite Em in Hr. apply Permutation_sym, Permutation_nil in Hr. unfold meaning in Hr. rewrite map_map in Hr.
      assert (N : forall d, In d ds -> ~ used d).
      { intros d Hd Hu. apply map_eq_nil in Hr. assert (In d (filter (fun d => 0 <? d_bits d) ds)) as K by (apply filter_In; split; [exact Hd|unfold used in Hu; lia]).
        rewrite Hr in K. destruct K. }
      rewrite (proj2 (construction_total S ord m ds Ho Hv) N) in Hcb. discriminate Hcb.
    - apply (proj1 (construction_total T ord' m ds' Ho' Hv')). assert (I : In c (meaning m ds')) by (rewrite Em; left; reflexivity).
      unfold meaning in I. apply in_map_iff in I as [d [_ I]]. apply filter_In in I as [I U]. exists d. split; [exact I|]. unfold used. lia. }
  destruct X as [cb' Hcb']. exists cb'. split; [exact Hcb'|].
  assert (Hs' : Forall step_ok (map (rename_step f) steps)).
  { apply Forall_forall. intros x Hx. apply in_map_iff in Hx as [st [<- Hx]]. rewrite Forall_forall in Hs. specialize (Hs st Hx). destruct st; exact Hs. }
  destruct (codeword_queue_exact S ord m ds cb e buf steps Ho Hv Hcb Hb Hs) as [r [Er Q]]. rewrite E0 in Er. injection Er as <-.
  destruct (codeword_queue_exact T ord' m ds' cb' e buf _ Ho' Hv' Hcb' Hb Hs') as [r [Er Q']]. rewrite E0 in Er. injection Er as <-.
  unfold q_mixed in Q, Q'. rewrite (steps_ren S T f e m ds ds' (bits_of e buf) (proj1 (proj2 Hv)) Hr) in Q'.
  destruct (q_steps e m ds _ _ steps) as [[q os]|]; [|rewrite Q; exact Q'].
  destruct Q as [r [-> [L C]]]. destruct Q' as [r' [R' [L' C']]]. exists r'. split; [exact R'|]. split; congruence.
Qed.
