(** C197 in a build without overflow checks. *)
From Coq Require Import List Arith NArith ZArith Bool Lia.
From Coq Require Import ZifyBool ZifyNat ZifyN.
From Verif Require Import Base BitModel BitSpec BitQueueSpec WordSpec CodebookModel CodebookSpec CodebookProofs5 CbQueueSpec CbQueueProofs
  ReleaseCbModel ReleaseCbSpec ReleaseCbProofs2 CbLoopSpec CbLoopProofs.
From Verif Require CompleteSpec.
Import ListNotations.
Local Open Scope nat_scope.

Lemma endless_reads : forall (S : Type) e (cb : codebook S) d k r, read_all k e cb r = Ret None ->
  exists r' syms, length syms = k /\ run_mixed e cb r (map Codeword (repeat d k)) = Ret (r', map (fun s => Sym (Okay s)) syms).
Proof.
  intros S e cb d. induction k as [|k IH]; intros r H; [exists r, []; split; reflexivity|]. cbn [read_all] in H. cbn [repeat map run_mixed].
  destruct (read_cb e cb r) as [[r1 [s|x]]| |]; cbn [obind] in *; try discriminate H.
  destruct (read_all k e cb r1) as [[[r2 l]|]| |] eqn:E; cbn [obind] in H; try discriminate H.
  destruct (IH r1 E) as [r' [syms [L F]]]. rewrite F. cbn [obind]. exists r', (s :: syms). split; [cbn [length]; lia|reflexivity].
Qed.

Lemma loop_reads : forall (S : Type) e (cb : codebook S) d fuel r,
  match read_all fuel e cb r with
  | Ret (Some (r', syms)) => exists x, run_mixed e cb r (map Codeword (repeat d (length syms + 1))) = Ret (r', map (fun s => Sym (Okay s)) syms ++ [Sym (Error x)])
  | Ret None => exists r' syms, length syms = fuel /\ run_mixed e cb r (map Codeword (repeat d fuel)) = Ret (r', map (fun s => Sym (Okay s)) syms)
  | _ => True
  end.
Proof.
  intros S e cb d fuel. induction fuel as [|fuel IH]; intros r.
  - cbn [read_all]. exists r, []. split; reflexivity.
  - cbn [read_all]. destruct (read_cb e cb r) as [[r1 [s|x]]| |] eqn:E; cbn [obind]; try exact I.
    + specialize (IH r1). destruct (read_all fuel e cb r1) as [[[r2 l]|]| |]; cbn [obind]; try exact I.
      * destruct IH as [x IH]. exists x. cbn [length Nat.add repeat map run_mixed]. rewrite E. cbn [obind]. rewrite IH. reflexivity.
      * destruct IH as [r' [syms [L IH]]]. exists r', (s :: syms). split; [cbn [length]; lia|]. cbn [repeat map run_mixed]. rewrite E. cbn [obind]. rewrite IH. reflexivity.
    + exists x. cbn [length Nat.add repeat map run_mixed]. rewrite E. reflexivity.
Qed.

Lemma release_endless : forall (S : Type) ord m (ds : list (desc S)) e buf d k,
  permuting ord -> valid_description m ds -> CompleteSpec.complete ds -> (exists d, In d ds /\ used d) -> bytes buf -> (N.of_nat (8 * length buf) < 2 ^ 32)%N ->
  Nat.min (CompleteSpec.longest_word ds) 10 <= 8 * (length buf mod 8) -> (N.of_nat k < 2 ^ 51)%N ->
  exists cb r syms, rc_new_codebook ord ds m = Ret (Okay cb) /\ length syms = k /\
    rc_mixed_from_new e cb buf (map Codeword (repeat d k)) = Ret (r, map (fun s => Sym (Okay s)) syms).
Proof.
  intros S ord m ds e buf d k Hord Hv Hc Hu Hb H32 HT Hk.
  destruct (proj1 (construction_total S ord m ds Hord Hv) Hu) as [cb Hcb].
  destruct (release_codewords S ord m ds Hord Hv Hu) as [cb' [Ecb' Hrun]].
  destruct (new_rep e buf Hb) as [r0 [E0 _]].
  pose proof (loop_complete S ord m ds cb e buf r0 k Hord Hv Hc Hcb Hb H32 HT E0) as L.
  destruct (endless_reads S e cb d k r0 L) as [r1 [syms [Ls E1]]].
  assert (Hok : Forall step_ok (map Codeword (repeat d k))) by (apply Forall_forall; intros st Hst; apply in_map_iff in Hst; destruct Hst as [d' [<- _]]; exact I).
  assert (HB : (8 * N.of_nat (length buf) + steps_skip (map Codeword (repeat d k)) < 2 ^ 64)%N).
  { rewrite message_skip, repeat_length. change (2 ^ 64)%N with 18446744073709551616%N. change (2 ^ 51)%N with 2251799813685248%N in Hk. change (2 ^ 32)%N with 4294967296%N in H32. lia. }
  destruct (Hrun e buf (map Codeword (repeat d k)) Hb Hok HB) as [w [F1 _]].
  destruct (codeword_queue_exact S ord m ds cb e buf (map Codeword (repeat d k)) Hord Hv Hcb Hb Hok) as [r0' [E0' Q]].
  rewrite E0 in E0'. injection E0' as <-. unfold rq_mixed, q_mixed in *.
  destruct (q_steps e m ds _ _ (map Codeword (repeat d k))) as [[q outs]|] eqn:D; [|rewrite E1 in Q; discriminate Q].
  rewrite (codewords_agree _ _ _ _ _ _ _ _ D) in F1. cbn [fst snd] in *. destruct Q as [r2 [Q1 _]]. rewrite E1 in Q1.
  assert (outs = map (fun s => Sym (Okay s)) syms) as -> by congruence.
  exists cb', w, syms. split; [exact Ecb'|]. split; [exact Ls|exact F1].
Qed.
