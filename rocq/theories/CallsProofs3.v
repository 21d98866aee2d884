(** [fill_buf] and the source. *)
From Coq Require Import List Arith NArith ZArith Bool Lia.
From Coq Require Import ZifyBool ZifyNat ZifyN.
From Verif Require Import Base AccModel AccSpec AccProofs AccProofs2 CallsSpec CallsProofs CallsProofs2.
Import ListNotations.
Local Open Scope nat_scope.

Lemma fill_asks : forall (R : Type) (i : io R) (a a' : acc R) log res,
  apos a <= aend a <= length (abuf a) -> fill_buf i a = Ret (a', res) ->
  exists calls, fill_buf (traced i) (logged a log) = Ret (logged a' (log ++ calls), res) /\
    (aend a - apos a = length (abuf a) -> calls = []) /\
    (aend a - apos a < length (abuf a) -> exists r, calls = [CRead (length (abuf a) - (aend a - apos a)) r]).
Proof.
  intros R i a a' log res [H1 H2] E. destruct (fill_calls i a log a' res) as [calls [E1 Ho]]; [split; assumption|exact E|].
  exists calls. split; [exact E1|]. unfold held in Ho. split; intros Hh.
  - rewrite Hh, Nat.sub_diag in Ho. exact Ho.
  - destruct (length (abuf a) - (aend a - apos a)) as [|n] eqn:En; [lia|]. exact Ho.
Qed.

Section Fill.
Context {R : Type}.
Variable i : io R.
Variable src : list N.
Variable good : R -> Prop.
Variable tell : R -> nat.
Hypothesis Hsrc : source_ok i src good tell.
Hypothesis Hnf : never_fails i src good tell.
Notation rep := (rep src good tell).

Lemma fill_step : forall a p log, rep a p -> 0 < length (abuf a) -> p < length src -> held a < length (abuf a) ->
  exists a2 c d, acc_run (traced i) (logged a log) [AFill; AConsume 1] = Ret (logged a2 (log ++ c), [OFill (Okay d); OUnit]) /\
    hd_error d = Some (nth p src 0%N) /\ count_reads c = 1 /\ rep a2 (p + 1) /\ length (abuf a2) = length (abuf a) /\ held a2 < length (abuf a2).
Proof.
  intros a p log H Hc Hp Hh.
  destruct (fill_rep i src good tell Hsrc a p H) as [a1 [res [E [H1 [L1 D]]]]].
  destruct (fill_never_fails i src good tell Hsrc Hnf a p H) as [b [d [E' _]]]. rewrite E in E'. injection E' as <- ->.
  destruct D as [D [Hle Hsame]].
  destruct (fill_calls i a log a1 (Okay d) (rep_proper src good tell a p H) E) as [c [E1 Ho]].
  assert (Hb : 1 <= buffered a1).
  { unfold held in Hh. destruct (Nat.eq_dec (buffered a1) 0) as [Hz|Hz]; [|lia].
    assert (buffered a = 0) by lia. destruct Hsame as [Hs|Hs]; unfold buffered in *; lia. }
  destruct (consume_rep src good tell a1 p 1 H1 Hb) as [H2 B2].
  exists (consume a1 1), c, d. split; [cbn [acc_run acc_step obind]; rewrite E1; reflexivity|].
  split.
  { rewrite (data_rep src good tell a1 p H1) in D. injection D as <-.
    rewrite <- (firstn_skipn p src) at 2. rewrite app_nth2 by (rewrite firstn_length; lia).
    rewrite firstn_length, Nat.min_l, Nat.sub_diag by lia.
    destruct (buffered a1) as [|n]; [lia|]. destruct (skipn p src) as [|x l] eqn:Es.
    - apply (f_equal (@length N)) in Es. rewrite skipn_length in Es. cbn [length] in Es. lia.
    - reflexivity. }
  split.
  { destruct (length (abuf a) - held a) as [|n] eqn:En; [lia|]. destruct Ho as [r ->]. reflexivity. }
  split; [exact H2|]. split; [cbn [consume abuf]; exact L1|].
  pose proof (rp_end _ _ _ _ _ H1). unfold buffered, held in *. cbn [consume abuf apos aend]. lia.
Qed.

Lemma fill_bytes : forall cap r0 k, good r0 -> tell r0 = 0 -> 0 < cap -> k <= length src ->
  exists a log outs, acc_run (traced i) (with_capacity cap (r0, [])) (concat (repeat [AFill; AConsume 1] k)) = Ret (logged a log, outs) /\
    count_reads log = k.
Proof.
  intros cap r0 k Hg Ht Hc Hk.
  cut (exists a log outs, acc_run (traced i) (with_capacity cap (r0, [])) (concat (repeat [AFill; AConsume 1] k)) = Ret (logged a log, outs) /\
    count_reads log = k /\ rep a k /\ length (abuf a) = cap /\ held a < length (abuf a)).
  { intros [a [log [outs [E [C _]]]]]. exists a, log, outs. split; assumption. }
  induction k as [|k IH].
  - exists (with_capacity cap r0), [], []. split; [reflexivity|]. split; [reflexivity|]. split; [apply new_rep; assumption|].
    cbn [with_capacity abuf held apos aend]. unfold held. cbn [with_capacity apos aend]. rewrite repeat_length. lia.
  - destruct (IH ltac:(lia)) as [a [log [outs [E [C [H [L Hh]]]]]]].
    destruct (fill_step a k log H ltac:(lia) ltac:(lia) Hh) as [a2 [c [d [E2 [_ [C2 [H2 [L2 Hh2]]]]]]]].
    exists a2, (log ++ c), (outs ++ [OFill (Okay d); OUnit]).
    assert (App : forall ops1 ops2 x y o1 z o2, acc_run (traced i) x ops1 = Ret (y, o1) -> acc_run (traced i) y ops2 = Ret (z, o2) ->
      acc_run (traced i) x (ops1 ++ ops2) = Ret (z, o1 ++ o2)).
    { clear. induction ops1 as [|op ops1 IH]; intros ops2 x y o1 z o2 E1 E2; cbn [acc_run app] in *.
      - injection E1 as <- <-. exact E2.
      - destruct (acc_step (traced i) x op) as [[u o]| |]; cbn [obind] in *; try discriminate.
        destruct (acc_run (traced i) u ops1) as [[v w]| |] eqn:Er; cbn [obind] in *; try discriminate. injection E1 as <- <-.
        rewrite (IH _ _ _ _ _ _ Er E2). reflexivity. }
    split.
    + rewrite repeat_snoc, concat_app. cbn [concat]. rewrite app_nil_r. eapply App; eassumption.
    + destruct (counts_app log c) as [-> _]. rewrite C, C2. split; [lia|]. replace (S k) with (k + 1) by lia. split; [exact H2|].
      split; [congruence|exact Hh2].
Qed.
End Fill.
