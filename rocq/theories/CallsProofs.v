(** The calls of the inner reader that [AccReader] makes. *)
From Coq Require Import List Arith NArith ZArith Bool Lia.
From Coq Require Import ZifyBool ZifyNat ZifyN.
From Verif Require Import Base AccModel AccSpec AccProofs CallsSpec.
Import ListNotations.
Local Open Scope nat_scope.

Section Calls.
Context {R : Type}.
Variable i : io R.

Definition proper (a : acc R) : Prop := apos a <= aend a /\ aend a <= length (abuf a).
Definition held (a : acc R) : nat := aend a - apos a.

Lemma reset_logged : forall (a : acc R) log, reset_buffer_position (logged a log) =
  match reset_buffer_position a with Ret a' => Ret (logged a' log) | Panic => Panic | UB => UB end.
Proof.
  intros a log. unfold reset_buffer_position. cbn [logged inner abuf apos aend aindex].
  destruct (csub (aend a) (apos a)) as [rem| |]; cbn [obind]; [|reflexivity|reflexivity].
  destruct (0 <? rem); cbn [obind]; [|reflexivity].
  destruct (slice (abuf a) (apos a) (aend a)) as [w| |]; cbn [obind]; reflexivity.
Qed.

Lemma reset_inner : forall (a a' : acc R), reset_buffer_position a = Ret a' -> inner a' = inner a.
Proof.
  intros a a' H. unfold reset_buffer_position in H.
  destruct (csub (aend a) (apos a)) as [rem| |]; cbn [obind] in H; try discriminate.
  destruct (0 <? rem); cbn [obind] in H.
  - destruct (slice (abuf a) (apos a) (aend a)) as [w| |]; cbn [obind] in H; try discriminate. injection H as <-. reflexivity.
  - injection H as <-. reflexivity.
Qed.

Lemma reset_proper : forall a, proper a -> exists a1, reset_buffer_position a = Ret a1 /\ apos a1 = 0 /\
  aend a1 = held a /\ length (abuf a1) = length (abuf a) /\ inner a1 = inner a.
Proof.
  intros a [H1 H2]. unfold reset_buffer_position. rewrite csub_ok by lia. cbn [obind].
  destruct (Nat.ltb_spec 0 (aend a - apos a)) as [Hp|Hz].
  - rewrite slice_ok by lia. cbn [obind]. eexists. split; [reflexivity|]. cbn [apos aend abuf inner].
    repeat split. rewrite app_length, firstn_length, !skipn_length. lia.
  - cbn [obind]. eexists. split; [reflexivity|]. repeat split.
Qed.

Lemma fill_calls : forall a log a' o, proper a -> fill_buf i a = Ret (a', o) ->
  exists calls, fill_buf (traced i) (logged a log) = Ret (logged a' (log ++ calls), o) /\
    one_read (length (abuf a) - held a) calls.
Proof.
  intros a log a' o Hp H. unfold fill_buf in *. cbn [logged apos aend abuf].
  destruct (negb (apos a =? 0) || negb (aend a =? length (abuf a))) eqn:Ec.
  - rewrite reset_logged. destruct (reset_proper a Hp) as [a1 [E1 [P1 [N1 [L1 I1]]]]]. rewrite E1 in *. cbn [obind] in *.
    cbn [logged apos aend abuf inner aindex]. destruct Hp as [Hp1 Hp2].
    assert (He : aend a1 <= length (abuf a1)) by (rewrite N1, L1; unfold held; lia).
    rewrite slice_ok in * by lia. cbn [obind] in *.
    set (tail := firstn (length (abuf a1) - aend a1) (skipn (aend a1) (abuf a1))) in *.
    assert (Lt : length tail = length (abuf a) - held a).
    { unfold tail. rewrite firstn_length, skipn_length, N1, L1. lia. }
    assert (Hn : 0 < length tail).
    { rewrite Lt. unfold held. apply orb_true_iff in Ec. rewrite !negb_true_iff, !Nat.eqb_neq in Ec. lia. }
    cbn [traced io_read fst snd].
    destruct (io_read i (inner a1) tail) as [[r' tail'] res] eqn:Er. rewrite <- Lt.
    exists [CRead (length tail) res]. split.
    + destruct res as [n|e].
      * cbn [abuf apos aend] in *.
        destruct (slice (with_tail (abuf a1) (aend a1) tail') (apos a1) (aend a1 + n)) as [d| |]; cbn [obind] in *; try discriminate.
        injection H as <- <-. reflexivity.
      * injection H as <- <-. reflexivity.
    + destruct (length tail) as [|m]; [lia|]. exists res. reflexivity.
  - apply orb_false_elim in Ec. destruct Ec as [E1 E2]. apply negb_false_iff in E1, E2. apply Nat.eqb_eq in E1, E2.
    destruct (slice (abuf a) (apos a) (aend a)) as [d| |]; cbn [obind] in *; try discriminate. injection H as <- <-.
    exists []. rewrite app_nil_r. split; [reflexivity|]. unfold held. replace (length (abuf a) - (aend a - apos a)) with 0 by lia.
    reflexivity.
Qed.

Lemma read_calls : forall a log dst a' dst' res, proper a -> read i a dst = Ret (a', dst', res) ->
  exists calls, read (traced i) (logged a log) dst = Ret (logged a' (log ++ calls), dst', res) /\
    one_read (asks (ARead dst) (length (abuf a)) (held a)) calls.
Proof.
  intros a log dst a' dst' res Hp H. unfold read in *. cbn [asks]. cbn [logged apos aend abuf inner aindex].
  rewrite csub_ok in * by apply Hp. cbn [obind] in *. fold (held a) in *.
  destruct (Nat.ltb_spec (length dst) (held a)) as [Hlt|Hge].
  - destruct (slice (abuf a) (apos a) (apos a + length dst)) as [s| |]; cbn [obind] in *; try discriminate.
    destruct (slice_read s dst) as [d n]. injection H as <- <- <-. exists []. rewrite app_nil_r. split; reflexivity.
  - destruct (Nat.ltb_spec (length (abuf a)) (length dst)) as [Hbig|Hsm].
    + assert (Hh : held a <= length (abuf a)) by (destruct Hp; unfold held; lia).
      destruct (slice (abuf a) (apos a) (aend a)) as [s| |] eqn:Es; cbn [obind] in *; try discriminate.
      destruct (slice_read s dst) as [d n] eqn:Ed.
      pose proof (slice_read_spec _ _ _ _ Ed) as [_ [Hl _]].
      rewrite slice_ok in * by lia. cbn [obind] in *.
      set (tail := firstn (length d - held a) (skipn (held a) d)) in *.
      assert (Lt : length tail = length dst - held a) by (unfold tail; rewrite firstn_length, skipn_length; lia).
      cbn [traced io_read fst snd].
      destruct (io_read i (inner a) tail) as [[r' tail'] rr] eqn:Er. rewrite <- Lt.
      exists [CRead (length tail) rr]. split.
      * destruct rr as [k|e].
        -- set (b := consume (mk_acc r' (abuf a) (apos a) (aend a) (aindex a)) (k + n)) in *.
           change (consume _ (k + n)) with (logged b (log ++ [CRead (length tail) (Okay k)])).
           rewrite reset_logged. destruct (reset_buffer_position b) as [b1| |]; cbn [obind] in *; try discriminate.
           injection H as <- <- <-. reflexivity.
        -- injection H as <- <- <-. reflexivity.
      * destruct (length tail) as [|m]; [lia|]. exists rr. reflexivity.
    + destruct (fill_buf i a) as [[a1 fr]| |] eqn:Ef; cbn [obind] in *; try discriminate.
      destruct (fill_calls a log a1 fr Hp Ef) as [calls [E1 Ho]].
      change (mk_acc (inner a, log) (abuf a) (apos a) (aend a) (aindex a)) with (logged a log).
      rewrite E1. cbn [obind]. exists calls. split; [|exact Ho].
      destruct fr as [d|e].
      * destruct (slice_read d dst) as [d1 n1]. injection H as <- <- <-. reflexivity.
      * injection H as <- <- <-. reflexivity.
Qed.

Lemma seek_inner_calls : forall a log s a' o, seek_inner i a s = Ret (a', o) ->
  exists calls, seek_inner (traced i) (logged a log) s = Ret (logged a' (log ++ calls), o) /\
    ((exists e, calls = [CSeek s (Error e)]) \/ exists q rest, calls = CSeek s (Okay q) :: rest /\ one_read (length (abuf a)) rest).
Proof.
  intros a log s a' o H. unfold seek_inner in *. cbn [logged apos aend abuf inner aindex traced io_seek fst snd].
  destruct (io_seek i (inner a) s) as [r' res]. destruct res as [q|e].
  - set (b := mk_acc r' (abuf a) 0 0 q) in *.
    change (mk_acc (r', log ++ [CSeek s (Okay q)]) (abuf a) 0 0 q) with (logged b (log ++ [CSeek s (Okay q)])).
    destruct (fill_buf i b) as [[a1 fr]| |] eqn:Ef; cbn [obind] in *; try discriminate.
    destruct (fill_calls b (log ++ [CSeek s (Okay q)]) a1 fr) as [calls [E1 Ho]]; [split; cbn; lia|exact Ef|].
    fold b. rewrite E1. cbn [obind]. exists (CSeek s (Okay q) :: calls).
    split.
    + rewrite <- app_assoc. cbn [app]. destruct fr as [d|e]; injection H as <- <-; reflexivity.
    + right. exists q, calls. split; [reflexivity|]. unfold b, held in Ho. cbn [abuf apos aend] in Ho.
      rewrite Nat.sub_0_r in Ho. exact Ho.
  - injection H as <- <-. eexists. split; [reflexivity|]. left. exists e. reflexivity.
Qed.

Lemma step_calls : forall a log op a' o, proper a -> acc_step i a op = Ret (a', o) ->
  exists calls, acc_step (traced i) (logged a log) op = Ret (logged a' (log ++ calls), o) /\
    makes op (length (abuf a)) (held a) (aindex a) calls.
Proof.
  intros a log op a' o Hp H. destruct op as [dst| |n|n| | | |s]; cbn [acc_step makes asks] in *.
  - destruct (read i a dst) as [[[a1 d1] r1]| |] eqn:Er; cbn [obind] in H; try discriminate. injection H as <- <-.
    destruct (read_calls a log dst a1 d1 r1 Hp Er) as [calls [E1 Ho]]. rewrite E1. exists calls. split; [reflexivity|exact Ho].
  - destruct (fill_buf i a) as [[a1 r1]| |] eqn:Er; cbn [obind] in H; try discriminate. injection H as <- <-.
    destruct (fill_calls a log a1 r1 Hp Er) as [calls [E1 Ho]]. rewrite E1. exists calls. split; [reflexivity|exact Ho].
  - injection H as <- <-. exists []. rewrite app_nil_r. split; reflexivity.
  - injection H as <- <-. exists []. rewrite app_nil_r. split; reflexivity.
  - rewrite reset_logged. destruct (reset_buffer_position a) as [a1| |]; cbn [obind] in H; try discriminate. injection H as <- <-.
    exists []. rewrite app_nil_r. split; reflexivity.
  - unfold data in *. cbn [logged apos aend abuf]. destruct (slice (abuf a) (apos a) (aend a)) as [d| |]; cbn [obind] in *; try discriminate.
    injection H as <- <-. exists []. rewrite app_nil_r. split; reflexivity.
  - unfold capacity in *. cbn [logged apos aend abuf]. destruct (csub (aend a) (apos a)) as [d| |]; cbn [obind] in *; try discriminate.
    injection H as <- <-. exists []. rewrite app_nil_r. split; reflexivity.
  - destruct (seek i a s) as [[a1 r1]| |] eqn:Er; cbn [obind] in H; try discriminate. injection H as <- <-.
    assert (G : exists calls, seek (traced i) (logged a log) s = Ret (logged a1 (log ++ calls), r1) /\
      makes (ASeek s) (length (abuf a)) (held a) (aindex a) calls).
    { unfold seek in *. cbn [logged apos aend abuf inner aindex makes]. destruct Hp as [Hp1 Hp2].
      destruct s as [n|z|z]; cbn [inside passed_on].
      - rewrite csub_ok in * by lia. cbn [obind] in *.
        replace (aindex a + aend a - apos a) with (aindex a + held a) in * by (unfold held; lia).
        destruct ((aindex a <=? n) && (n <? aindex a + held a)).
        + injection Er as <- <-. exists []. rewrite app_nil_r. split; reflexivity.
        + apply seek_inner_calls. exact Er.
      - apply seek_inner_calls. exact Er.
      - rewrite csub_ok in * by lia. cbn [obind] in *. fold (held a) in *. destruct (0 <=? z)%Z eqn:Ez; cbn [andb].
        + replace (z <=? Z.of_nat (held a))%Z with (Z.to_nat z <=? held a) by lia.
          destruct (Z.to_nat z <=? held a).
          * injection Er as <- <-. exists []. rewrite app_nil_r. split; reflexivity.
          * apply seek_inner_calls. exact Er.
        + apply seek_inner_calls. exact Er. }
    destruct G as [calls [E1 Ho]]. rewrite E1. exists calls. split; [reflexivity|exact Ho].
Qed.

(** ** Histories *)
Hypothesis Hkept : slices_kept i.

Lemma fill_keeps : forall a a' o, proper a -> fill_buf i a = Ret (a', o) -> proper a'.
Proof.
  intros a a' o Hp H. unfold fill_buf in H.
  destruct (negb (apos a =? 0) || negb (aend a =? length (abuf a))) eqn:Ec.
  - destruct (reset_proper a Hp) as [a1 [E1 [P1 [N1 [L1 I1]]]]]. rewrite E1 in *. cbn [obind] in *. destruct Hp as [Hp1 Hp2].
    assert (He : aend a1 <= length (abuf a1)) by (rewrite N1, L1; unfold held; lia).
    rewrite slice_ok in * by lia. cbn [obind] in *.
    set (tail := firstn (length (abuf a1) - aend a1) (skipn (aend a1) (abuf a1))) in *.
    destruct (io_read i (inner a1) tail) as [[r' tail'] res] eqn:Er. apply Hkept in Er.
    assert (Lb : length (with_tail (abuf a1) (aend a1) tail') = length (abuf a1)).
    { unfold with_tail. rewrite app_length, firstn_length, Er. unfold tail. rewrite firstn_length, skipn_length. lia. }
    destruct res as [n|e].
    + cbn [abuf apos aend] in *. unfold slice in H.
      destruct (Nat.leb_spec (apos a1) (aend a1 + n)); cbn [andb obind] in H; try discriminate.
      destruct (Nat.leb_spec (aend a1 + n) (length (with_tail (abuf a1) (aend a1) tail'))); cbn [andb obind] in H; try discriminate.
      injection H as <- <-. split; cbn [apos aend abuf]; lia.
    + injection H as <- <-. split; cbn [apos aend abuf]; lia.
  - rewrite slice_ok in H by apply Hp. cbn [obind] in H. injection H as <- <-. exact Hp.
Qed.

Lemma consume_keeps : forall (a : acc R) n, proper a -> proper (consume a n).
Proof. intros a n [H1 H2]. split; cbn [consume apos aend abuf]; lia. Qed.

Lemma reset_keeps : forall a a', proper a -> reset_buffer_position a = Ret a' -> proper a'.
Proof.
  intros a a' Hp H. destruct (reset_proper a Hp) as [a1 [E1 [P1 [N1 [L1 _]]]]]. rewrite E1 in H. injection H as <-.
  destruct Hp. split; rewrite ?P1, ?N1, ?L1; unfold held; lia.
Qed.

Lemma step_keeps : forall a op a' o, proper a -> acc_step i a op = Ret (a', o) -> proper a'.
Proof.
  intros a op a' o Hp H. destruct op as [dst| |n|n| | | |s]; cbn [acc_step] in *.
  - destruct (read i a dst) as [[[a1 d1] r1]| |] eqn:Er; cbn [obind] in H; try discriminate. injection H as <- <-.
    unfold read in Er. rewrite csub_ok in Er by apply Hp. cbn [obind] in Er.
    destruct (length dst <? aend a - apos a).
    + destruct (slice (abuf a) (apos a) (apos a + length dst)) as [s| |]; cbn [obind] in *; try discriminate.
      destruct (slice_read s dst) as [d n]. injection Er as <- <- <-. apply consume_keeps, Hp.
    + destruct (length (abuf a) <? length dst).
      * destruct (slice (abuf a) (apos a) (aend a)) as [s| |]; cbn [obind] in *; try discriminate.
        destruct (slice_read s dst) as [d n].
        destruct (slice d (aend a - apos a) (length d)) as [tail| |]; cbn [obind] in *; try discriminate.
        destruct (io_read i (inner a) tail) as [[r' tail'] rr]. destruct rr as [k|e].
        -- destruct (reset_buffer_position (consume (mk_acc r' (abuf a) (apos a) (aend a) (aindex a)) (k + n))) as [b| |] eqn:Eb;
             cbn [obind] in *; try discriminate.
           injection Er as <- <- <-. eapply reset_keeps; [|exact Eb]. apply consume_keeps. exact Hp.
        -- injection Er as <- <- <-. exact Hp.
      * destruct (fill_buf i a) as [[b fr]| |] eqn:Ef; cbn [obind] in *; try discriminate.
        apply fill_keeps in Ef; [|exact Hp]. destruct fr as [d|e].
        -- destruct (slice_read d dst) as [d2 n2]. injection Er as <- <- <-. apply consume_keeps, Ef.
        -- injection Er as <- <- <-. exact Ef.
  - destruct (fill_buf i a) as [[a1 r1]| |] eqn:Er; cbn [obind] in H; try discriminate. injection H as <- <-.
    eapply fill_keeps; eassumption.
  - injection H as <- <-. apply consume_keeps, Hp.
  - injection H as <- <-. destruct Hp. split; cbn [grow apos aend abuf]; [lia|]. rewrite app_length. lia.
  - destruct (reset_buffer_position a) as [a1| |] eqn:Er; cbn [obind] in H; try discriminate. injection H as <- <-.
    eapply reset_keeps; eassumption.
  - destruct (data a) as [d| |]; cbn [obind] in *; try discriminate. injection H as <- <-. exact Hp.
  - destruct (capacity a) as [d| |]; cbn [obind] in *; try discriminate. injection H as <- <-. exact Hp.
  - destruct (seek i a s) as [[a1 r1]| |] eqn:Er; cbn [obind] in H; try discriminate. injection H as <- <-.
    assert (G : forall s1, seek_inner i a s1 = Ret (a1, r1) -> proper a1).
    { intros s1 E. unfold seek_inner in E. destruct (io_seek i (inner a) s1) as [r' res]. destruct res as [q|e].
      - destruct (fill_buf i (mk_acc r' (abuf a) 0 0 q)) as [[b fr]| |] eqn:Ef; cbn [obind] in *; try discriminate.
        apply fill_keeps in Ef; [|split; cbn; lia]. destruct fr; injection E as <- <-; exact Ef.
      - injection E as <- <-. exact Hp. }
    unfold seek in Er. destruct Hp as [Hp1 Hp2]. destruct s as [n|z|z].
    + rewrite csub_ok in * by lia. cbn [obind] in *.
      destruct ((aindex a <=? n) && (n <? aindex a + aend a - apos a)) eqn:Ec; [|eapply G, Er].
      injection Er as <- <-. split; cbn [apos aend abuf]; lia.
    + eapply G, Er.
    + rewrite csub_ok in * by lia. cbn [obind] in *. destruct (0 <=? z)%Z; [|eapply G, Er].
      destruct (Nat.leb_spec (Z.to_nat z) (aend a - apos a)); [|eapply G, Er].
      injection Er as <- <-. split; cbn [apos aend abuf]; lia.
Qed.

Lemma one_some : forall n calls, one_read n calls -> some_read calls.
Proof. intros [|n] calls H; [left; exact H|]. destruct H as [res H]. right. exists (S n), res. split; [lia|exact H]. Qed.

Lemma makes_allowed : forall op cap h index calls, makes op cap h index calls -> allowed op calls.
Proof.
  intros op cap h index calls H. destruct op as [dst| |n|n| | | |s]; cbn [makes allowed] in *; try exact H; try (eapply one_some, H).
  destruct (inside s index h); [left; exact H|right].
  destruct H as [[e H]|[q [rest [H Ho]]]]; [left; eexists _, _; exact H|right].
  eexists _, _, _. split; [exact H|]. eapply one_some, Ho.
Qed.

Lemma run_calls : forall ops a log a' outs, proper a -> acc_run i a ops = Ret (a', outs) ->
  exists calls, acc_run (traced i) (logged a log) ops = Ret (logged a' (log ++ concat calls), outs) /\ allowed_all ops calls.
Proof.
  induction ops as [|op ops IH]; intros a log a' outs Hp H; cbn [acc_run] in *.
  - injection H as <- <-. exists []. cbn [concat allowed_all]. rewrite app_nil_r. split; [reflexivity|exact I].
  - destruct (acc_step i a op) as [[a1 o]| |] eqn:Es; cbn [obind] in H; try discriminate.
    destruct (acc_run i a1 ops) as [[a2 os]| |] eqn:Er; cbn [obind] in H; try discriminate. injection H as <- <-.
    destruct (step_calls a log op a1 o Hp Es) as [c [E1 M]]. pose proof (step_keeps _ _ _ _ Hp Es) as Hp1.
    destruct (IH a1 (log ++ c) a2 os Hp1 Er) as [calls [E2 A]].
    exists (c :: calls). rewrite E1. cbn [obind]. rewrite E2. cbn [obind concat allowed_all]. rewrite app_assoc.
    split; [reflexivity|]. split; [eapply makes_allowed, M|exact A].
Qed.

End Calls.

Lemma some_counts : forall calls, some_read calls -> count_reads calls <= 1 /\ count_seeks calls = 0.
Proof. intros calls [->|[n [res [_ ->]]]]; cbn; lia. Qed.

Lemma allowed_counts : forall op calls, allowed op calls ->
  count_reads calls <= (if may_read op then 1 else 0) /\ count_seeks calls <= (if may_seek op then 1 else 0).
Proof.
  intros op calls H. destruct op as [dst| |n|n| | | |s]; cbn [allowed may_read may_seek] in *;
    try (subst calls; cbn; lia); try (apply some_counts in H; lia).
  destruct H as [->|[[s1 [e ->]]|[s1 [q [rest [-> H]]]]]]; [cbn; lia|cbn; lia|].
  apply some_counts in H. unfold count_reads, count_seeks in *. cbn [filter is_read negb length]. lia.
Qed.

Lemma counts_app : forall x y, count_reads (x ++ y) = count_reads x + count_reads y /\ count_seeks (x ++ y) = count_seeks x + count_seeks y.
Proof. intros x y. unfold count_reads, count_seeks. rewrite !filter_app, !app_length. lia. Qed.

Lemma all_counts : forall ops calls, allowed_all ops calls ->
  count_reads (concat calls) <= length (filter may_read ops) /\ count_seeks (concat calls) <= length (filter may_seek ops).
Proof.
  induction ops as [|op ops IH]; intros [|c calls] H; cbn [allowed_all] in H; try contradiction; [cbn; lia|].
  destruct H as [H1 H2]. apply IH in H2. apply allowed_counts in H1. cbn [concat filter].
  destruct (counts_app c (concat calls)) as [-> ->]. destruct (may_read op), (may_seek op); cbn [length]; lia.
Qed.
