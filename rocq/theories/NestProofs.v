(** Buffered readers over buffered readers. *)
From Coq Require Import List Arith NArith ZArith Bool Lia.
From Coq Require Import ZifyBool ZifyNat ZifyN.
From Verif Require Import Base AccModel AccSpec AccProofs AccProofs2 NestSpec.
Import ListNotations.
Local Open Scope nat_scope.

(** ** Reads only *)

Definition reads_ok {R : Type} (i : io R) (src : list N) (good : R -> Prop) (tell : R -> nat) : Prop :=
  forall r dst r' dst' res, good r -> io_read i r dst = (r', dst', res) -> good r' /\ reads src (tell r) dst dst' res (tell r').

Definition no_seek {R : Type} (i : io R) : io R := mk_io (io_read i) (fun r _ => (r, Error WriteZero)).

Definition up_good {R : Type} (src : list N) (good : R -> Prop) (tell : R -> nat) (o : option (acc R)) : Prop :=
  exists a p, o = Some a /\ rep src good tell a p.
Definition up_tell {R : Type} (o : option (acc R)) : nat := match o with Some a => aindex a | None => 0 end.

Lemma no_seek_ok : forall (R : Type) (i : io R) src good tell, reads_ok i src good tell -> source_ok (no_seek i) src good tell.
Proof.
  intros R i src good tell H. constructor; [exact H|]. intros r s r' res Hg E. cbn [no_seek io_seek] in E. injection E as <- <-.
  split; [exact Hg|reflexivity].
Qed.

Lemma up_reads : forall (R : Type) (i : io R) src good tell, reads_ok i src good tell ->
  reads_ok (acc_io i) src (up_good src good tell) up_tell.
Proof.
  intros R i src good tell H o dst o' dst' res [a [p [-> Hr]]] E. cbn [acc_io io_read] in E.
  destruct (read_rep (no_seek i) src good tell (no_seek_ok R i src good tell H) a p dst Hr) as [a1 [d1 [res1 [p1 [E1 [H1 [H2 _]]]]]]].
  change (read (no_seek i) a dst) with (read i a dst) in E1. rewrite E1 in E. injection E as <- <- <-.
  split; [exists a1, p1; split; [reflexivity|exact H1]|]. cbn [up_tell]. rewrite (rp_index _ _ _ _ _ Hr), (rp_index _ _ _ _ _ H1). exact H2.
Qed.

Fixpoint tgood {R : Type} (src : list N) (good : R -> Prop) (tell : R -> nat) (n : nat) : (tower R n -> Prop) * (tower R n -> nat) :=
  match n with
  | O => (good, tell)
  | S n' => (up_good src (fst (tgood src good tell n')) (snd (tgood src good tell n')), up_tell)
  end.

Lemma tower_reads : forall (R : Type) (i : io R) src good tell n, reads_ok i src good tell ->
  reads_ok (tower_io i n) src (fst (tgood src good tell n)) (snd (tgood src good tell n)).
Proof. induction n as [|n IH]; intros H; [exact H|]. cbn [tower_io tgood fst snd]. apply up_reads. apply IH. exact H. Qed.

Lemma tower_start : forall (R : Type) src (good : R -> Prop) tell caps r0, good r0 -> tell r0 = 0 ->
  fst (tgood src good tell (length caps)) (tower_new caps r0) /\ snd (tgood src good tell (length caps)) (tower_new caps r0) = 0.
Proof.
  induction caps as [|c caps IH]; intros r0 Hg Ht; [split; assumption|]. cbn [length tgood fst snd tower_new].
  destruct (IH r0 Hg Ht) as [H1 H2]. split; [|reflexivity]. eexists _, 0. split; [reflexivity|]. apply new_rep; assumption.
Qed.

Lemma tower_intact : forall (R : Type) src (good : R -> Prop) tell n x, fst (tgood src good tell n) x -> intact n x.
Proof.
  induction n as [|n IH]; intros x H; [exact I|]. cbn [tgood fst] in H. destruct H as [a [p [-> H]]]. cbn [intact].
  apply IH. exact (rp_good _ _ _ _ _ H).
Qed.

Lemma run_no_seek : forall (R : Type) (i : io R) ops a, Forall seekless ops -> acc_run (no_seek i) a ops = acc_run i a ops.
Proof.
  induction ops as [|op ops IH]; intros a H; [reflexivity|]. inversion_clear H as [|? ? Ho Hr]. cbn [acc_run].
  assert (E : acc_step (no_seek i) a op = acc_step i a op) by (destruct op; [reflexivity..|destruct Ho]).
  rewrite E. destruct (acc_step i a op) as [[a1 o]| |]; [|reflexivity..]. cbn [obind]. rewrite IH by exact Hr. reflexivity.
Qed.

Lemma legal_no_seek : forall (R : Type) (i : io R) ops a, Forall seekless ops -> acc_legal i a ops -> acc_legal (no_seek i) a ops.
Proof.
  induction ops as [|op ops IH]; intros a H Hl; [exact I|]. inversion_clear H as [|? ? Ho Hr]. destruct Hl as [H1 H2]. split; [exact H1|].
  intros a' o E. apply IH; [exact Hr|]. apply (H2 a' o). destruct op; [exact E..|destruct Ho].
Qed.

Lemma nested_reads : forall (R : Type) (i : io R) src good tell caps cap r0 ops,
  source_ok i src good tell -> good r0 -> tell r0 = 0 -> Forall seekless ops ->
  acc_legal (tower_io i (length caps)) (with_capacity cap (tower_new caps r0)) ops ->
  exists a outs p, acc_run (tower_io i (length caps)) (with_capacity cap (tower_new caps r0)) ops = Ret (a, outs) /\
    history_spec src 0 ops outs p /\ intact (length caps) (inner a).
Proof.
  intros R i src good tell caps cap r0 ops Hs Hg Ht Hops Hl.
  pose proof (tower_reads R i src good tell (length caps) (so_read _ _ _ _ Hs)) as Hr.
  destruct (tower_start R src good tell caps r0 Hg Ht) as [H1 H2].
  rewrite <- run_no_seek by exact Hops. apply legal_no_seek in Hl; [|exact Hops].
  pose proof (no_seek_ok _ _ _ _ _ Hr) as Hok.
  destruct (run_rep _ _ _ _ Hok ops _ 0 (new_rep src _ _ cap _ H1 H2) Hl) as [a [outs [p [E [Hrep Hh]]]]].
  exists a, outs, p. split; [exact E|]. split; [exact Hh|]. apply (tower_intact R src good tell). exact (rp_good _ _ _ _ _ Hrep).
Qed.

(** ** Forward seeks *)

Definition forward_ok {R : Type} (i : io R) (src : list N) (good : R -> Prop) (tell : R -> nat) : Prop :=
  (forall r dst r' dst' res, good r -> io_read i r dst = (r', dst', res) ->
     good r' /\ reads src (tell r) dst dst' res (tell r') /\ exists k, res = Okay k) /\
  (forall r s r' res, good r -> forward s -> io_seek i r s = (r', res) ->
     good r' /\ seeks src (tell r) s res (tell r') /\ ((0 <= target (length src) (tell r) s)%Z -> exists q, res = Okay q)).

(** Backward relative seeks replaced by absolute ones. *)
Definition fixed {R : Type} (i : io R) (tell : R -> nat) : io R := mk_io (io_read i) (fun r s =>
  match s with
  | Current d =>
      if (d <? 0)%Z then
        let t := (Z.of_nat (tell r) + d)%Z in
        if (t <? 0)%Z then (r, Error WriteZero) else io_seek i r (Start (Z.to_nat t))
      else io_seek i r s
  | _ => io_seek i r s
  end).

Lemma fixed_ok : forall (R : Type) (i : io R) src good tell, forward_ok i src good tell ->
  source_ok (fixed i tell) src good tell /\ never_fails (fixed i tell) src good tell.
Proof.
  intros R i src good tell [Hr Hs].
  assert (G : forall r s r' res, good r -> io_seek (fixed i tell) r s = (r', res) ->
     good r' /\ seeks src (tell r) s res (tell r') /\ ((0 <= target (length src) (tell r) s)%Z -> exists q, res = Okay q)).
  { intros r s r' res Hg E. cbn [fixed io_seek] in E. destruct s as [n|d|d]; [apply Hs; [exact Hg|exact I|exact E]..|].
    destruct (Z.ltb_spec d 0) as [Hd|Hd]; [|apply Hs; [exact Hg|exact Hd|exact E]].
    destruct (Z.ltb_spec (Z.of_nat (tell r) + d) 0) as [Ht|Ht].
    - injection E as <- <-. split; [exact Hg|]. split; [reflexivity|]. cbn [target]. lia.
    - destruct (Hs _ (Start (Z.to_nat (Z.of_nat (tell r) + d))) _ _ Hg I E) as [G1 [G2 G3]]. split; [exact G1|]. cbn [target] in *. split.
      + destruct res as [q|e]; cbn [seeks target] in *; [|exact G2]. split; [lia|apply G2].
      + intros _. apply G3. lia. }
  split; [constructor|split].
  - intros r dst r' dst' res Hg E. destruct (Hr _ _ _ _ _ Hg E) as [G1 [G2 _]]. split; assumption.
  - intros r s r' res Hg E. destruct (G _ _ _ _ Hg E) as [G1 [G2 _]]. split; assumption.
  - intros r dst r' dst' res Hg E. apply (Hr _ _ _ _ _ Hg E).
  - intros r s r' res Hg E. apply (G _ _ _ _ Hg E).
Qed.

Lemma seek_fixed : forall (R : Type) (i : io R) tell a s, forward s -> seek (fixed i tell) a s = seek i a s.
Proof.
  intros R i tell a s Hf. unfold seek. destruct s as [mv|d|d]; [reflexivity..|]. cbn [forward] in Hf.
  destruct (csub (aend a) (apos a)) as [rem| |]; [|reflexivity..]. cbn [obind]. destruct (Z.leb_spec 0 d); [|lia].
  destruct (Nat.leb_spec (Z.to_nat d) rem); [reflexivity|]. unfold seek_inner. cbn [fixed io_seek].
  destruct (Z.ltb_spec (d - Z.of_nat rem) 0); [lia|]. reflexivity.
Qed.

Lemma read_never_fails : forall (R : Type) (i : io R) src good tell, source_ok i src good tell -> never_fails i src good tell ->
  forall a p dst, rep src good tell a p -> forall a' dst' e, read i a dst <> Ret (a', dst', Error e).
Proof.
  intros R i src good tell Hs Hn a p dst H a' dst' e E. unfold read in E.
  destruct (csub (aend a) (apos a)) as [rem| |]; try discriminate E. cbn [obind] in E.
  destruct (length dst <? rem).
  - destruct (slice _ _ _) as [s| |]; [cbn [obind] in E; destruct (slice_read s dst); discriminate E|discriminate E..].
  - destruct (length (abuf a) <? length dst).
    + destruct (slice _ _ _) as [s| |]; [|discriminate E..]. cbn [obind] in E. destruct (slice_read s dst) as [d1 l1].
      destruct (slice d1 _ _) as [t| |]; [|discriminate E..]. cbn [obind] in E. destruct (io_read i (inner a) t) as [[r' t'] res] eqn:Er.
      destruct (proj1 Hn _ _ _ _ _ (rp_good _ _ _ _ _ H) Er) as [k ->].
      destruct (reset_buffer_position _) as [a2| |]; discriminate E.
    + destruct (fill_never_fails i src good tell Hs Hn a p H) as [a1 [d [Ef _]]]. rewrite Ef in E. cbn [obind] in E.
      destruct (slice_read d dst). discriminate E.
Qed.

Lemma up_forward : forall (R : Type) (i : io R) src good tell, forward_ok i src good tell ->
  forward_ok (acc_io i) src (up_good src good tell) up_tell.
Proof.
  intros R i src good tell H. destruct (fixed_ok R i src good tell H) as [Hok Hnf]. split.
  - intros o dst o' dst' res [a [p [-> Hr]]] E. cbn [acc_io io_read] in E.
    destruct (read_rep _ _ _ _ Hok a p dst Hr) as [a1 [d1 [res1 [p1 [E1 [H1 [H2 _]]]]]]].
    destruct res1 as [k|e]; [|exfalso; exact (read_never_fails _ _ _ _ _ Hok Hnf a p dst Hr _ _ _ E1)].
    change (read (fixed i tell) a dst) with (read i a dst) in E1. rewrite E1 in E. injection E as <- <- <-.
    split; [exists a1, p1; split; [reflexivity|exact H1]|]. cbn [up_tell]. rewrite (rp_index _ _ _ _ _ Hr), (rp_index _ _ _ _ _ H1).
    split; [exact H2|exists k; reflexivity].
  - intros o s o' res [a [p [-> Hr]]] Hf E. cbn [acc_io io_seek] in E.
    destruct (seek_rep _ _ _ _ Hok a p s Hr Hf) as [a1 [res1 [E1 [_ H1]]]]. rewrite (seek_fixed R i tell a s Hf) in E1.
    rewrite E1 in E. injection E as <- <-. cbn [up_tell]. rewrite (rp_index _ _ _ _ _ Hr).
    assert (Hpos : (0 <= target (length src) p s)%Z -> exists q, res1 = Okay q).
    { intros Ht. destruct (seek_never_fails _ _ _ _ Hok Hnf a p s (Z.to_nat (target (length src) p s)) Hr Hf ltac:(lia)) as [a2 [E2 _]].
      rewrite (seek_fixed R i tell a s Hf), E1 in E2. injection E2 as _ ->. eexists. reflexivity. }
    destruct res1 as [n|e].
    + destruct H1 as [Hn H1]. split; [exists a1, n; split; [reflexivity|exact H1]|].
      split; [|exact Hpos]. split; [exact Hn|]. exact (rp_index _ _ _ _ _ H1).
    + assert (Hneg : (target (length src) p s < 0)%Z).
      { destruct (Z.lt_ge_cases (target (length src) p s) 0) as [L|L]; [exact L|]. destruct (Hpos L) as [q Hq]. discriminate Hq. }
      destruct H1 as [[H1 _]|[n [Hn _]]]; [|lia].
      split; [exists a1, p; split; [reflexivity|exact H1]|]. split; [exact (rp_index _ _ _ _ _ H1)|exact Hpos].
Qed.

Lemma tower_forward : forall (R : Type) (i : io R) src good tell n, forward_ok i src good tell ->
  forward_ok (tower_io i n) src (fst (tgood src good tell n)) (snd (tgood src good tell n)).
Proof. induction n as [|n IH]; intros H; [exact H|]. cbn [tower_io tgood fst snd]. apply up_forward. apply IH. exact H. Qed.

Lemma step_fixed : forall (R : Type) (i : io R) tell a op, match op with ASeek s => forward s | _ => True end ->
  acc_step (fixed i tell) a op = acc_step i a op.
Proof. intros R i tell a op H. destruct op; [reflexivity..|]. cbn [acc_step]. rewrite seek_fixed by exact H. reflexivity. Qed.

Lemma legal_forward : forall (R : Type) (i : io R) a op ops, acc_legal i a (op :: ops) -> match op with ASeek s => forward s | _ => True end.
Proof. intros R i a op ops [H _]. destruct op; try exact I. exact H. Qed.

Lemma run_fixed : forall (R : Type) (i : io R) tell ops a, acc_legal i a ops -> acc_run (fixed i tell) a ops = acc_run i a ops.
Proof.
  induction ops as [|op ops IH]; intros a Hl; [reflexivity|]. cbn [acc_run]. rewrite step_fixed by exact (legal_forward _ _ _ _ _ Hl).
  destruct Hl as [_ Hn]. destruct (acc_step i a op) as [[a1 o]| |] eqn:E; [|reflexivity..]. cbn [obind]. rewrite IH by exact (Hn a1 o eq_refl). reflexivity.
Qed.

Lemma legal_fixed : forall (R : Type) (i : io R) tell ops a, acc_legal i a ops -> acc_legal (fixed i tell) a ops.
Proof.
  induction ops as [|op ops IH]; intros a Hl; [exact I|]. pose proof (legal_forward _ _ _ _ _ Hl) as Hf. destruct Hl as [H1 H2].
  split; [exact H1|]. intros a' o E. rewrite step_fixed in E by exact Hf. apply IH. apply (H2 a' o). exact E.
Qed.

Lemma read_exact_fixed : forall (R : Type) (i : io R) tell fuel a n, read_exact (fixed i tell) fuel a n = read_exact i fuel a n.
Proof. reflexivity. Qed.

Lemma nested_seeks : forall (R : Type) (i : io R) src good tell caps cap r0 ops,
  source_ok i src good tell -> never_fails i src good tell -> good r0 -> tell r0 = 0 ->
  acc_legal (tower_io i (length caps)) (with_capacity cap (tower_new caps r0)) ops ->
  exists a outs p, acc_run (tower_io i (length caps)) (with_capacity cap (tower_new caps r0)) ops = Ret (a, outs) /\
    history_spec src 0 ops outs p /\ intact (length caps) (inner a) /\ delivers (tower_io i (length caps)) src a p.
Proof.
  intros R i src good tell caps cap r0 ops Hs Hn Hg Ht Hl.
  assert (H0 : forward_ok i src good tell).
  { split.
    - intros r dst r' dst' res Hr E. destruct (so_read _ _ _ _ Hs _ _ _ _ _ Hr E) as [G1 G2]. split; [exact G1|]. split; [exact G2|].
      exact (proj1 Hn _ _ _ _ _ Hr E).
    - intros r s r' res Hr _ E. destruct (so_seek _ _ _ _ Hs _ _ _ _ Hr E) as [G1 G2]. split; [exact G1|]. split; [exact G2|].
      exact (proj2 Hn _ _ _ _ Hr E). }
  pose proof (tower_forward R i src good tell (length caps) H0) as Hf.
  destruct (fixed_ok _ _ _ _ _ Hf) as [Hok Hnf].
  destruct (tower_start R src good tell caps r0 Hg Ht) as [H1 H2].
  rewrite <- (run_fixed _ _ (snd (tgood src good tell (length caps)))) by exact Hl. apply (legal_fixed _ _ (snd (tgood src good tell (length caps)))) in Hl.
  destruct (run_rep _ _ _ _ Hok ops _ 0 (new_rep src _ _ cap _ H1 H2) Hl) as [a [outs [p [E [Hrep Hh]]]]].
  exists a, outs, p. split; [exact E|]. split; [exact Hh|]. split; [apply (tower_intact R src good tell); exact (rp_good _ _ _ _ _ Hrep)|].
  exact (rep_observed _ _ _ _ Hok Hnf a p Hrep).
Qed.

(** ** A failing source *)

Lemma trap_ok : forall src bad, source_ok (trap_io src bad) src (fun _ => True) fst.
Proof.
  intros src bad. constructor.
  - intros [p armed] dst r' dst' res _ E. cbn [trap_io io_read trap_read fst] in *. destruct (armed && (p =? bad)).
    + injection E as <- <- <-. split; [exact I|]. split; reflexivity.
    + injection E as <- <- <-. split; [exact I|]. cbn [fst]. set (k := Nat.min (length dst) (length src - p)).
      assert (Lk : length (firstn k (skipn p src)) = k) by (rewrite firstn_length, skipn_length; unfold k; lia).
      split; [rewrite app_length, skipn_length; unfold k in *; lia|]. split; [unfold k; lia|]. split; [unfold k; lia|].
      split; [apply firstn_app_exact; symmetry; exact Lk|]. split; [unfold k; lia|reflexivity].
  - intros [p armed] s r' res _ E. cbn [trap_io io_seek] in E. unfold trap_seek in E. cbn [fst snd] in *. destruct (Z.ltb_spec (target (length src) p s) 0) as [Ht|Ht].
    + injection E as <- <-. split; [exact I|reflexivity].
    + injection E as <- <-. split; [exact I|]. cbn [seeks fst]. split; [lia|reflexivity].
Qed.

Lemma nested_failing : exists (i : io (nat * bool)) src good tell caps cap r0 ops a outs,
  source_ok i src good tell /\ good r0 /\ tell r0 = 0 /\
  acc_legal (tower_io i (length caps)) (with_capacity cap (tower_new caps r0)) ops /\
  acc_run (tower_io i (length caps)) (with_capacity cap (tower_new caps r0)) ops = Ret (a, outs) /\ intact (length caps) (inner a) /\
  forall p, ~ history_spec src 0 ops outs p.
Proof.
  set (src := map N.of_nat (seq 0 20)).
  exists (trap_io src 10), src, (fun _ => True), fst, [4], 4, (0, true), [ARead [0; 0]; ASeek (Start 10); ARead [0; 0]; ARead [0; 0]]%N.
  eexists _, _. split; [apply trap_ok|]. split; [exact I|]. split; [reflexivity|].
  split; [apply acc_legalb_sound; vm_compute; reflexivity|]. split; [vm_compute; reflexivity|]. split; [exact I|].
  intros p H. cbn [history_spec] in H. destruct H as [p1 [H1 [p2 [H2 [p3 [H3 [p4 [H4 H5]]]]]]]].
  cbn [call_spec] in *. destruct H1 as [_ [_ [_ [_ [_ H1]]]]]. cbn in H1. subst p1.
  destruct H3 as [_ [_ [_ [H3 [_ E3]]]]]. destruct H4 as [_ [_ [_ [H4 _]]]].
  destruct H2 as [->|H2].
  - cbn in E3. subst p3. vm_compute in H4. discriminate H4.
  - cbn [target] in H2. assert (p2 = 10) by lia. subst p2. vm_compute in H3. discriminate H3.
Qed.
