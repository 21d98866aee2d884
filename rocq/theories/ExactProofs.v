(** Proofs for C190. *)
From Coq Require Import List Arith NArith ZArith Bool Lia.
From Verif Require Import Base AccModel AccSpec AccProofs AccProofs2 StreamModel StreamSpec.
Import ListNotations.
Local Open Scope nat_scope.

Section Exact.
Context {R : Type} (i : io R) (src : list N) (good : R -> Prop) (tell : R -> nat).
Hypothesis Hsrc : source_ok i src good tell.

(** An error of [fill_buf] or [read] is one of the source. *)
Lemma fill_error : forall a p a' e, rep src good tell a p -> fill_buf i a = Ret (a', Error e) -> fails_with (io_reader i) good e.
Proof.
  intros a p a' e H E. unfold fill_buf in E. destruct (negb (apos a =? 0) || negb (aend a =? length (abuf a))).
  - destruct (reset_buffer_position a) as [a1| |] eqn:E1; try discriminate E. cbn [obind] in E.
    assert (Hi : inner a1 = inner a).
    { unfold reset_buffer_position in E1. repeat (match type of E1 with context [csub ?x ?y] => destruct (csub x y); cbn [obind] in E1; try discriminate E1 end || match type of E1 with context [slice ?x ?y ?z] => destruct (slice x y z); cbn [obind] in E1; try discriminate E1 end).
      all: repeat match type of E1 with context [if ?b then _ else _] => destruct b; try discriminate E1 end; injection E1 as <-; reflexivity. }
    destruct (slice (abuf a1) (aend a1) (length (abuf a1))) as [tl| |]; try discriminate E. cbn [obind] in E.
    destruct (io_read i (inner a1) tl) as [[r' tl'] res] eqn:Er. destruct res as [n|e'].
    + match type of E with context [slice ?x ?y ?z] => destruct (slice x y z); discriminate E end.
    + injection E as _ <-. exists (inner a1), tl, r', tl'. split; [rewrite Hi; exact (rp_good _ _ _ _ _ H)|]. unfold io_reader. rewrite Er. reflexivity.
  - destruct (slice (abuf a) (apos a) (aend a)); discriminate E.
Qed.

Lemma read_error : forall a p dst a' dst' e, rep src good tell a p -> read i a dst = Ret (a', dst', Error e) -> fails_with (io_reader i) good e.
Proof.
  intros a p dst a' dst' e H E. unfold read in E. destruct (csub (aend a) (apos a)) as [rem| |]; try discriminate E. cbn [obind] in E.
  destruct (length dst <? rem).
  - destruct (slice (abuf a) _ _) as [sl| |]; try discriminate E; cbn [obind] in E; destruct (slice_read _ _); discriminate E.
  - destruct (length (abuf a) <? length dst).
    + destruct (slice (abuf a) _ _) as [sl| |]; try discriminate E; cbn [obind] in E; destruct (slice_read _ _) as [d1 len].
      destruct (slice d1 _ _) as [tl| |]; try discriminate E. cbn [obind] in E.
      destruct (io_read i (inner a) tl) as [[r' tl'] res] eqn:Er. destruct res as [n|e'].
      * destruct (reset_buffer_position _); discriminate E.
      * injection E as _ _ <-. exists (inner a), tl, r', tl'. split; [exact (rp_good _ _ _ _ _ H)|]. unfold io_reader. rewrite Er. reflexivity.
    + destruct (fill_buf i a) as [[a1 res]| |] eqn:Ef; try discriminate E. cbn [obind] in E. destruct res as [d|e'].
      * destruct (slice_read d dst); discriminate E.
      * injection E as _ _ <-. exact (fill_error a p a1 e' H Ef).
Qed.

Lemma exact_rep : forall fuel n a p, rep src good tell a p ->
  exists a' res p', read_exact i fuel a n = Ret (a', res) /\ rep src good tell a' p' /\ p <= p' <= p + n /\
    match res with
    | Some (Okay l) => n <= length src - p /\ l = firstn n (skipn p src) /\ p' = p + n
    | Some (Error e) => p' < p + n /\ ((e = UnexpectedEof /\ length src - p < n /\ length src <= p') \/ (e <> Interrupted /\ fails_with (io_reader i) good e))
    | None => p' < p + n /\ (fuel < n \/ fails_with (io_reader i) good Interrupted)
    end.
Proof.
  induction fuel as [|fuel IH]; intros n a p H.
  - destruct n as [|n]; cbn [read_exact].
    + exists a, (Some (Okay [])), p. split; [reflexivity|]. split; [exact H|]. split; [lia|]. split; [lia|]. split; [reflexivity|lia].
    + exists a, None, p. split; [reflexivity|]. split; [exact H|]. split; [lia|]. split; [lia|left; lia].
  - destruct n as [|n]; cbn [read_exact].
    { exists a, (Some (Okay [])), p. split; [reflexivity|]. split; [exact H|]. split; [lia|]. split; [lia|]. split; [reflexivity|lia]. }
    destruct (read_rep i src good tell Hsrc a p (repeat 0%N (S n)) H) as [a1 [dst [res [p1 [E1 [H1 [[Hl Hr] _]]]]]]].
    rewrite E1. cbn [obind]. rewrite repeat_length in *. destruct res as [[|k]|e].
    + destruct Hr as [_ [_ [_ [K Hp]]]]. exists a1, (Some (Error UnexpectedEof)), p1. split; [reflexivity|]. split; [exact H1|].
      destruct (K eq_refl) as [K'|K']; [lia|]. split; [lia|]. split; [lia|]. left. split; [reflexivity|]. lia.
    + destruct Hr as [K1 [K2 [K3 [_ Hp]]]]. destruct (Nat.leb_spec (S k) (S n)); [|lia].
      destruct (IH (S n - S k) a1 p1 H1) as [a2 [res2 [p2 [E2 [H2 [Hp2 Hr2]]]]]]. rewrite E2. cbn [obind].
      destruct res2 as [[l|e]|].
      * destruct Hr2 as [J1 [J2 J3]]. exists a2, (Some (Okay (firstn (S k) dst ++ l))), p2. split; [reflexivity|]. split; [exact H2|]. split; [lia|].
        split; [lia|]. split; [|lia]. replace (firstn (S n) (skipn p src)) with (firstn (S k) (skipn p src) ++ firstn (S n - S k) (skipn (S k) (skipn p src)))
          by (rewrite <- firstn_plus; f_equal; lia).
        rewrite K3, J2, Hp, skipn_skipn_plus. reflexivity.
      * exists a2, (Some (Error e)), p2. split; [reflexivity|]. split; [exact H2|]. split; [lia|]. split; [lia|].
        destruct Hr2 as [_ [[J1 [J2 J3]]|J]]; [left|right; exact J]. split; [exact J1|]. lia.
      * exists a2, None, p2. split; [reflexivity|]. split; [exact H2|]. split; [lia|]. split; [lia|].
        destruct Hr2 as [_ [J|J]]; [left; lia|right; exact J].
    + assert (Hfail : fails_with (io_reader i) good e) by (exact (read_error _ _ _ _ _ _ H E1)). subst p1.
      assert (e = Interrupted \/ e <> Interrupted) as [->|He] by (destruct e; auto; right; discriminate).
      * destruct (IH (S n) a1 p H1) as [a2 [res2 [p2 [E2 [H2 [Hp2 Hr2]]]]]]. exists a2, res2, p2. split; [exact E2|]. split; [exact H2|]. split; [exact Hp2|].
        destruct res2 as [[l|e]|]; [exact Hr2|exact Hr2|]. split; [lia|]. right. exact Hfail.
      * exists a1, (Some (Error e)), p. split; [destruct e; [contradiction|reflexivity..]|]. split; [exact H1|]. split; [lia|]. split; [lia|].
        right. split; assumption.
Qed.
End Exact.

Lemma tells : forall (R : Type) (i : io R) src good tell a p, rep src good tell a p -> seek i a (Current 0) = Ret (a, Okay p).
Proof.
  intros R i src good tell a p H. cbn [seek]. rewrite csub_ok by apply H. cbn [obind Z.leb Z.compare Z.to_nat Nat.leb].
  pose proof (rp_index _ _ _ _ _ H) as Hi. destruct a as [r b x y z]. cbn [inner abuf apos aend aindex] in *.
  rewrite !Nat.add_0_r, Hi. reflexivity.
Qed.

Lemma exact_failing : forall (R : Type) (i : io R) src good tell cap r0 ops a outs, source_ok i src good tell -> good r0 -> tell r0 = 0 ->
  acc_legal i (with_capacity cap r0) ops -> acc_run i (with_capacity cap r0) ops = Ret (a, outs) ->
  exists p, history_spec src 0 ops outs p /\ forall fuel n,
  exists a' res p', read_exact i fuel a n = Ret (a', res) /\ seek i a' (Current 0) = Ret (a', Okay p') /\ p <= p' <= p + n /\
    match res with
    | Some (Okay l) => n <= length src - p /\ l = firstn n (skipn p src) /\ p' = p + n
    | Some (Error e) => p' < p + n /\ ((e = UnexpectedEof /\ length src - p < n /\ length src <= p') \/ (e <> Interrupted /\ fails_with (io_reader i) good e))
    | None => p' < p + n /\ (fuel < n \/ fails_with (io_reader i) good Interrupted)
    end.
Proof.
  intros R i src good tell cap r0 ops a outs Hs Hg Ht Hl E.
  destruct (reached i src good tell Hs cap r0 ops a outs Hg Ht Hl E) as [p [H C]]. exists p. split; [exact C|]. intros fuel n.
  destruct (exact_rep i src good tell Hs fuel n a p H) as [a' [res [p' [E' [H' K]]]]]. exists a', res, p'. split; [exact E'|].
  split; [exact (tells R i src good tell a' p' H')|exact K].
Qed.
