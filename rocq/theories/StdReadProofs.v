(** The inherited loops. *)
From Coq Require Import List Arith NArith ZArith Bool Lia.
From Coq Require Import ZifyBool ZifyNat ZifyN.
From Verif Require Import Base AccModel AccSpec AccProofs AccProofs2 AccExamples StdReadSpec.
Import ListNotations.
Local Open Scope nat_scope.

Lemma memchr_some : forall d l j, memchr d l = Some j -> j < length l /\ forall m, through d (l ++ m) = firstn (j + 1) l.
Proof.
  intros d. induction l as [|x l IH]; intros j H; cbn [memchr] in H; [discriminate H|].
  destruct (N.eqb x d) eqn:Ex.
  - injection H as <-. split; [cbn; lia|]. intros m. cbn. rewrite Ex. reflexivity.
  - destruct (memchr d l) as [j'|]; [|discriminate H]. injection H as <-. destruct (IH j' eq_refl) as [L T].
    split; [cbn; lia|]. intros m. cbn [app through Nat.add firstn]. rewrite Ex, T. reflexivity.
Qed.

Lemma memchr_none : forall d l, memchr d l = None -> forall m, through d (l ++ m) = l ++ through d m.
Proof.
  intros d. induction l as [|x l IH]; intros H m; [reflexivity|]. cbn [memchr] in H.
  destruct (N.eqb x d) eqn:Ex; [discriminate H|]. destruct (memchr d l); [discriminate H|].
  cbn [app through]. rewrite Ex, (IH eq_refl). reflexivity.
Qed.

Section Reader.
Context {R : Type}.
Variable i : io R.
Variable src : list N.
Variable good : R -> Prop.
Variable tell : R -> nat.
Hypothesis Hsrc : source_ok i src good tell.

Lemma read_never_fails : never_fails i src good tell -> forall a p dst a' dst' e, rep src good tell a p ->
  read i a dst <> Ret (a', dst', Error e).
Proof.
  intros Hnf a p dst a' dst' e H E. unfold read in E. rewrite csub_ok in E by apply H. cbn [obind] in E.
  destruct (length dst <? aend a - apos a).
  - destruct (slice _ _ _) as [s| |]; cbn [obind] in E; [|discriminate E..]. destruct (slice_read s dst). discriminate E.
  - destruct (length (abuf a) <? length dst).
    + destruct (slice (abuf a) _ _) as [s| |]; cbn [obind] in E; [|discriminate E..]. destruct (slice_read s dst) as [d1 n].
      destruct (slice d1 _ _) as [t| |]; cbn [obind] in E; [|discriminate E..].
      destruct (io_read i (inner a) t) as [[r' t'] res] eqn:Er.
      destruct (proj1 Hnf _ _ _ _ _ (rp_good _ _ _ _ _ H) Er) as [k ->].
      destruct (reset_buffer_position _) as [a2| |]; discriminate E.
    + destruct (fill_never_fails i src good tell Hsrc Hnf a p H) as [a1 [d [Ef _]]]. rewrite Ef in E. cbn [obind] in E.
      destruct (slice_read d dst). discriminate E.
Qed.

Lemma to_end_rep : forall sizes a p got, rep src good tell a p -> Forall (fun n => 0 < n) sizes ->
  exists a' more res, read_to_end i sizes a got = Ret (a', got ++ more, res) /\
    rep src good tell a' (p + length more) /\ more = firstn (length more) (skipn p src) /\
    (res = Some (Okay tt) -> more = skipn p src) /\
    (never_fails i src good tell -> length src - p < length sizes -> res = Some (Okay tt)).
Proof.
  induction sizes as [|n sizes IH]; intros a p got H F; cbn [read_to_end].
  - exists a, [], None. rewrite app_nil_r. cbn [length]. rewrite Nat.add_0_r. split; [reflexivity|].
    split; [exact H|]. split; [reflexivity|]. split; [discriminate|intros; lia].
  - apply Forall_cons_iff in F. destruct F as [Fn F].
    destruct (read_rep i src good tell Hsrc a p (repeat 0%N n) H) as (a1 & dst & res & p1 & E & H1 & Rd & _).
    rewrite E. cbn [obind]. destruct Rd as [Ld Rd]. rewrite repeat_length in *. destruct res as [k|e].
    + destruct Rd as (K1 & K2 & K3 & K4 & ->). destruct k as [|k].
      * exists a1, [], (Some (Okay tt)). rewrite app_nil_r. cbn [length]. split; [reflexivity|]. split; [exact H1|].
        split; [reflexivity|]. destruct (K4 eq_refl) as [|K5]; [lia|].
        split; [intros _; rewrite skipn_all2 by exact K5; reflexivity|reflexivity].
      * rewrite (proj2 (Nat.leb_le (S k) n) K1). destruct (IH a1 (p + S k) (got ++ firstn (S k) dst) H1 F) as (a' & more & res & E' & H' & M & D & T).
        exists a', (firstn (S k) dst ++ more), res. rewrite E', <- app_assoc.
        assert (Lk : length (firstn (S k) dst) = S k) by (rewrite firstn_length; lia).
        rewrite app_length, Lk. split; [reflexivity|]. split; [rewrite Nat.add_assoc; exact H'|].
        assert (Sk : skipn (p + S k) src = skipn (S k) (skipn p src)) by (rewrite skipn_skipn_plus; f_equal; lia).
        split; [rewrite firstn_plus, K3, <- Sk, <- M; reflexivity|].
        split; [intros Hr; rewrite (D Hr), Sk, K3; apply firstn_skipn|].
        intros Hnf L. apply (T Hnf). cbn [length] in L. lia.
    + subst p1.
      assert (Stop : exists a' more res, Ret (a1, got, Some (Error e)) = Ret (a', got ++ more, res) /\
        rep src good tell a' (p + length more) /\ more = firstn (length more) (skipn p src) /\
        (res = Some (Okay tt) -> more = skipn p src) /\
        (never_fails i src good tell -> length src - p < length (n :: sizes) -> res = Some (Okay tt))).
      { exists a1, [], (Some (Error e)). rewrite app_nil_r. cbn [length]. rewrite Nat.add_0_r. split; [reflexivity|].
        split; [exact H1|]. split; [reflexivity|]. split; [discriminate|].
        intros Hnf _. exfalso. exact (read_never_fails Hnf _ _ _ _ _ _ H E). }
      destruct e; try exact Stop. destruct (IH a1 p got H1 F) as (a' & more & res & E' & H' & M & D & T).
      exists a', more, res. split; [exact E'|]. split; [exact H'|]. split; [exact M|]. split; [exact D|].
      intros Hnf _. exfalso. exact (read_never_fails Hnf _ _ _ _ _ _ H E).
Qed.

Lemma until_rep : forall fuel d a p got, rep src good tell a p -> 0 < length (abuf a) ->
  exists a' more res, read_until i fuel d a got = Ret (a', got ++ more, res) /\
    rep src good tell a' (p + length more) /\ more = firstn (length more) (through d (skipn p src)) /\
    (res = Some (Okay tt) -> more = through d (skipn p src)) /\
    (never_fails i src good tell -> length src - p < fuel -> res = Some (Okay tt)).
Proof.
  induction fuel as [|fuel IH]; intros d a p got H B; cbn [read_until].
  - exists a, [], None. rewrite app_nil_r. cbn [length]. rewrite Nat.add_0_r. split; [reflexivity|].
    split; [exact H|]. split; [reflexivity|]. split; [discriminate|intros; lia].
  - destruct (fill_rep i src good tell Hsrc a p H) as (a1 & res & E & H1 & L1 & D).
    rewrite E. cbn [obind]. destruct res as [av|e].
    + destruct D as (D & G & Same). rewrite (data_rep _ _ _ _ _ H1) in D. injection D as D.
      pose proof (data_length _ _ _ _ _ H1) as La. rewrite D in La.
      assert (Sp : skipn p src = av ++ skipn (buffered a1) (skipn p src)) by (rewrite <- D at 1; symmetry; apply firstn_skipn).
      destruct (memchr d av) as [j|] eqn:Ej.
      * destruct (memchr_some _ _ _ Ej) as [Lj T].
        exists (consume a1 (j + 1)), (firstn (j + 1) av), (Some (Okay tt)).
        assert (Lf : length (firstn (j + 1) av) = j + 1) by (rewrite firstn_length; lia).
        split; [reflexivity|]. rewrite Lf.
        split; [apply consume_rep; [exact H1|lia]|].
        rewrite Sp, T. split; [rewrite firstn_firstn, Nat.min_id; reflexivity|]. split; reflexivity.
      * pose proof (memchr_none _ _ Ej) as T. destruct av as [|x av'].
        -- exists (consume a1 0), [], (Some (Okay tt)). rewrite app_nil_r. cbn [length]. split; [reflexivity|].
           split; [apply consume_rep; [exact H1|lia]|]. split; [reflexivity|]. split; [|reflexivity].
           intros _. cbn [length] in La. destruct (Same ltac:(lia)) as [Hf|He]; [lia|].
           rewrite skipn_all2 by lia. reflexivity.
        -- set (av := x :: av') in *.
           assert (Cr : rep src good tell (consume a1 (length av)) (p + length av)) by (apply consume_rep; [exact H1|lia]).
           destruct (IH d (consume a1 (length av)) (p + length av) (got ++ av) Cr) as (a' & more & res & E' & H' & M & Dn & Tm);
             [cbn [consume abuf]; lia|].
           assert (Sk : skipn (p + length av) src = skipn (buffered a1) (skipn p src)) by (rewrite skipn_skipn_plus; f_equal; lia).
           rewrite Sk in *.
           exists a', (av ++ more), res. rewrite E', <- app_assoc. split; [reflexivity|]. rewrite app_length.
           split; [rewrite Nat.add_assoc; exact H'|]. rewrite Sp, T.
           split; [rewrite firstn_plus, firstn_app_exact, skipn_app_exact by reflexivity; rewrite <- M; reflexivity|].
           split; [intros Hr; rewrite (Dn Hr); reflexivity|].
           intros Hnf Lf. apply (Tm Hnf). unfold av in *. cbn [length] in *. pose proof (rp_avail _ _ _ _ _ H1). unfold buffered in *. lia.
    + assert (Nf : ~ never_fails i src good tell).
      { intros Hnf. destruct (fill_never_fails i src good tell Hsrc Hnf a p H) as [a2 [d2 [E2 _]]]. rewrite E in E2. discriminate E2. }
      assert (Stop : exists a' more res, Ret (a1, got, Some (Error e)) = Ret (a', got ++ more, res) /\
        rep src good tell a' (p + length more) /\ more = firstn (length more) (through d (skipn p src)) /\
        (res = Some (Okay tt) -> more = through d (skipn p src)) /\
        (never_fails i src good tell -> length src - p < S fuel -> res = Some (Okay tt))).
      { exists a1, [], (Some (Error e)). rewrite app_nil_r. cbn [length]. rewrite Nat.add_0_r. split; [reflexivity|].
        split; [exact H1|]. split; [reflexivity|]. split; [discriminate|]. intros Hnf. exfalso. exact (Nf Hnf). }
      destruct e; try exact Stop. destruct (IH d a1 p got H1 ltac:(lia)) as (a' & more & res & E' & H' & M & Dn & Tm).
      exists a', more, res. split; [exact E'|]. split; [exact H'|]. split; [exact M|]. split; [exact Dn|].
      intros Hnf. exfalso. exact (Nf Hnf).
Qed.

End Reader.

(** ** Which calls need the source *)

Lemma fill_alone : forall (R : Type) (a : acc R), apos a <= aend a -> aend a <= length (abuf a) ->
  ((forall i i' : io R, fill_buf i a = fill_buf i' a) <-> apos a = 0 /\ aend a = length (abuf a)).
Proof.
  intros R a Hp He. split.
  - intros H. set (io1 := fun e => mk_io (fun (r : R) (d : list N) => (r, d, Error e : result nat io_error)) (fun r _ => (r, Okay 0))).
    specialize (H (io1 WriteZero) (io1 UnexpectedEof)). unfold fill_buf in H.
    destruct (Nat.eqb_spec (apos a) 0); [destruct (Nat.eqb_spec (aend a) (length (abuf a))); [split; assumption|]|];
    cbn [negb orb] in H; unfold reset_buffer_position in H; rewrite csub_ok in H by lia; cbn [obind] in H.
    all: destruct (0 <? aend a - apos a) eqn:Z; [rewrite (slice_ok _ (abuf a)) in H by lia|]; cbn [obind abuf aend apos inner aindex] in H.
    all: rewrite slice_ok in H by (rewrite ?app_length, ?firstn_length, ?skipn_length; lia).
    all: cbn in H; discriminate H.
  - intros [H1 H2] i i'. unfold fill_buf. replace (negb (apos a =? 0) || negb (aend a =? length (abuf a))) with false by lia. reflexivity.
Qed.

Lemma read_alone : forall (R : Type) (a : acc R) dst, apos a <= aend a -> aend a <= length (abuf a) ->
  ((forall i i' : io R, read i a dst = read i' a dst) <->
   length dst < aend a - apos a \/ (length dst = aend a - apos a /\ aend a - apos a = length (abuf a))).
Proof.
  intros R a dst Hp He. split.
  - intros H. destruct (Nat.ltb_spec (length dst) (aend a - apos a)) as [|Hge]; [left; assumption|right].
    set (io1 := fun e => mk_io (fun (r : R) (d : list N) => (r, d, Error e : result nat io_error)) (fun r _ => (r, Okay 0))).
    specialize (H (io1 WriteZero) (io1 UnexpectedEof)). unfold read in H. rewrite !csub_ok in H by lia. cbn [obind] in H.
    destruct (Nat.ltb_spec (length dst) (aend a - apos a)) as [|_]; [lia|].
    destruct (Nat.ltb_spec (length (abuf a)) (length dst)) as [Hbig|Hsm].
    + rewrite (slice_ok _ (abuf a)) in H by lia. cbn [obind] in H. destruct (slice_read _ _) as [d1 n] eqn:Es.
      apply slice_read_spec in Es. rewrite (slice_ok _ d1) in H by lia. cbn in H. discriminate H.
    + destruct (fill_alone R a Hp He) as [_ _].
      destruct (Nat.eq_dec (apos a) 0) as [Z|Z]; [destruct (Nat.eq_dec (aend a) (length (abuf a))) as [Y|Y]; [lia|]|].
      all: exfalso; unfold fill_buf in H.
      all: replace (negb (apos a =? 0) || negb (aend a =? length (abuf a))) with true in H by lia.
      all: unfold reset_buffer_position in H; rewrite csub_ok in H by lia; cbn [obind] in H.
      all: destruct (0 <? aend a - apos a) eqn:Q; [rewrite (slice_ok _ (abuf a)) in H by lia|]; cbn [obind abuf aend apos inner aindex] in H.
      all: rewrite slice_ok in H by (rewrite ?app_length, ?firstn_length, ?skipn_length; lia).
      all: cbn in H; discriminate H.
  - intros C i i'. unfold read. rewrite !csub_ok by lia. cbn [obind].
    destruct (Nat.ltb_spec (length dst) (aend a - apos a)) as [|Hge]; [reflexivity|].
    destruct (Nat.ltb_spec (length (abuf a)) (length dst)) as [Hbig|Hsm]; [lia|].
    rewrite (proj2 (fill_alone R a Hp He) ltac:(lia) i i'). reflexivity.
Qed.

Lemma buffered_unreadable :
  exists src c0 a outs d a', source_ok cursor_io src (fun c => cur_src c = src) cur_pos /\ cur_src c0 = src /\ cur_pos c0 = 0 /\
    acc_run cursor_io (with_capacity 8 c0) [AFill; AData] = Ret (a, outs) /\ data a = Ret d /\ length d = 3 /\
    read cursor_io a (repeat 0%N 3) = Ret (a', repeat 0%N 3, Error (OtherError 5)).
Proof.
  exists [1; 2; 3; 4; 5]%N, (mk_cursor [1; 2; 3; 4; 5]%N 0 [Deliver 3; Fail (OtherError 5)]). eexists _, _, _, _.
  split; [apply cursor_ok|]. split; [reflexivity|]. split; [reflexivity|]. split; [vm_compute; reflexivity|].
  split; [vm_compute; reflexivity|]. split; [reflexivity|]. vm_compute. reflexivity.
Qed.

Lemma empty_buffer_end :
  exists src c0 a', source_ok cursor_io src (fun c => cur_src c = src) cur_pos /\ cur_src c0 = src /\ cur_pos c0 = 0 /\ length src = 3 /\
    read_until cursor_io 9 3%N (with_capacity 0 c0) [] = Ret (a', [], Some (Okay tt)).
Proof.
  exists [1; 2; 3]%N, (mk_cursor [1; 2; 3]%N 0 []). eexists. split; [apply cursor_ok|]. split; [reflexivity|].
  split; [reflexivity|]. split; [reflexivity|]. vm_compute. reflexivity.
Qed.

(** ** After any history *)

Section Reached.
Context {R : Type}.
Variable i : io R.
Variable src : list N.
Variable good : R -> Prop.
Variable tell : R -> nat.
Variable cap : nat.
Variable r0 : R.
Variable ops : list acc_op.
Variable a : acc R.
Variable outs : list acc_out.
Hypothesis Hsrc : source_ok i src good tell.
Hypothesis Hg : good r0.
Hypothesis Ht : tell r0 = 0.
Hypothesis Hl : acc_legal i (with_capacity cap r0) ops.
Hypothesis Hrun : acc_run i (with_capacity cap r0) ops = Ret (a, outs).

Lemma reached_all : exists p, rep src good tell a p /\ history_spec src 0 ops outs p /\ length (abuf a) = cap + grown ops /\
  seek i a (Current 0) = Ret (a, Okay p).
Proof.
  destruct (reached i src good tell Hsrc cap r0 ops a outs Hg Ht Hl Hrun) as [p [X Hh]].
  pose proof (run_size i src good tell Hsrc ops _ _ _ _ (new_rep src good tell cap r0 Hg Ht) Hl Hrun) as L.
  cbn [with_capacity abuf] in L. rewrite repeat_length in L. exists p. repeat (split; [assumption|]).
  cbn [seek]. rewrite csub_ok by apply X. cbn [obind].
  change (0 <=? 0)%Z with true. change (Z.to_nat 0) with 0. cbn [Nat.leb]. pose proof (rp_index _ _ _ _ _ X) as Hq.
  destruct a as [b1 b2 b3 b4 b5]; cbn in *. rewrite !Nat.add_0_r. subst. reflexivity.
Qed.

Lemma needs_source : exists d, data a = Ret d /\
  (forall dst, (forall i', read i' a dst = read i a dst) <-> length dst < length d \/ (length dst = length d /\ length d = cap + grown ops)) /\
  ((forall i', fill_buf i' a = fill_buf i a) <-> length d = cap + grown ops).
Proof.
  destruct reached_all as (p & X & _ & L & _). pose proof (rp_pos _ _ _ _ _ X). pose proof (rp_end _ _ _ _ _ X).
  exists (firstn (buffered a) (skipn p src)). split; [exact (data_rep _ _ _ _ _ X)|].
  rewrite (data_length _ _ _ _ _ X). unfold buffered. rewrite <- L. split.
  - intros dst. rewrite <- read_alone by assumption. split; [intros E i1 i2; rewrite (E i1), (E i2); reflexivity|intros E i'; apply E].
  - assert (Q : aend a - apos a = length (abuf a) <-> apos a = 0 /\ aend a = length (abuf a)) by lia. rewrite Q.
    rewrite <- fill_alone by assumption. split; [intros E i1 i2; rewrite (E i1), (E i2); reflexivity|intros E i'; apply E].
Qed.

Lemma whole_rest : forall sizes, Forall (fun n => 0 < n) sizes ->
  exists p, history_spec src 0 ops outs p /\
  exists a' got res, read_to_end i sizes a [] = Ret (a', got, res) /\ got = firstn (length got) (skipn p src) /\
    (res = Some (Okay tt) -> got = skipn p src) /\
    (never_fails i src good tell -> length src - p < length sizes -> res = Some (Okay tt)).
Proof.
  intros sizes F. destruct reached_all as (p & X & Hh & _). exists p. split; [exact Hh|].
  destruct (to_end_rep i src good tell Hsrc sizes a p [] X F) as (a' & more & res & E & _ & C).
  exists a', more, res. split; [exact E|exact C].
Qed.

Lemma one_line : forall fuel d, 0 < cap + grown ops ->
  exists p, history_spec src 0 ops outs p /\
  exists a' got res, read_until i fuel d a [] = Ret (a', got, res) /\ got = firstn (length got) (through d (skipn p src)) /\
    seek i a' (Current 0) = Ret (a', Okay (p + length got)) /\
    (res = Some (Okay tt) -> got = through d (skipn p src)) /\
    (never_fails i src good tell -> length src - p < fuel -> res = Some (Okay tt)).
Proof.
  intros fuel d B. destruct reached_all as (p & X & Hh & L & _). exists p. split; [exact Hh|].
  destruct (until_rep i src good tell Hsrc fuel d a p [] X ltac:(lia)) as (a' & more & res & E & X' & M & C).
  exists a', more, res. split; [exact E|]. split; [exact M|]. split; [|exact C].
  cbn [seek]. rewrite csub_ok by apply X'. cbn [obind].
  change (0 <=? 0)%Z with true. change (Z.to_nat 0) with 0. cbn [Nat.leb]. pose proof (rp_index _ _ _ _ _ X') as Hq.
  clear - Hq. destruct a' as [b1 b2 b3 b4 b5]; cbn in *. rewrite !Nat.add_0_r. subst. reflexivity.
Qed.
End Reached.
