(** Proofs about the inherited methods of [InheritSpec]. *)
From Coq Require Import List Arith NArith ZArith Bool Lia.
From Coq Require Import ZifyBool ZifyNat ZifyN.
From Verif Require Import Base AccModel AccSpec AccProofs AccProofs2 AccExamples StdReadSpec StdReadProofs MuxModel MuxSpec InheritSpec.
Import ListNotations.
Local Open Scope nat_scope.

Lemma here_rep {R} (i : io R) src good tell : forall a p, rep src good tell a p -> seek i a (Current 0) = Ret (a, Okay p).
Proof.
  intros a p X. cbn [seek]. rewrite csub_ok by apply X. cbn [obind].
  change (0 <=? 0)%Z with true. change (Z.to_nat 0) with 0. cbn [Nat.leb]. pose proof (rp_index _ _ _ _ _ X) as Hq.
  destruct a as [b1 b2 b3 b4 b5]; cbn in *. rewrite !Nat.add_0_r. subst. reflexivity.
Qed.

Lemma split_filled : forall bufs, first_filled bufs = [] /\ (forall b, In b bufs -> b = []) /\ length bufs = empties bufs \/
  exists before b after, bufs = before ++ b :: after /\ b <> [] /\ (forall x, In x before -> x = []) /\ length before = empties bufs /\ first_filled bufs = b.
Proof.
  unfold first_filled. induction bufs as [|b bufs IH]; [left; repeat split; intros b []|].
  destruct b as [|x b].
  - cbn [empties nth]. destruct IH as [(A & B & C)|(before & b & after & E & N & B & L & F)].
    + left. split; [exact A|]. split; [intros b [<-|Hb]; [reflexivity|apply B; exact Hb]|cbn; lia].
    + right. exists ([] :: before), b, after. split; [rewrite E at 1; reflexivity|]. split; [exact N|].
      split; [intros y [<-|Hy]; [reflexivity|apply B; exact Hy]|]. split; [cbn; lia|exact F].
  - right. exists [], (x :: b), bufs. split; [reflexivity|]. split; [discriminate|]. split; [intros y []|]. split; reflexivity.
Qed.

Lemma update_at {A} : forall (before : list A) b after v, update (before ++ b :: after) (length before) v = before ++ v :: after.
Proof. induction before as [|x l IH]; intros; cbn; [reflexivity|]. rewrite IH. reflexivity. Qed.

Lemma update_beyond {A} : forall (l : list A) n v, length l <= n -> update l n v = l.
Proof. induction l as [|x l IH]; intros [|n] v H; cbn in *; try lia; try reflexivity. rewrite IH by lia. reflexivity. Qed.

Section Reader.
Context {R : Type}.
Variable i : io R.
Variable src : list N.
Variable good : R -> Prop.
Variable tell : R -> nat.
Hypothesis Hsrc : source_ok i src good tell.

Lemma vectored_rep : forall a p bufs, rep src good tell a p ->
  exists a' bufs' res p', read_vectored i a bufs = Ret (a', bufs', res) /\ rep src good tell a' p' /\
    ((forall b, In b bufs -> b = []) /\ bufs' = bufs /\ p' = p \/
     exists before b after b', bufs = before ++ b :: after /\ (forall x, In x before -> x = []) /\ b <> [] /\
       bufs' = before ++ b' :: after /\ reads src p b b' res p').
Proof.
  intros a p bufs X. unfold read_vectored.
  destruct (read_rep i src good tell Hsrc a p (first_filled bufs) X) as (a' & dst & res & p' & E & X' & Rd & _). rewrite E. cbn [obind].
  exists a', (update bufs (empties bufs) dst), res, p'. split; [reflexivity|]. split; [exact X'|].
  destruct (split_filled bufs) as [(F & B & L)|(before & b & after & Eb & N & B & L & F)]; rewrite F in Rd.
  - left. split; [exact B|]. split; [apply update_beyond; lia|]. destruct Rd as [Ld Rd]. destruct res as [k|e]; [|exact Rd].
    cbn [length] in *. lia.
  - right. exists before, b, after, dst. split; [exact Eb|]. split; [exact B|]. split; [exact N|]. split; [|exact Rd].
    rewrite <- L, Eb. apply update_at.
Qed.

Lemma bytes_to_end : forall calls a p got, rep src good tell a p -> collect_bytes i calls a got = read_to_end i (repeat 1 calls) a got.
Proof.
  induction calls as [|calls IH]; intros a p got X; cbn [collect_bytes repeat read_to_end]; [reflexivity|].
  destruct (read_rep i src good tell Hsrc a p [0%N] X) as (a1 & dst & res & p1 & E & X1 & Rd & _).
  change (repeat 0%N 1) with [0%N]. rewrite E. cbn [obind]. destruct Rd as [Ld Rd]. cbn [length] in Ld.
  destruct res as [k|e].
  - destruct Rd as (K1 & _). cbn [length] in K1. destruct k as [|[|k]]; [reflexivity| |lia].
    cbn [Nat.leb]. rewrite (IH _ _ _ X1). rewrite <- Ld, firstn_all. reflexivity.
  - destruct e; try reflexivity. apply (IH _ _ _ X1).
Qed.

Lemma take_rep : forall sizes a p limit got, rep src good tell a p -> Forall (fun n => 0 < n) sizes ->
  exists a' more res, take_to_end i sizes a limit got = Ret (a', limit - length more, got ++ more, res) /\
    rep src good tell a' (p + length more) /\ length more <= limit /\ more = firstn (length more) (skipn p src) /\
    (res = Some (Okay tt) -> more = firstn limit (skipn p src)) /\
    (never_fails i src good tell -> Nat.min limit (length src - p) < length sizes -> res = Some (Okay tt)).
Proof.
  induction sizes as [|n sizes IH]; intros a p limit got X F; cbn [take_to_end].
  - exists a, [], None. rewrite app_nil_r. cbn [length]. rewrite Nat.add_0_r, Nat.sub_0_r. split; [reflexivity|]. split; [exact X|].
    split; [lia|]. split; [reflexivity|]. split; [discriminate|intros; lia].
  - apply Forall_cons_iff in F. destruct F as [Fn F]. unfold take_read. destruct (Nat.eqb_spec limit 0) as [->|Hl].
    { cbn [obind]. exists a, [], (Some (Okay tt)). rewrite app_nil_r. cbn [length]. rewrite Nat.add_0_r. repeat (split; [first [reflexivity|exact X|lia]|]). split; reflexivity. }
    rewrite repeat_length. set (mx := Nat.min n limit).
    assert (Lm : length (firstn mx (repeat 0%N n)) = mx) by (rewrite firstn_length, repeat_length; lia).
    destruct (read_rep i src good tell Hsrc a p (firstn mx (repeat 0%N n)) X) as (a1 & dst & res & p1 & E & X1 & Rd & _).
    rewrite E. cbn [obind]. destruct Rd as [Ld Rd]. rewrite Lm in *. destruct res as [k|e].
    + destruct Rd as (K1 & K2 & K3 & K4 & ->). rewrite (proj2 (Nat.leb_le k limit)) by lia. cbn [obind]. destruct k as [|k].
      * exists a1, [], (Some (Okay tt)). rewrite app_nil_r. cbn [length]. split; [f_equal; f_equal; f_equal; f_equal; lia|]. split; [exact X1|]. split; [lia|].
        split; [reflexivity|]. destruct (K4 eq_refl) as [|K5]; [lia|].
        split; [intros _; rewrite skipn_all2 by exact K5; rewrite firstn_nil; reflexivity|reflexivity].
      * rewrite (proj2 (Nat.leb_le (S k) n)) by lia.
        destruct (IH a1 (p + S k) (limit - S k) (got ++ firstn (S k) (dst ++ skipn mx (repeat 0%N n))) X1 F) as (a' & more & res & E' & X' & L' & M & D & T).
        rewrite firstn_app, Ld in E'. replace (S k - mx) with 0 in E' by lia. cbn [firstn] in E'. rewrite app_nil_r in E'.
        assert (Lk : length (firstn (S k) dst) = S k) by (rewrite firstn_length; lia).
        exists a', (firstn (S k) dst ++ more), res. rewrite app_length, Lk.
        rewrite firstn_app, Ld. replace (S k - mx) with 0 by lia. cbn [firstn]. rewrite app_nil_r.
        cbn [firstn] in E'. rewrite E', <- app_assoc. split; [f_equal; f_equal; f_equal; f_equal; lia|].
        split; [rewrite Nat.add_assoc; exact X'|]. split; [lia|].
        assert (Sk : skipn (p + S k) src = skipn (S k) (skipn p src)) by (rewrite skipn_skipn_plus; f_equal; lia).
        assert (Ff : forall (l : list N), firstn limit l = firstn (S k) l ++ firstn (limit - S k) (skipn (S k) l)).
        { intros l. rewrite <- firstn_plus. f_equal. lia. }
        change (match dst with [] => [] | a0 :: l => a0 :: firstn k l end) with (firstn (S k) dst).
        split; [rewrite firstn_plus, K3, <- Sk, <- M; reflexivity|].
        split; [intros Hr; rewrite (D Hr), Sk, K3, Ff; reflexivity|].
        intros Hnf L. apply (T Hnf). cbn [length] in L. lia.
    + subst p1.
      assert (Stop : exists a' more res, Ret (a1, limit, got, Some (Error e)) = Ret (a', limit - length more, got ++ more, res) /\
        rep src good tell a' (p + length more) /\ length more <= limit /\ more = firstn (length more) (skipn p src) /\
        (res = Some (Okay tt) -> more = firstn limit (skipn p src)) /\
        (never_fails i src good tell -> Nat.min limit (length src - p) < length (n :: sizes) -> res = Some (Okay tt))).
      { exists a1, [], (Some (Error e)). rewrite app_nil_r. cbn [length]. rewrite Nat.add_0_r, Nat.sub_0_r. split; [reflexivity|].
        split; [exact X1|]. split; [lia|]. split; [reflexivity|]. split; [discriminate|].
        intros Hnf _. exfalso. exact (read_never_fails i src good tell Hsrc Hnf _ _ _ _ _ _ X E). }
      cbn [obind]. destruct e; try exact Stop. destruct (IH a1 p limit got X1 F) as (a' & more & res & E' & H' & L' & M & D & T).
      exists a', more, res. split; [exact E'|]. split; [exact H'|]. split; [exact L'|]. split; [exact M|]. split; [exact D|].
      intros Hnf _. exfalso. exact (read_never_fails i src good tell Hsrc Hnf _ _ _ _ _ _ X E).
Qed.
End Reader.

Lemma skip_is_until {R} (i : io R) : forall fuel d a got,
  skip_until i fuel d a (length got) = (let! (a', more, res) := read_until i fuel d a got in Ret (a', length more, res)).
Proof.
  induction fuel as [|fuel IH]; intros d a got; cbn [skip_until read_until]; [reflexivity|].
  destruct (fill_buf i a) as [[a1 res]| |]; cbn [obind]; [|reflexivity|reflexivity].
  destruct res as [av|e].
  - destruct (memchr d av) as [j|] eqn:Ej.
    + cbn [obind]. destruct (memchr_some _ _ _ Ej) as [Lj _]. rewrite app_length, firstn_length. rewrite Nat.min_l by lia. reflexivity.
    + destruct av as [|x av]; [reflexivity|]. rewrite <- IH, app_length. reflexivity.
  - destruct e; try reflexivity. apply IH.
Qed.

Section Reached.
Context {R : Type}.
Variable i : io R.
Variable src : list N.
Variable good : R -> Prop.
Variable tell : R -> nat.
Variable cap : nat.
Variable r0 : R.
Variable ops : list acc_op.
Variable a : acc R.
Variable outs : list acc_out.
Hypothesis Hsrc : source_ok i src good tell.
Hypothesis Hg : good r0.
Hypothesis Ht : tell r0 = 0.
Hypothesis Hl : acc_legal i (with_capacity cap r0) ops.
Hypothesis Hrun : acc_run i (with_capacity cap r0) ops = Ret (a, outs).

Lemma inherited_vectored : forall bufs, exists p, history_spec src 0 ops outs p /\
  exists a' bufs' res p', read_vectored i a bufs = Ret (a', bufs', res) /\ stream_position i a' = Ret (a', Okay p') /\
    ((forall b, In b bufs -> b = []) /\ bufs' = bufs /\ p' = p \/
     exists before b after b', bufs = before ++ b :: after /\ (forall x, In x before -> x = []) /\ b <> [] /\
       bufs' = before ++ b' :: after /\ reads src p b b' res p').
Proof.
  intros bufs. destruct (reached_all i src good tell cap r0 ops a outs Hsrc Hg Ht Hl Hrun) as (p & X & Hh & _). exists p. split; [exact Hh|].
  destruct (vectored_rep i src good tell Hsrc a p bufs X) as (a' & bufs' & res & p' & E & X' & C).
  exists a', bufs', res, p'. split; [exact E|]. split; [exact (here_rep i src good tell a' p' X')|exact C].
Qed.

Lemma inherited_bytes : forall calls, exists p, history_spec src 0 ops outs p /\
  exists a' got res, collect_bytes i calls a [] = Ret (a', got, res) /\ stream_position i a' = Ret (a', Okay (p + length got)) /\
    got = firstn (length got) (skipn p src) /\
    (res = Some (Okay tt) -> got = skipn p src) /\
    (never_fails i src good tell -> length src - p < calls -> res = Some (Okay tt)).
Proof.
  intros calls. destruct (reached_all i src good tell cap r0 ops a outs Hsrc Hg Ht Hl Hrun) as (p & X & Hh & _). exists p. split; [exact Hh|].
  rewrite (bytes_to_end i src good tell Hsrc calls a p [] X).
  assert (F : Forall (fun n => 0 < n) (repeat 1 calls)) by (apply Forall_forall; intros n Hn; apply repeat_spec in Hn; lia).
  destruct (to_end_rep i src good tell Hsrc (repeat 1 calls) a p [] X F) as (a' & more & res & E & X' & C). rewrite repeat_length in C.
  exists a', more, res. split; [exact E|]. split; [exact (here_rep i src good tell a' _ X')|exact C].
Qed.

Lemma inherited_take : forall sizes limit, Forall (fun n => 0 < n) sizes -> exists p, history_spec src 0 ops outs p /\
  exists a' got res, take_to_end i sizes a limit [] = Ret (a', limit - length got, got, res) /\ stream_position i a' = Ret (a', Okay (p + length got)) /\
    length got <= limit /\ got = firstn (length got) (skipn p src) /\
    (res = Some (Okay tt) -> got = firstn limit (skipn p src)) /\
    (never_fails i src good tell -> Nat.min limit (length src - p) < length sizes -> res = Some (Okay tt)).
Proof.
  intros sizes limit F. destruct (reached_all i src good tell cap r0 ops a outs Hsrc Hg Ht Hl Hrun) as (p & X & Hh & _). exists p. split; [exact Hh|].
  destruct (take_rep i src good tell Hsrc sizes a p limit [] X F) as (a' & more & res & E & X' & C).
  exists a', more, res. split; [exact E|]. split; [exact (here_rep i src good tell a' _ X')|exact C].
Qed.

Lemma inherited_skip : forall fuel d, 0 < cap + grown ops -> exists p, history_spec src 0 ops outs p /\
  exists a' n res, skip_until i fuel d a 0 = Ret (a', n, res) /\ stream_position i a' = Ret (a', Okay (p + n)) /\
    n <= length (through d (skipn p src)) /\
    (res = Some (Okay tt) -> n = length (through d (skipn p src))) /\
    (never_fails i src good tell -> length src - p < fuel -> res = Some (Okay tt)).
Proof.
  intros fuel d B. destruct (one_line i src good tell cap r0 ops a outs Hsrc Hg Ht Hl Hrun fuel d B) as (p & Hh & a' & got & res & E & G & S & D & T).
  exists p. split; [exact Hh|]. exists a', (length got), res.
  change 0 with (length (@nil N)) at 1. rewrite skip_is_until, E. cbn [obind]. split; [reflexivity|]. split; [exact S|].
  split; [rewrite G, firstn_length; lia|]. split; [intros Hr; rewrite <- (D Hr); reflexivity|exact T].
Qed.

Lemma inherited_seeks : exists p, history_spec src 0 ops outs p /\ stream_position i a = Ret (a, Okay p) /\
  (exists a' res, rewind i a = Ret (a', res) /\ exists p', stream_position i a' = Ret (a', Okay p') /\ (p' = 0 \/ p' = p) /\ (res = Okay tt -> p' = 0)) /\
  forall n, exists a' res, seek_relative i a (Z.of_nat n) = Ret (a', res) /\ exists p', stream_position i a' = Ret (a', Okay p') /\ (p' = p + n \/ p' = p) /\ (res = Okay tt -> p' = p + n).
Proof.
  destruct (reached_all i src good tell cap r0 ops a outs Hsrc Hg Ht Hl Hrun) as (p & X & Hh & _). exists p. split; [exact Hh|].
  split; [exact (here_rep i src good tell a p X)|]. split.
  - unfold rewind. destruct (seek_rep i src good tell Hsrc a p (Start 0) X I) as (a' & res & E & _ & C). rewrite E. cbn [obind].
    do 2 eexists. split; [reflexivity|]. cbn [target] in C. destruct res as [q|e].
    + destruct C as [C X']. exists q. split; [exact (here_rep i src good tell a' q X')|]. lia.
    + destruct C as [[X' _]|(q & C & X')].
      * exists p. split; [exact (here_rep i src good tell a' p X')|]. split; [auto|discriminate].
      * exists q. split; [exact (here_rep i src good tell a' q X')|]. split; [lia|discriminate].
  - intros n. unfold seek_relative. destruct (seek_rep i src good tell Hsrc a p (Current (Z.of_nat n)) X) as (a' & res & E & _ & C); [cbn; lia|].
    rewrite E. cbn [obind]. do 2 eexists. split; [reflexivity|]. cbn [target] in C. destruct res as [q|e].
    + destruct C as [C X']. exists q. split; [exact (here_rep i src good tell a' q X')|]. lia.
    + destruct C as [[X' _]|(q & C & X')].
      * exists p. split; [exact (here_rep i src good tell a' p X')|]. split; [auto|discriminate].
      * exists q. split; [exact (here_rep i src good tell a' q X')|]. split; [lia|discriminate].
Qed.
End Reached.

Lemma writer_vectored {W} (s : sink W) good tell : sink_ok s good tell -> forall w bufs w' res, good (w_inner w) ->
  writer_write_vectored s w bufs = (w', res) ->
  good (w_inner w') /\ exists b, sk_write s (w_inner w) b = (w_inner w', res) /\
    ((forall x, In x bufs -> x = []) /\ b = [] \/ exists before after, bufs = before ++ b :: after /\ b <> [] /\ forall x, In x before -> x = []) /\
    match res with
    | Okay n => n <= length b /\ writer_position w' = writer_position w + n /\ tell (w_inner w') = tell (w_inner w) + n
    | Error _ => writer_position w' = writer_position w /\ tell (w_inner w') = tell (w_inner w)
    end.
Proof.
  intros Hs w bufs w' res Hg E. unfold writer_write_vectored, writer_write in E.
  destruct (sk_write s (w_inner w) (first_filled bufs)) as [v r] eqn:Ew.
  destruct (sko_write _ _ _ Hs _ _ _ _ Hg Ew) as [Hv Hr].
  assert (G : w_inner w' = v /\ res = r /\ writer_position w' = match r with Okay n => writer_position w + n | Error _ => writer_position w end).
  { destruct r; inversion E; subst; repeat split. }
  destruct G as (G1 & -> & G3). split; [rewrite G1; exact Hv|]. exists (first_filled bufs). rewrite G1. split; [exact Ew|]. split.
  - destruct (split_filled bufs) as [(F & B & _)|(before & b & after & Eb & N & B & _ & F)]; rewrite F; [left; auto|right; eauto 6].
  - destruct r; intuition.
Qed.

Lemma writer_told {W} (s : sink W) good tell : sink_ok s good tell -> forall w w' q, good (w_inner w) ->
  writer_stream_position s w = (w', Okay q) -> writer_position w' = q /\ tell (w_inner w') = q.
Proof.
  intros Hs w w' q Hg E. unfold writer_stream_position, writer_seek in E.
  destruct (sk_seek s (w_inner w) (Current 0)) as [v r] eqn:Ew. destruct (sko_seek _ _ _ Hs _ _ _ _ Hg Ew) as [Hv Hr].
  destruct r as [n|e]; [|discriminate E]. injection E as <- <-. split; [reflexivity|exact Hr].
Qed.
