(** Buffered readers and stream getters over readers that report too many bytes. *)
From Coq Require Import List Arith NArith ZArith Bool Lia.
From Coq Require Import ZifyBool ZifyNat ZifyN.
From Verif Require Import Base ByteModel AccModel AccSpec AccProofs StreamModel StreamSpec OverSpec.
Import ListNotations.
Local Open Scope nat_scope.

Section Acc.
Context {R : Type}.
Variable i : io R.
Hypothesis Hs : sized i.

Definition inside (a : acc R) : Prop := apos a <= aend a <= length (abuf a).

Lemma reset_inside a : inside a -> exists buf', reset_buffer_position a = Ret (mk_acc (inner a) buf' 0 (aend a - apos a) (aindex a)) /\
  length buf' = length (abuf a) /\ skipn (aend a - apos a) buf' = room a /\
  firstn (aend a - apos a) buf' = firstn (aend a - apos a) (skipn (apos a) (abuf a)).
Proof.
  intros [H1 H2]. unfold reset_buffer_position. rewrite csub_ok by exact H1. cbn [obind]. unfold room.
  destruct (Nat.ltb_spec 0 (aend a - apos a)) as [Hr|Hr].
  - rewrite slice_ok by assumption. cbn [obind]. eexists. split; [reflexivity|].
    set (rem := aend a - apos a) in *.
    assert (Lw : length (firstn rem (skipn (apos a) (abuf a))) = rem) by (rewrite firstn_length, skipn_length; lia).
    split; [rewrite app_length, Lw, skipn_length; lia|].
    split; [apply skipn_app_exact; symmetry; exact Lw|apply firstn_app_exact; symmetry; exact Lw].
  - cbn [obind]. eexists. split; [reflexivity|]. split; [reflexivity|]. split; [reflexivity|].
    replace (aend a - apos a) with 0 by lia. reflexivity.
Qed.

Definition fine (a : acc R) (a' : acc R) : Prop := inside a' /\ length (abuf a') = length (abuf a).

Lemma fill_inside a : inside a ->
  (exists a' res, fill_buf i a = Ret (a', res) /\ fine a a' /\ ~ overfills i a) \/ (fill_buf i a = Panic /\ overfills i a).
Proof.
  intros H. unfold fill_buf, overfills.
  destruct (negb (apos a =? 0) || negb (aend a =? length (abuf a))) eqn:Ef.
  - assert (Nf : ~ (apos a = 0 /\ aend a = length (abuf a))) by lia.
    destruct (reset_inside a H) as (buf' & E & L & S & _). rewrite E. cbn [obind inner abuf apos aend aindex].
    destruct H as [H1 H2]. rewrite slice_ok by lia. cbn [obind].
    rewrite firstn_all2 by (rewrite skipn_length; lia). rewrite S.
    destruct (io_read i (inner a) (room a)) as [[r' t'] res] eqn:Er.
    pose proof (Hs _ _ _ _ _ Er) as Lt.
    assert (Lr : length (room a) = length (abuf a) - (aend a - apos a)) by (unfold room; apply skipn_length).
    assert (Lb : length (with_tail buf' (aend a - apos a) t') = length (abuf a)).
    { unfold with_tail. rewrite app_length, firstn_length, Lt, Lr. lia. }
    destruct res as [n|e].
    + unfold slice. cbn [abuf apos aend].
      destruct (Nat.ltb_spec (length (room a)) n) as [Hn|Hn].
      * right. split; [|split; [exact Nf|exists r', t', n; split; [reflexivity|exact Hn]]].
        rewrite (proj2 (Nat.leb_gt (aend a - apos a + n) _)) by lia. rewrite andb_false_r. reflexivity.
      * left. rewrite (proj2 (Nat.leb_le (aend a - apos a + n) _)) by lia. cbn [Nat.leb andb obind].
        eexists _, _. split; [reflexivity|]. split; [split; [unfold inside; cbn [apos aend abuf]; lia|exact Lb]|].
        intros [_ (r2 & d2 & n2 & E2 & Hn2)]. assert (n2 = n) by congruence. lia.
    + left. eexists _, _. split; [reflexivity|]. split; [split; [unfold inside; cbn [apos aend abuf]; lia|exact Lb]|].
      intros [_ (r2 & d2 & n2 & E2 & Hn2)]. congruence.
  - left. destruct H as [H1 H2]. rewrite slice_ok by lia. cbn [obind]. eexists _, _. split; [reflexivity|].
    split; [split; [split; assumption|reflexivity]|]. intros [K _]. apply K. lia.
Qed.

Lemma seek_inner_inside a s : inside a ->
  (exists a' res, seek_inner i a s = Ret (a', res) /\ fine a a' /\
     ~ (exists r' q, io_seek i (inner a) s = (r', Okay q) /\ overfills i (mk_acc r' (abuf a) 0 0 q))) \/
  (seek_inner i a s = Panic /\ exists r' q, io_seek i (inner a) s = (r', Okay q) /\ overfills i (mk_acc r' (abuf a) 0 0 q)).
Proof.
  intros H. unfold seek_inner. destruct (io_seek i (inner a) s) as [r' [q|e]] eqn:E.
  - destruct (fill_inside (mk_acc r' (abuf a) 0 0 q)) as [(a' & res & E' & F & No)|[E' Ov]].
    + unfold inside. cbn [apos aend abuf]. lia.
    + left. rewrite E'. cbn [obind]. exists a'. destruct res as [d|e]; eexists; (split; [reflexivity|]; split; [exact F|]);
        intros (r2 & q2 & E2 & O2); assert (r2 = r') by congruence; assert (q2 = q) by congruence; subst; exact (No O2).
    + right. rewrite E'. split; [reflexivity|]. exists r', q. split; [reflexivity|exact Ov].
  - left. eexists _, _. split; [reflexivity|]. split; [split; [exact H|reflexivity]|].
    intros (r2 & q2 & E2 & _). discriminate E2.
Qed.

Definition grows (op : acc_op) : nat := match op with AGrow n => n | _ => 0 end.

Lemma step_inside a op : inside a ->
  (exists a' o, acc_step i a op = Ret (a', o) /\ inside a' /\ length (abuf a') = length (abuf a) + grows op /\ ~ overlong_call i a op) \/
  (acc_step i a op = Panic /\ overlong_call i a op).
Proof.
  intros H. pose proof H as [H1 H2]. destruct op as [dst| |n|n| | | |s]; cbn [acc_step overlong_call grows].
  - unfold read. rewrite csub_ok by exact H1. cbn [obind].
    destruct (Nat.ltb_spec (length dst) (aend a - apos a)) as [Hd|Hd].
    + rewrite slice_ok by lia. cbn [obind]. destruct (slice_read _ dst) as [dst' len]. cbn [obind]. left.
      eexists _, _. split; [reflexivity|]. split; [unfold inside; cbn [consume apos aend abuf]; lia|].
      split; [cbn [consume abuf]; lia|lia].
    + destruct (Nat.ltb_spec (length (abuf a)) (length dst)) as [Hb|Hb].
      * rewrite slice_ok by lia. cbn [obind]. destruct (slice_read _ dst) as [dst1 len] eqn:Es.
        apply slice_read_spec in Es. destruct Es as (_ & Ld & _ & _).
        rewrite slice_ok by lia. cbn [obind].
        destruct (io_read i (inner a) _) as [[r' t'] [n|e]].
        -- set (a1 := consume _ (n + len)).
           assert (K : inside a1) by (unfold a1, inside; cbn [consume apos aend abuf]; lia).
           destruct (reset_inside a1 K) as (buf' & E & L & _). rewrite E. cbn [obind]. left. eexists _, _. split; [reflexivity|].
           destruct K as [K1 K2]. unfold inside. cbn [abuf apos aend]. rewrite L. unfold a1 in *. cbn [consume abuf apos aend] in *. lia.
        -- left. cbn [obind]. eexists _, _. split; [reflexivity|]. unfold inside. cbn [abuf apos aend]. lia.
      * destruct (fill_inside a H) as [(a' & res & E & [F L] & No)|[E Ov]]; rewrite E; cbn [obind].
        -- left. destruct res as [d|e].
           ++ destruct (slice_read d dst) as [dst' k]. cbn [obind]. eexists _, _. split; [reflexivity|]. destruct F as [F1 F2].
              split; [unfold inside; cbn [consume apos aend abuf]; lia|]. split; [cbn [consume abuf]; lia|]. intros [_ O]. exact (No O).
           ++ cbn [obind]. eexists _, _. split; [reflexivity|]. split; [exact F|]. split; [lia|]. intros [_ O]. exact (No O).
        -- right. split; [reflexivity|]. split; [lia|exact Ov].
  - destruct (fill_inside a H) as [(a' & res & E & [F L] & No)|[E Ov]]; rewrite E; cbn [obind].
    + left. eexists _, _. split; [reflexivity|]. split; [exact F|]. split; [lia|exact No].
    + right. split; [reflexivity|exact Ov].
  - left. eexists _, _. split; [reflexivity|]. unfold inside. cbn [consume apos aend abuf]. lia.
  - left. eexists _, _. split; [reflexivity|]. unfold inside. cbn [grow apos aend abuf]. rewrite app_length, repeat_length. lia.
  - left. destruct (reset_inside a H) as (buf' & E & L & _). rewrite E. cbn [obind]. eexists _, _. split; [reflexivity|].
    unfold inside. cbn [apos aend abuf]. lia.
  - left. unfold data. rewrite slice_ok by lia. cbn [obind]. eexists _, _. split; [reflexivity|]. split; [exact H|]. split; [lia|tauto].
  - left. unfold capacity. rewrite csub_ok by lia. cbn [obind]. eexists _, _. split; [reflexivity|]. split; [exact H|]. split; [lia|tauto].
  - assert (P : forall s', passed_on a s = Some s' -> seek i a s = seek_inner i a s' ->
      (exists a' o, (let! (a', res) := seek i a s in Ret (a', OSeek res)) = Ret (a', o) /\ inside a' /\ length (abuf a') = length (abuf a) + 0 /\
        ~ (exists s' r' q, passed_on a s = Some s' /\ io_seek i (inner a) s' = (r', Okay q) /\ overfills i (mk_acc r' (abuf a) 0 0 q))) \/
      (let! (a', res) := seek i a s in Ret (a', OSeek res)) = Panic /\
        (exists s' r' q, passed_on a s = Some s' /\ io_seek i (inner a) s' = (r', Okay q) /\ overfills i (mk_acc r' (abuf a) 0 0 q))).
    { intros s' Es E. rewrite E. destruct (seek_inner_inside a s' H) as [(a' & res & E' & [F L] & No)|[E' (r' & q & E2 & O2)]]; rewrite E'; cbn [obind].
      - left. eexists _, _. split; [reflexivity|]. split; [exact F|]. split; [lia|].
        intros (s2 & r2 & q2 & S2 & E2 & O2). assert (s2 = s') by congruence. subst s2. apply No. exists r2, q2. split; assumption.
      - right. split; [reflexivity|]. exists s', r', q. split; [exact Es|]. split; assumption. }
    assert (Q : forall a' res, passed_on a s = None -> seek i a s = Ret (a', res) -> inside a' -> length (abuf a') = length (abuf a) ->
      (exists a' o, (let! (a', res) := seek i a s in Ret (a', OSeek res)) = Ret (a', o) /\ inside a' /\ length (abuf a') = length (abuf a) + 0 /\
        ~ (exists s' r' q, passed_on a s = Some s' /\ io_seek i (inner a) s' = (r', Okay q) /\ overfills i (mk_acc r' (abuf a) 0 0 q)))).
    { intros a' res Es E F L. rewrite E. cbn [obind]. eexists _, _. split; [reflexivity|]. split; [exact F|]. split; [lia|].
      intros (s2 & r2 & q2 & S2 & _). congruence. }
    destruct s as [p|d|d].
    + assert (Eb : csub (aindex a + aend a) (apos a) = Ret (aindex a + (aend a - apos a))) by (rewrite csub_ok by lia; f_equal; lia).
      destruct ((aindex a <=? p) && (p <? aindex a + (aend a - apos a))) eqn:Ep.
      * left. eapply Q; [cbn [passed_on]; rewrite Ep; reflexivity|cbn [seek]; rewrite Eb; cbn [obind]; rewrite Ep; reflexivity| |reflexivity].
        unfold inside. cbn [apos aend abuf]. lia.
      * apply (P (Start p)); [cbn [passed_on]; rewrite Ep; reflexivity|]. cbn [seek]. rewrite Eb. cbn [obind]. rewrite Ep. reflexivity.
    + apply (P (End d)); reflexivity.
    + assert (Eb : csub (aend a) (apos a) = Ret (aend a - apos a)) by (apply csub_ok; lia).
      destruct (Z.ltb_spec d 0) as [Hd|Hd].
      * apply (P (Current d)); [cbn [passed_on]; rewrite (proj2 (Z.ltb_lt d 0) Hd); reflexivity|].
        cbn [seek]. rewrite Eb. cbn [obind]. rewrite (proj2 (Z.leb_gt 0 d) Hd). reflexivity.
      * destruct (Z.leb_spec d (Z.of_nat (aend a - apos a))) as [Hh|Hh].
        -- left. eapply Q.
           ++ cbn [passed_on]. rewrite (proj2 (Z.ltb_ge d 0) Hd), (proj2 (Z.leb_le _ _) Hh). reflexivity.
           ++ cbn [seek]. rewrite Eb. cbn [obind]. rewrite (proj2 (Z.leb_le 0 d) Hd), (proj2 (Nat.leb_le (Z.to_nat d) (aend a - apos a))) by lia. reflexivity.
           ++ unfold inside. cbn [apos aend abuf]. lia.
           ++ reflexivity.
        -- apply (P (Current (d - Z.of_nat (aend a - apos a)))).
           ++ cbn [passed_on]. rewrite (proj2 (Z.ltb_ge d 0) Hd), (proj2 (Z.leb_gt _ _) Hh). reflexivity.
           ++ cbn [seek]. rewrite Eb. cbn [obind]. rewrite (proj2 (Z.leb_le 0 d) Hd), (proj2 (Nat.leb_gt (Z.to_nat d) (aend a - apos a))) by lia. reflexivity.
Qed.

Lemma run_inside : forall ops a, inside a ->
  (exists a' outs, acc_run i a ops = Ret (a', outs) /\ inside a' /\ length (abuf a') = length (abuf a) + grown ops /\
     ~ (exists ops1 op ops2 b outs1, ops = ops1 ++ op :: ops2 /\ acc_run i a ops1 = Ret (b, outs1) /\ overlong_call i b op)) \/
  (acc_run i a ops = Panic /\
     exists ops1 op ops2 b outs1, ops = ops1 ++ op :: ops2 /\ acc_run i a ops1 = Ret (b, outs1) /\ overlong_call i b op).
Proof.
  induction ops as [|op ops IH]; intros a H.
  - left. exists a, []. split; [reflexivity|]. split; [exact H|]. split; [cbn [grown]; lia|].
    intros (ops1 & op & ops2 & b & o & E & _). destruct ops1; discriminate E.
  - cbn [acc_run]. destruct (step_inside a op H) as [(a1 & o & E & H1 & L & No)|[E Ov]]; rewrite E; cbn [obind].
    + destruct (IH a1 H1) as [(a2 & os & E2 & H2 & L2 & No2)|[E2 (ops1 & op' & ops2 & b & os & Eo & Er & Ov)]]; rewrite E2; cbn [obind].
      * left. exists a2, (o :: os). split; [reflexivity|]. split; [exact H2|].
        split; [rewrite L2, L; destruct op; cbn [grown grows]; lia|].
        intros (ops1 & op' & ops2 & b & os1 & Eo & Er & Ov). destruct ops1 as [|x ops1].
        -- injection Eo as -> ->. cbn [acc_run] in Er. injection Er as <- <-. exact (No Ov).
        -- injection Eo as <- ->. cbn [acc_run] in Er. rewrite E in Er. cbn [obind] in Er.
           destruct (acc_run i a1 ops1) as [[b' os2]| |] eqn:Er1; cbn [obind] in Er; try discriminate Er. injection Er as <- <-.
           apply No2. exists ops1, op', ops2, b', os2. split; [reflexivity|]. split; [exact Er1|exact Ov].
      * right. split; [reflexivity|]. exists (op :: ops1), op', ops2, b, (o :: os). rewrite Eo. split; [reflexivity|].
        split; [cbn [acc_run]; rewrite E; cbn [obind]; rewrite Er; reflexivity|exact Ov].
    + right. split; [reflexivity|]. exists [], op, ops, a, []. split; [reflexivity|]. split; [reflexivity|exact Ov].
Qed.

Lemma panics_exactly cap r ops :
  (acc_run i (with_capacity cap r) ops = Panic <->
   exists ops1 op ops2 a outs, ops = ops1 ++ op :: ops2 /\ acc_run i (with_capacity cap r) ops1 = Ret (a, outs) /\ overlong_call i a op) /\
  acc_run i (with_capacity cap r) ops <> UB /\
  (forall a outs, acc_run i (with_capacity cap r) ops = Ret (a, outs) ->
     apos a <= aend a <= length (abuf a) /\ length (abuf a) = cap + grown ops).
Proof.
  assert (H : inside (with_capacity cap r)) by (unfold inside, with_capacity; cbn [apos aend abuf]; rewrite repeat_length; lia).
  destruct (run_inside ops _ H) as [(a & outs & E & F & L & No)|[E Ov]]; rewrite E.
  - split; [split; [discriminate|intros Y; exfalso; exact (No Y)]|]. split; [discriminate|]. intros a' outs' E'. injection E' as <- <-.
    split; [exact F|]. rewrite L. unfold with_capacity. cbn [abuf]. rewrite repeat_length. reflexivity.
  - split; [split; [intros _; exact Ov|reflexivity]|]. split; discriminate.
Qed.

Lemma large_reads cap r ops a outs dst r' tail n : acc_run i (with_capacity cap r) ops = Ret (a, outs) -> cap + grown ops < length dst ->
  io_read i (inner a) (skipn (aend a - apos a) dst) = (r', tail, Okay n) ->
  exists a' held, data a = Ret held /\ read i a dst = Ret (a', held ++ tail, Okay (length held + n)) /\ data a' = Ret [] /\ inner a' = r' /\ aindex a' = aindex a + length held + n.
Proof.
  intros E Hd Er. destruct (panics_exactly cap r ops) as (_ & _ & K). destruct (K a outs E) as [[H1 H2] L]. clear K.
  set (held := firstn (aend a - apos a) (skipn (apos a) (abuf a))).
  assert (Lh : length held = aend a - apos a) by (unfold held; rewrite firstn_length, skipn_length; lia).
  assert (D : data a = Ret held) by (unfold data; apply slice_ok; lia).
  unfold read. rewrite csub_ok by exact H1. cbn [obind].
  rewrite (proj2 (Nat.ltb_ge (length dst) _)) by lia. rewrite (proj2 (Nat.ltb_lt (length (abuf a)) _)) by lia.
  rewrite slice_ok by lia. cbn [obind]. fold held. unfold slice_read. rewrite Lh, Nat.min_r by lia.
  rewrite firstn_all2 by lia. rewrite slice_ok by (rewrite app_length, skipn_length; lia). cbn [obind].
  rewrite app_length, skipn_length, Lh. replace (skipn (aend a - apos a) (held ++ skipn (aend a - apos a) dst)) with (skipn (aend a - apos a) dst)
    by (symmetry; apply skipn_app_exact; symmetry; exact Lh).
  rewrite firstn_all2 by (rewrite skipn_length; lia). rewrite Er.
  set (a1 := consume _ (n + (aend a - apos a))).
  assert (K : inside a1) by (unfold a1, inside; cbn [consume apos aend abuf]; lia).
  destruct (reset_inside a1 K) as (buf' & Eb & Lb & _). rewrite Eb. cbn [obind].
  eexists _, held. split; [exact D|]. split; [f_equal; f_equal; [f_equal; unfold with_tail; f_equal; apply firstn_app_exact; symmetry; exact Lh|f_equal; lia]|].
  unfold a1. cbn [consume apos aend abuf inner aindex]. split; [|split; [reflexivity|lia]].
  unfold data. cbn [abuf apos aend]. rewrite slice_ok by lia.
  replace (aend a - Nat.min (apos a + (n + (aend a - apos a))) (aend a) - 0) with 0 by lia. reflexivity.
Qed.
End Acc.

Section Reader.
Context {R : Type}.
Variable rd : reader R.
Hypothesis Hs : sized_reader rd.

Lemma buffer_any : forall fuel r buf nread,
  exists r' buf' res, get_buffer rd fuel r buf nread = Ret (r', buf', res) /\ length buf' = length buf /\
    (get_buffer rd fuel r buf nread = std_read_exact rd fuel r buf nread \/
     res = Some (Error Interrupted) \/
     (std_read_exact rd fuel r buf nread = Panic /\ res = Some (Okay tt))).
Proof.
  induction fuel as [|fuel IH]; intros r buf nread; cbn [get_buffer std_read_exact];
    (destruct (Nat.ltb_spec nread (length buf)) as [Hlt|Hge]; [|exists r, buf, (Some (Okay tt)); split; [reflexivity|]; split; [reflexivity|left; reflexivity]]).
  - exists r, buf, None. split; [reflexivity|]. split; [reflexivity|left; reflexivity].
  - rewrite slice_ok by lia. cbn [obind]. rewrite firstn_all2 by (rewrite skipn_length; lia).
    destruct (Hs r (skipn nread buf)) as (r' & t' & res & E & L). rewrite E. cbn [obind].
    assert (Lb : length (with_tail buf nread t') = length buf) by (unfold with_tail; rewrite app_length, firstn_length, L, skipn_length; lia).
    destruct res as [[|k]|e].
    + eexists _, _, _. split; [reflexivity|]. split; [exact Lb|left; reflexivity].
    + destruct (Nat.leb_spec (S k) (length (skipn nread buf))) as [Hk|Hk].
      * destruct (IH r' (with_tail buf nread t') (nread + S k)) as (r2 & b2 & res2 & E2 & L2 & C). exists r2, b2, res2.
        split; [exact E2|]. split; [lia|]. exact C.
      * assert (G : get_buffer rd fuel r' (with_tail buf nread t') (nread + S k) = Ret (r', with_tail buf nread t', Some (Okay tt))).
        { rewrite skipn_length in Hk. destruct fuel; cbn [get_buffer]; rewrite (proj2 (Nat.ltb_ge (nread + S k) _)) by lia; reflexivity. }
        rewrite G. eexists _, _, _. split; [reflexivity|]. split; [exact Lb|]. right. right. split; reflexivity.
    + destruct e; eexists _, _, _; (split; [reflexivity|]; split; [exact Lb|]); try (left; reflexivity). right. left. reflexivity.
Qed.
End Reader.

Lemma anything_of : forall (V : Type) k (get : list N -> outcome V), (forall buf, length buf = k -> exists v, get buf = Ret v) ->
  takes_anything k get (fun R rd fuel r => stream_get k get rd fuel r).
Proof.
  intros V k get Hg R rd Hs fuel r. unfold stream_get, exact_then.
  destruct (buffer_any rd Hs fuel r (repeat 0%N k) 0) as (r' & buf & res & E & L & C). rewrite repeat_length in L.
  destruct (Hg buf L) as [v Ev].
  rewrite E in *. cbn [obind] in *. destruct res as [[u|e]|].
  - rewrite Ev. cbn [obind]. eexists _, _. split; [reflexivity|]. destruct C as [<-|[C|[-> _]]].
    + left. cbn [obind]. rewrite Ev. reflexivity.
    + discriminate C.
    + right. right. split; [reflexivity|]. exists buf, v. split; [exact L|]. split; [exact Ev|reflexivity].
  - eexists _, _. split; [reflexivity|]. destruct C as [<-|[C|[_ C]]]; [left; reflexivity| |discriminate C]. right. left. congruence.
  - eexists _, _. split; [reflexivity|]. destruct C as [<-|[C|[_ C]]]; [left; reflexivity|discriminate C..].
Qed.

Lemma c168_getters :
  takes_anything 1 get_u8 (@sget_u8) /\
  takes_anything 1 get_i8 (@sget_i8) /\
  takes_anything 2 get_u16l (@sget_u16l) /\
  takes_anything 2 get_i16l (@sget_i16l) /\
  takes_anything 4 get_u32l (@sget_u32l) /\
  takes_anything 4 get_i32l (@sget_i32l) /\
  takes_anything 8 get_u64l (@sget_u64l) /\
  takes_anything 8 get_i64l (@sget_i64l) /\
  takes_anything 4 get_f32l (@sget_f32l) /\
  takes_anything 8 get_f64l (@sget_f64l) /\
  takes_anything 2 get_u16b (@sget_u16b) /\
  takes_anything 2 get_i16b (@sget_i16b) /\
  takes_anything 4 get_u32b (@sget_u32b) /\
  takes_anything 4 get_i32b (@sget_i32b) /\
  takes_anything 8 get_u64b (@sget_u64b) /\
  takes_anything 8 get_i64b (@sget_i64b) /\
  takes_anything 4 get_f32b (@sget_f32b) /\
  takes_anything 8 get_f64b (@sget_f64b).
Proof.
  Ltac any := apply anything_of; intros buf L; cbv [get_u8 get_i8 get_u16l get_i16l get_u32l get_i32l get_u64l get_i64l get_f32l get_f64l
    get_u16b get_i16b get_u32b get_i32b get_u64b get_i64b get_f32b get_f64b]; repeat (destruct buf as [|? buf]; try discriminate L); eexists; reflexivity.
  split; [any|]. repeat (split; [any|]). any.
Qed.

Lemma boaster_sized : sized boaster_io.
Proof. intros [|n s] dst r' dst' res E; cbn in E; congruence. Qed.
Lemma boaster_reader : sized_reader (io_reader boaster_io).
Proof. intros [|n s] dst; eexists _, _, _; split; reflexivity. Qed.

Lemma c168_getter_refuted : exists (s s' : list nat),
  sget_u32b (io_reader boaster_io) 4 s = Ret (s', Some (Okay 0%N)) /\
  exact_then 4 get_u32b (io_reader boaster_io) 4 s = Panic.
Proof. exists [1; 9], []. split; vm_compute; reflexivity. Qed.
