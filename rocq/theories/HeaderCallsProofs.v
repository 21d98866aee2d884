(** The calls of its source that [read_headers] makes. *)
From Coq Require Import List Arith NArith ZArith Bool Lia.
From Coq Require Import ZifyBool ZifyNat ZifyN.
From Verif Require Import Base AccModel AccSpec AccProofs FormatModel DemuxModel DemuxSpec DemuxProofs CallsSpec CallsProofs DemuxCallsSpec DemuxCallsProofs.
Import ListNotations.
Local Open Scope nat_scope.

Section Watch.
Context {P D R : Type}.
Variable i : io R.
Variable ps : parser P D.
Hypothesis Hk : slices_kept i.
Notation bio := (acc_buffered i).
Notation bio' := (acc_buffered (traced i)).
Notation dm := (parser_demuxer ps bio).
Notation dm' := (parser_demuxer (header_counting ps) bio').
Notation ctx := (dctx P D (acc R)).

Lemma seek_watched : forall (a : acc R) log s a' res, proper a -> seek i a s = Ret (a', res) ->
  exists calls, seek (traced i) (logged a log) s = Ret (logged a' (log ++ calls), res) /\ count_reads calls <= 1 /\ count_seeks calls <= 1.
Proof.
  intros a log s a' res Hp E. destruct (step_calls i a log (ASeek s) a' (OSeek res) Hp) as [calls [E' Hm]]; [cbn [acc_step]; rewrite E; reflexivity|].
  exists calls. cbn [acc_step] in E'. destruct (seek (traced i) (logged a log) s) as [[a2 r2]| |]; [|discriminate E'|discriminate E'].
  cbn [obind] in E'. injection E' as -> ->. split; [reflexivity|].
  pose proof (makes_allowed _ _ _ _ _ Hm) as Ha. cbn [allowed] in Ha.
  destruct Ha as [->|[[s1 [e ->]]|[s1 [q [rest [-> Hs]]]]]]; [cbn; lia|cbn; lia|].
  destruct (some_counts _ Hs) as [H1 H2]. unfold count_reads, count_seeks in *. cbn [filter is_read negb length]. lia.
Qed.

(** One call of the parser, with a read of the source before it and maybe a seek with a read after it; or a failed read. *)
Lemma headers_watched : forall n (c c' : ctx) r k log, proper (c_reader c) -> read_headers dm bio n c = Ret (c', r) ->
  exists m calls, read_headers dm' bio' n (watched c k log) = Ret (watched c' (k + m) (log ++ calls), r) /\
    count_reads calls <= m + 1 /\ count_seeks calls <= 1 /\ (count_seeks calls = 1 -> r = Some (Okay tt)) /\ (r = None -> count_reads calls <= m).
Proof.
  induction n as [|n IH]; intros [d a info] c' r k log Hp E; cbn [read_headers c_demuxer c_reader c_info watched] in *.
  { injection E as <- <-. exists 0, []. rewrite Nat.add_0_r, app_nil_r. split; [reflexivity|]. cbn. repeat split; try lia. }
  cbn [acc_buffered b_fill b_grow b_seek b_data parser_demuxer] in *.
  destruct (fill_buf i a) as [[a1 fr]| |] eqn:Ef; [|discriminate E|discriminate E]. cbn [obind] in E.
  destruct (fill_calls i a log a1 fr Hp Ef) as [cs [Ef' Ho]]. rewrite Ef'. cbn [obind].
  destruct (some_counts _ (one_some _ _ Ho)) as [Hc1 Hc2].
  pose proof (fill_keeps i Hk a a1 fr Hp Ef) as Hp1.
  destruct fr as [dd|e]; cycle 1.
  { injection E as <- <-. exists 0, cs. rewrite Nat.add_0_r. split; [reflexivity|]. split; [lia|]. split; [lia|]. split; [lia|discriminate]. }
  unfold read_headers_internal in *. cbn [parser_demuxer dm_headers acc_buffered b_data b_seek c_demuxer c_reader c_info] in *. rewrite data_logged.
  destruct (data_proper a1 Hp1) as [dat [Hd _]]. rewrite Hd in *. cbn [obind header_counting ps_headers fst snd] in *.
  destruct (ps_headers ps d dat info) as [[d' info'] res] eqn:Ep. cbn [obind] in *.
  destruct res as [s|e].
  - destruct (seek i a1 s) as [[a2 sr]| |] eqn:Es; [|discriminate E|discriminate E]. cbn [obind] in E. injection E as <- <-.
    destruct (seek_watched a1 (log ++ cs) s a2 sr Hp1 Es) as [cs2 [Es' [Hs1 Hs2]]]. rewrite Es'. cbn [obind].
    exists 1, (cs ++ cs2). rewrite Nat.add_1_r, app_assoc. split; [reflexivity|].
    destruct (count_app cs cs2) as [-> ->]. split; [lia|]. split; [lia|]. split; [reflexivity|discriminate].
  - destruct e as [|needed|e].
    + injection E as <- <-. exists 1, cs. rewrite Nat.add_1_r. split; [reflexivity|]. split; [lia|]. split; [lia|]. split; [lia|discriminate].
    + cbn [c_demuxer c_reader c_info] in *.
      destruct (IH (mk_dctx d' (grow a1 needed) info') c' r (S k) (log ++ cs)) as [m [cs2 [E2 [H1 [H2 [H3 H4]]]]]].
      { cbn [c_reader]. destruct Hp1 as [X1 X2]. split; cbn [grow apos aend abuf]; rewrite ?app_length; lia. }
      { exact E. }
      unfold watched in E2. cbn [c_demuxer c_reader c_info] in E2. rewrite <- grow_logged in E2.
      exists (S m), (cs ++ cs2). rewrite app_assoc. replace (k + S m) with (S k + m) by lia. split; [exact E2|].
      destruct (count_app cs cs2) as [-> ->]. split; [lia|]. split; [lia|]. split; [intros X; apply H3; lia|intros X; specialize (H4 X); lia].
    + injection E as <- <-. exists 1, cs. rewrite Nat.add_1_r. split; [reflexivity|]. split; [lia|]. split; [lia|]. split; [lia|discriminate].
Qed.
End Watch.

Lemma header_calls : forall (P D R : Type) (i : io R) (ps : parser P D) n (c c' : dctx P D (acc R)) r,
  slices_kept i -> apos (c_reader c) <= aend (c_reader c) <= length (abuf (c_reader c)) ->
  read_headers (parser_demuxer ps (acc_buffered i)) (acc_buffered i) n c = Ret (c', r) ->
  exists m log, read_headers (parser_demuxer (header_counting ps) (acc_buffered (traced i))) (acc_buffered (traced i)) n (watched c 0 []) =
      Ret (watched c' m log, r) /\
    count_reads log <= m + 1 /\ count_seeks log <= 1 /\ (count_seeks log = 1 -> r = Some (Okay tt)) /\ (r = None -> count_reads log <= m).
Proof. intros P D R i ps n c c' r Hk [H1 H2] E. exact (headers_watched i ps Hk n c c' r 0 [] (conj H1 H2) E). Qed.
