(** [Writer] over a file. *)
From Coq Require Import List Arith NArith ZArith Bool Lia.
From Coq Require Import ZifyBool ZifyNat ZifyN.
From Verif Require Import Base AccModel AccSpec AccProofs MuxModel MuxSpec MuxProofs StreamProofs PatchSpec.
Import ListNotations.
Local Open Scope nat_scope.

Lemma written_app c p a b : written (written c p a) (p + length a) b = written c p (a ++ b).
Proof.
  destruct a as [|x a]; [cbn; rewrite Nat.add_0_r; reflexivity|]. destruct b as [|y b]; [rewrite app_nil_r; reflexivity|].
  unfold written. cbn [app]. rewrite overwrite_app. reflexivity.
Qed.

Lemma written_again c p a b : written (written c p a) p (a ++ b) = written c p (a ++ b).
Proof.
  destruct a as [|x a]; [reflexivity|]. unfold written. cbn [app]. set (h := x :: a). change (x :: a ++ b) with (h ++ b).
  unfold overwrite. set (L := firstn p (c ++ repeat 0%N (p - length c))).
  assert (HL : length L = p) by apply overwrite_length_prefix.
  assert (E1 : firstn p ((L ++ h ++ skipn (p + length h) c) ++ repeat 0%N (p - length (L ++ h ++ skipn (p + length h) c))) = L).
  { rewrite <- app_assoc. apply firstn_app_exact. symmetry. exact HL. }
  rewrite E1. f_equal. f_equal. rewrite app_assoc, skipn_app.
  rewrite skipn_all2 by (rewrite !app_length; lia). cbn [app]. rewrite !app_length, HL, skipn_skipn_plus. f_equal. lia.
Qed.

Section File.
Context {W : Type}.
Variable s : sink W.
Variable good : W -> Prop.
Variable contents : W -> list N.
Variable tell : W -> nat.
Hypothesis F : file_like s good contents tell.

Lemma all_file : forall fuel w buf w' r, good (w_inner w) -> write_all (writer_sink s) fuel w buf = Ret (w', r) ->
  good (w_inner w') /\
  file_call (contents (w_inner w)) (tell (w_inner w)) (WAll fuel buf) (WWroteAll r) (contents (w_inner w')) (tell (w_inner w')).
Proof.
  assert (Z : forall w : writer W, contents (w_inner w) = contents (w_inner w) /\ tell (w_inner w) = tell (w_inner w) + 0) by (intros; split; [reflexivity|lia]).
  induction fuel as [|fuel IH]; intros w buf w' r Hg E; destruct buf as [|x buf]; cbn [write_all] in E.
  - injection E as <- <-. split; [exact Hg|]. apply Z.
  - injection E as <- <-. split; [exact Hg|]. cbn [file_call]. exists 0. split; [lia|]. apply Z.
  - injection E as <- <-. split; [exact Hg|]. apply Z.
  - cbn [sk_write writer_sink] in E. unfold writer_write in E.
    destruct (sk_write s (w_inner w) (x :: buf)) as [w1 res] eqn:Ew.
    destruct (fl_write _ _ _ _ F _ _ _ _ Hg Ew) as [G1 H1]. destruct res as [[|n]|e].
    + injection E as <- <-. cbn [w_inner]. split; [exact G1|]. cbn [file_call]. exists 0. split; [lia|]. split; apply H1.
    + destruct H1 as (L1 & C1 & T1). rewrite slice_tail in E. destruct (Nat.leb_spec (S n) (length (x :: buf))) as [_|]; [|lia]. cbn [obind] in E.
      apply IH in E; [|exact G1]. destruct E as [G' C']. split; [exact G'|]. cbn [w_inner] in C'. rewrite C1, T1 in C'.
      set (b := x :: buf) in *. clearbody b.
      assert (Lf : length (firstn (S n) b) = S n) by (rewrite firstn_length; lia).
      assert (K : forall k, written (written (contents (w_inner w)) (tell (w_inner w)) (firstn (S n) b)) (tell (w_inner w) + S n) (firstn k (skipn (S n) b)) =
        written (contents (w_inner w)) (tell (w_inner w)) (firstn (S n + k) b)).
      { intros k. rewrite firstn_plus. rewrite <- Lf at 2. apply written_app. }
      assert (Ls : length (skipn (S n) b) = length b - S n) by apply skipn_length.
      destruct r as [[[]|e]|]; cbn [file_call] in *.
      * destruct C' as [-> ->]. pose proof (K (length b - S n)) as K'. rewrite (firstn_all2 (skipn (S n) b)) in K' by lia.
        rewrite K'. rewrite (firstn_all2 b) by lia. split; [reflexivity|lia].
      * destruct C' as (k & Lk & -> & ->). exists (S n + k). split; [lia|]. split; [apply K|lia].
      * destruct C' as (k & Lk & -> & ->). exists (S n + k). split; [lia|]. split; [apply K|lia].
    + destruct e; try (injection E as <- <-; cbn [w_inner]; split; [exact G1|]; cbn [file_call]; exists 0; split; [lia|]; rewrite Nat.add_0_r; apply H1).
      apply IH in E; [|exact G1]. cbn [w_inner] in E. destruct H1 as [C1 T1]. rewrite C1, T1 in E. exact E.
Qed.

Lemma step_file w op w' o : good (w_inner w) -> writer_step s w op = Ret (w', o) ->
  good (w_inner w') /\ file_call (contents (w_inner w)) (tell (w_inner w)) op o (contents (w_inner w')) (tell (w_inner w')).
Proof.
  intros Hg E. destruct op as [buf|fuel buf| |sk]; cbn [writer_step] in E.
  - unfold writer_write in E. destruct (sk_write s (w_inner w) buf) as [w1 [n|e]] eqn:Ew;
      destruct (fl_write _ _ _ _ F _ _ _ _ Hg Ew) as [G1 H1]; injection E as <- <-; split; assumption.
  - destruct (write_all (writer_sink s) fuel w buf) as [[w1 r]| |] eqn:Ea; cbn [obind] in E; try discriminate E.
    injection E as <- <-. apply all_file in Ea; assumption.
  - unfold writer_flush in E. destruct (sk_flush s (w_inner w)) as [w1 r] eqn:Ef.
    destruct (fl_flush _ _ _ _ F _ _ _ Hg Ef) as [G1 H1]. injection E as <- <-. split; assumption.
  - unfold writer_seek in E. destruct (sk_seek s (w_inner w) sk) as [w1 [q|e]] eqn:Es;
      destruct (fl_seek _ _ _ _ F _ _ _ _ Hg Es) as [G1 H1]; injection E as <- <-; split; try assumption; cbn [file_call w_inner]; tauto.
Qed.

Lemma run_file : forall ops w w' outs, good (w_inner w) -> writer_run s w ops = Ret (w', outs) ->
  good (w_inner w') /\ file_history (contents (w_inner w)) (tell (w_inner w)) ops outs (contents (w_inner w')) (tell (w_inner w')).
Proof.
  induction ops as [|op ops IH]; intros w w' outs Hg E; cbn [writer_run] in E.
  - injection E as <- <-. split; [exact Hg|]. split; reflexivity.
  - destruct (writer_step s w op) as [[w1 o]| |] eqn:E1; cbn [obind] in E; try discriminate E.
    destruct (writer_run s w1 ops) as [[w2 os]| |] eqn:E2; cbn [obind] in E; try discriminate E. injection E as <- <-.
    apply step_file in E1; [|exact Hg]. destruct E1 as [G1 C1]. apply IH in E2; [|exact G1]. destruct E2 as [G2 C2].
    split; [exact G2|]. exists (contents (w_inner w1)), (tell (w_inner w1)). split; assumption.
Qed.

Lemma retry_file w buf f1 f2 w' e q r :  good (w_inner w) -> writer_position w = tell (w_inner w) ->
  writer_run s w [WAll f1 buf; WSeek (Start (writer_position w)); WAll f2 buf] =
    Ret (w', [WWroteAll (Some (Error e)); WSought (Okay q); WWroteAll (Some (Okay r))]) ->
  contents (w_inner w') = written (contents (w_inner w)) (tell (w_inner w)) buf /\
  tell (w_inner w') = tell (w_inner w) + length buf.
Proof.
  intros Hg Hp E. apply run_file in E; [|exact Hg]. destruct E as [_ E]. cbn [file_history file_call] in E.
  destruct E as (c1 & p1 & (k & Lk & -> & ->) & c2 & p2 & (Hq & -> & ->) & c3 & p3 & (C3 & P3) & C4 & P4).
  rewrite C4, P4, C3, P3.
  cbn [target] in Hq. assert (q = tell (w_inner w)) by lia. subst q. split; [|reflexivity].
  pose proof (written_again (contents (w_inner w)) (tell (w_inner w)) (firstn k buf) (skipn k buf)) as A. rewrite firstn_skipn in A. exact A.
Qed.
End File.

Lemma disk_ok : file_like disk_sink (fun _ => True) f_data f_pos.
Proof.
  constructor; cbn [sk_write sk_flush sk_seek disk_sink].
  - intros f buf f' res _ E. split; [exact I|]. unfold disk_write in E. destruct (f_script f) as [|[n|e] rest]; injection E as <- <-; cbn [f_data f_pos].
    + split; [lia|]. split; reflexivity.
    + split; [lia|]. split; reflexivity.
    + split; reflexivity.
  - intros f f' res _ E. split; [exact I|]. unfold file_flush in E. destruct (f_script f) as [|[n|e] rest]; injection E as <- <-; split; reflexivity.
  - intros f sk f' res _ E. split; [exact I|]. unfold file_seek in E. destruct (Z.ltb_spec (match sk with
           | Start n => Z.of_nat n
           | End d => (Z.of_nat (List.length (f_data f)) + d)%Z
           | Current d => (Z.of_nat (f_pos f) + d)%Z
           end) 0); injection E as <- <-; cbn [f_data f_pos]; split; try reflexivity.
    split; [|reflexivity]. unfold target. lia.
Qed.

(** Two bytes are accepted before the write fails; repeating it leaves them twice. *)
Lemma repeat_duplicates : exists (w w' : writer file) buf e outs,
  writer_position w = f_pos (w_inner w) /\
  writer_run disk_sink w [WAll 9 buf; WAll 9 buf] = Ret (w', [WWroteAll (Some (Error e)); outs]) /\ outs = WWroteAll (Some (Okay tt)) /\
  f_data (w_inner w') <> written (f_data (w_inner w)) (f_pos (w_inner w)) buf.
Proof.
  exists (mk_writer (mk_file [9]%N 1 0 [Okay 2; Error (OtherError 28)]) 1). eexists _, [1; 2; 3]%N, _, _.
  split; [reflexivity|]. split; [vm_compute; reflexivity|]. split; [reflexivity|]. vm_compute. discriminate.
Qed.
