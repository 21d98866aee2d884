(** Proofs for C193. *)
From Coq Require Import List Arith NArith ZArith Bool Lia.
From Coq Require Import ZifyBool ZifyNat ZifyN.
From Verif Require Import Base BitModel BitSpec BitProofs BitQueueSpec BitQueueProofs CodebookModel CodebookSpec CodebookProofs CodebookProofs5 CbQueueSpec CbQueueProofs MirrorSpec.
Import ListNotations.
Local Open Scope nat_scope.

Lemma mirrored_sym : forall n v w, mirrored n v w -> mirrored n w v.
Proof.
  intros n v w [A [B C]]. split; [exact B|]. split; [exact A|]. intros k Hk. rewrite (C (n - 1 - k)) by lia. do 2 f_equal. lia.
Qed.

Lemma value_rev : forall e w, value (other_end e) w = value e (rev w).
Proof.
  intros [] w; cbn [other_end value].
  - rewrite <- (value_be_rev (rev w)), rev_involutive. reflexivity.
  - rewrite value_be_rev. reflexivity.
Qed.

Lemma mirror_le : forall w, mirrored (length w) (value_le w) (value_be w).
Proof.
  intros w. split; [exact (value_bound LE w)|]. split; [exact (value_bound BE w)|]. intros k Hk.
  assert (E : value_be w = value_le (rev w)) by (rewrite <- (value_be_rev (rev w)), rev_involutive; reflexivity).
  rewrite E, !testbit_value_le, rev_nth by lia. f_equal. lia.
Qed.

Lemma mirror_value : forall e n w, length w = n -> mirrored n (value e w) (value (other_end e) w).
Proof. intros [] n w <-; [exact (mirror_le w)|apply mirrored_sym; exact (mirror_le w)]. Qed.

Lemma byte_mirror : forall e v w, mirrored 8 v w -> byte_bits (other_end e) w = byte_bits e v.
Proof.
  intros e v w [_ [_ H]]. assert (K : forall k, k < 8 -> N.testbit w (N.of_nat (7 - k)) = N.testbit v (N.of_nat k)) by (intros k Hk; rewrite (H k Hk); reflexivity).
  pose proof (K 0 ltac:(lia)) as K0. pose proof (K 1 ltac:(lia)) as K1. pose proof (K 2 ltac:(lia)) as K2. pose proof (K 3 ltac:(lia)) as K3.
  pose proof (K 4 ltac:(lia)) as K4. pose proof (K 5 ltac:(lia)) as K5. pose proof (K 6 ltac:(lia)) as K6. pose proof (K 7 ltac:(lia)) as K7.
  cbn in K0, K1, K2, K3, K4, K5, K6, K7. destruct e; cbn [byte_bits other_end map]; congruence.
Qed.

Lemma bits_mirror : forall e buf buf', buf_mirrored buf buf' -> bits_of (other_end e) buf' = bits_of e buf.
Proof.
  intros e buf buf' H. unfold bits_of. induction H as [|v w buf buf' Hb H IH]; [reflexivity|]. cbn [flat_map]. rewrite (byte_mirror e v w Hb), IH. reflexivity.
Qed.

Lemma bytes_mirror : forall buf buf', buf_mirrored buf buf' -> bytes buf /\ bytes buf'.
Proof.
  intros buf buf' H. unfold bytes. induction H as [|v w buf buf' [A [B _]] H [IH1 IH2]]; [split; constructor|]. split; constructor; assumption.
Qed.

Lemma front_length : forall q n, length (front q n) = n.
Proof. intros q n. unfold front. rewrite app_length, firstn_length, repeat_length. lia. Qed.

Lemma get32_length : forall l q n, length (snd (q_get32 l q n)) = n.
Proof. intros l q n. unfold q_get32. destruct (Nat.eqb_spec n 0) as [->|]; [reflexivity|]. apply front_length. Qed.

Lemma get64_length : forall l q n, length (snd (q_get64 l q n)) = n.
Proof.
  intros l q n. unfold q_get64. destruct (Nat.leb_spec n (length (waiting q))); cbn [snd]; [apply front_length|]. rewrite app_length, front_length. lia.
Qed.

Lemma op_mirror : forall e l q op,
  match q_op e l q op with
  | Some (q', o) => exists o', q_op (other_end e) l q op = Some (q', o') /\ out_mirrored op o o'
  | None => q_op (other_end e) l q op = None
  end.
Proof.
  intros e l q op. destruct op as [|n|n| |n|n|n| | |]; cbn [q_op out_mirrored].
  all: try (destruct (q_bit l q) as [q' b]; eexists; split; [reflexivity|reflexivity]).
  all: try (pose proof (get32_length l q n) as L; destruct (q_get32 l q n) as [q' w]; cbn [snd] in *; eexists; split; [reflexivity|];
            eexists; eexists; split; [reflexivity|]; split; [reflexivity|]; apply mirror_value; exact L).
  all: try (pose proof (get64_length l q n) as L; destruct (q_get64 l q n) as [q' w]; cbn [snd] in *; eexists; split; [reflexivity|];
            eexists; eexists; split; [reflexivity|]; split; [reflexivity|]; apply mirror_value; exact L).
  all: try (eexists; split; [reflexivity|reflexivity]).
  destruct (fetched q <=? length l); [eexists; split; [reflexivity|reflexivity]|reflexivity].
Qed.

Lemma ops_mirror : forall e l ops q,
  match q_ops e l q ops with
  | Some (q', os) => exists os', q_ops (other_end e) l q ops = Some (q', os') /\ all_mirrored out_mirrored ops os os'
  | None => q_ops (other_end e) l q ops = None
  end.
Proof.
  intros e l. induction ops as [|op ops IH]; intros q; cbn [q_ops]; [eexists; split; [reflexivity|constructor]|].
  pose proof (op_mirror e l q op) as H. destruct (q_op e l q op) as [[q1 o]|]; [|rewrite H; reflexivity]. destruct H as [o' [-> Ho]].
  specialize (IH q1). destruct (q_ops e l q1 ops) as [[q2 os]|]; [|rewrite IH; reflexivity]. destruct IH as [os' [-> Hos]].
  eexists. split; [reflexivity|]. constructor; assumption.
Qed.

Lemma readers_mirrored : forall e buf buf' ops, buf_mirrored buf buf' -> Forall op_ok ops ->
  runs_mirrored out_mirrored ops (run_from_new e buf ops) (run_from_new (other_end e) buf' ops).
Proof.
  intros e buf buf' ops Hb Ho. destruct (bytes_mirror _ _ Hb) as [B B']. pose proof (bit_queue_exact e buf ops B Ho) as H.
  pose proof (bit_queue_exact (other_end e) buf' ops B' Ho) as H'. unfold q_run in H, H'. rewrite (bits_mirror e _ _ Hb) in H'.
  pose proof (ops_mirror e (bits_of e buf) ops (fetch64 (bits_of e buf) (mk_queue [] 0))) as M.
  destruct (q_ops e _ _ ops) as [[q os]|]; [|rewrite M in H'; left; split; assumption]. destruct M as [os' [E M]]. rewrite E in H'. right.
  destruct H as [r [R [L C]]]. destruct H' as [r' [R' [L' C']]]. exists r, os, r', os'. split; [exact R|]. split; [exact R'|]. split; [exact M|]. split; congruence.
Qed.

(** ** Codebooks *)

Lemma word_mirror : forall (S : Type) m (d d' : desc S), desc_mirrored d d' -> word (other_mode m) d' = word m d.
Proof.
  intros S m d d' [Eb [_ H]]. unfold word. rewrite Eb. destruct (Nat.eq_dec (d_bits d) 0) as [E|E]; [rewrite E; destruct m; reflexivity|].
  destruct (H ltac:(unfold used; lia)) as [_ [_ K]]. set (n := d_bits d) in *.
  assert (A : map (fun k => N.testbit (d_code d') (N.of_nat k)) (seq 0 n) = rev (map (fun k => N.testbit (d_code d) (N.of_nat k)) (seq 0 n))).
  { apply nth_ext with (d := false) (d' := false); [rewrite rev_length, !map_length; reflexivity|]. intros k Hk. rewrite map_length, seq_length in Hk.
    rewrite rev_nth by (rewrite map_length, seq_length; exact Hk). rewrite map_length, seq_length.
    rewrite (nth_indep _ false (N.testbit (d_code d') (N.of_nat 0))) by (rewrite map_length, seq_length; exact Hk).
    rewrite (nth_indep (map (fun k => N.testbit (d_code d) (N.of_nat k)) (seq 0 n)) false (N.testbit (d_code d) (N.of_nat 0))) by (rewrite map_length, seq_length; lia).
    rewrite !(map_nth (fun k => N.testbit _ (N.of_nat k))), !seq_nth by lia. rewrite (K (0 + (n - Datatypes.S k))) by lia. do 2 f_equal. lia. }
  unfold codeword. destruct m; cbn [other_mode]; rewrite A; [reflexivity|apply rev_involutive].
Qed.

Lemma codes_mirror : forall (S : Type) m (ds ds' : list (desc S)), Forall2 desc_mirrored ds ds' -> all_codes (other_mode m) ds' = all_codes m ds.
Proof.
  intros S m ds ds' H. unfold all_codes. induction H as [|d d' ds ds' Hd H IH]; [reflexivity|]. cbn [filter]. pose proof Hd as [Eb [Es _]]. rewrite Eb.
  destruct (0 <? d_bits d); [|exact IH]. cbn [map]. rewrite (word_mirror S m d d' Hd), Es, IH. reflexivity.
Qed.

Lemma words_mirror : forall (S : Type) m (ds ds' : list (desc S)), Forall2 desc_mirrored ds ds' -> words (other_mode m) ds' = words m ds.
Proof.
  intros S m ds ds' H. pose proof (f_equal (map fst) (codes_mirror S m ds ds' H)) as E. unfold all_codes in E. rewrite !map_map in E. exact E.
Qed.

Lemma mirror_nth : forall (S : Type) (ds ds' : list (desc S)) i d', Forall2 desc_mirrored ds ds' -> nth_error ds' i = Some d' ->
  exists d, nth_error ds i = Some d /\ desc_mirrored d d'.
Proof.
  intros S ds ds' i d' H. revert i. induction H as [|d0 d0' ds ds' Hd H IH]; intros [|i] E; try discriminate E.
  - injection E as <-. exists d0. split; [reflexivity|exact Hd].
  - exact (IH i E).
Qed.

Lemma valid_mirror : forall (S : Type) m (ds ds' : list (desc S)), Forall2 desc_mirrored ds ds' -> valid_description m ds ->
  codes_fit (other_mode m) ds' -> valid_description (other_mode m) ds'.
Proof.
  intros S m ds ds' H [_ [Hp Hs]] Hf. split; [exact Hf|]. split.
  - intros i j a b Ha Hb Hij Ua Ub. destruct (mirror_nth S _ _ _ _ H Ha) as [a0 [Ea Ma]]. destruct (mirror_nth S _ _ _ _ H Hb) as [b0 [Eb Mb]].
    rewrite (word_mirror S m _ _ Ma), (word_mirror S m _ _ Mb). apply (Hp i j a0 b0 Ea Eb Hij).
    + destruct Ma as [Q _]. unfold used in *. rewrite <- Q. exact Ua.
    + destruct Mb as [Q _]. unfold used in *. rewrite <- Q. exact Ub.
  - unfold small_enough. rewrite (words_mirror S m _ _ H). exact Hs.
Qed.

Lemma decode_mirror : forall (S : Type) e m l rounds q (codes : pending S), q_decode rounds (other_end e) (other_mode m) l q codes = q_decode rounds e m l q codes.
Proof.
  intros S e m l. assert (A : forall u, as_written (other_end e) (other_mode m) u = as_written e m u) by (destruct e; destruct m; reflexivity).
  induction rounds as [|k IH]; intros q codes; [reflexivity|]. cbn [q_decode]. rewrite A. destruct (complete _ codes) as [|[w s] t]; [|reflexivity].
  destruct (longer _ codes) as [|c rest]; [reflexivity|]. destruct (enough _ _ _) as [[]|]; try reflexivity. apply IH.
Qed.

Lemma steps_mirror : forall (S : Type) e m (ds ds' : list (desc S)) l, Forall2 desc_mirrored ds ds' -> forall steps q,
  match q_steps e m ds l q steps with
  | Some (q', os) => exists os', q_steps (other_end e) (other_mode m) ds' l q steps = Some (q', os') /\ all_mirrored step_mirrored steps os os'
  | None => q_steps (other_end e) (other_mode m) ds' l q steps = None
  end.
Proof.
  intros S e m ds ds' l H. induction steps as [|st steps IH]; intros q; cbn [q_steps]; [eexists; split; [reflexivity|constructor]|].
  assert (K : match q_step e m ds l q st with
              | Some (q', o) => exists o', q_step (other_end e) (other_mode m) ds' l q st = Some (q', o') /\ step_mirrored st o o'
              | None => q_step (other_end e) (other_mode m) ds' l q st = None
              end).
  { destruct st as [op|d]; cbn [q_step].
    - pose proof (op_mirror e l q op) as M. destruct (q_op e l q op) as [[q1 o]|]; [|rewrite M; reflexivity]. destruct M as [o' [-> Ho]].
      eexists. split; [reflexivity|]. exists o, o'. auto.
    - unfold q_codeword. rewrite decode_mirror, (codes_mirror S m _ _ H). destruct (q_decode 26 e m l q (all_codes m ds)) as [[q1 [s|]]|]; [| |reflexivity].
      + eexists. split; [reflexivity|reflexivity].
      + eexists. split; [reflexivity|reflexivity]. }
  destruct (q_step e m ds l q st) as [[q1 o]|]; [|rewrite K; reflexivity]. destruct K as [o' [-> Ho]].
  specialize (IH q1). destruct (q_steps e m ds l q1 steps) as [[q2 os]|]; [|rewrite IH; reflexivity]. destruct IH as [os' [-> Hos]].
  eexists. split; [reflexivity|]. constructor; assumption.
Qed.

Lemma codebooks_mirrored : forall (S : Type) ord ord' m (ds ds' : list (desc S)) cb e buf buf' steps r0 r0',
  permuting ord -> permuting ord' -> valid_description m ds -> codes_fit (other_mode m) ds' -> Forall2 desc_mirrored ds ds' ->
  new_codebook ord ds m = Ret (Okay cb) -> buf_mirrored buf buf' -> Forall step_ok steps ->
  new e buf = Ret r0 -> new (other_end e) buf' = Ret r0' ->
  exists cb', new_codebook ord' ds' (other_mode m) = Ret (Okay cb') /\
    runs_mirrored step_mirrored steps (run_mixed e cb r0 steps) (run_mixed (other_end e) cb' r0' steps).
Proof.
  intros S ord ord' m ds ds' cb e buf buf' steps r0 r0' Ho Ho' Hv Hf H Hcb Hb Hs E0 E0'. pose proof (valid_mirror S m ds ds' H Hv Hf) as Hv'.
  assert (X : exists cb', new_codebook ord' ds' (other_mode m) = Ret (Okay cb')).
  { destruct (existsb (fun d => 0 <? d_bits d) ds') eqn:Ex.
    - apply (proj1 (construction_total S ord' _ ds' Ho' Hv')). apply existsb_exists in Ex as [d [Hd Hu]]. exists d. split; [exact Hd|]. unfold used. lia.
    - exfalso. assert (N : forall d, In d ds -> ~ used d).
      { intros d Hd Hu. apply In_nth_error in Hd as [i Hi]. clear - H Hi Hu Ex. revert i Hi. induction H as [|a a' ds ds' Ha H IH]; intros [|i] Hi; try discriminate Hi.
        - injection Hi as ->. cbn [existsb] in Ex. apply orb_false_iff in Ex as [Ex _]. destruct Ha as [Eb _]. unfold used in Hu. lia.
        - cbn [existsb] in Ex. apply orb_false_iff in Ex as [_ Ex]. exact (IH Ex i Hi). }
      rewrite (proj2 (construction_total S ord m ds Ho Hv) N) in Hcb. discriminate Hcb. }
  destruct X as [cb' Hcb']. exists cb'. split; [exact Hcb'|]. destruct (bytes_mirror _ _ Hb) as [B B'].
  destruct (codeword_queue_exact S ord m ds cb e buf steps Ho Hv Hcb B Hs) as [r [Er Q]]. rewrite E0 in Er. injection Er as <-.
  destruct (codeword_queue_exact S ord' (other_mode m) ds' cb' (other_end e) buf' steps Ho' Hv' Hcb' B' Hs) as [r [Er Q']]. rewrite E0' in Er. injection Er as <-.
  unfold q_mixed in Q, Q'. rewrite (bits_mirror e _ _ Hb) in Q'.
  pose proof (steps_mirror S e m ds ds' (bits_of e buf) H steps (fetch64 (bits_of e buf) (mk_queue [] 0))) as M.
  destruct (q_steps e m ds _ _ steps) as [[q os]|]; [|rewrite M in Q'; left; split; assumption]. destruct M as [os' [E M]]. rewrite E in Q'. right.
  destruct Q as [r [R [L C]]]. destruct Q' as [r' [R' [L' C']]]. exists r, os, r', os'. split; [exact R|]. split; [exact R'|]. split; [exact M|]. split; congruence.
Qed.
