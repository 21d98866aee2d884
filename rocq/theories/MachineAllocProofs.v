(** Packets, readers and frames with an allocator that may refuse. *)
From Coq Require Import List Arith NArith ZArith Bool Lia.
From Coq Require Import ZifyBool ZifyNat ZifyN.
From Verif Require Import Base AccModel AccSpec AccProofs2 AudioModel PixelModel FormatModel FrameModel StreamModel StreamSpec StreamProofs StreamMain DataSpec FrameSizeSpec.
From Verif Require Import FrameProofs WordAccModel ReleaseAccSpec MachineModel MachineAccModel MachineFrameModel MachineFrameSpec MachineFrameProofs MachineAllocModel MachineAllocSpec.
Import ListNotations.
Local Open Scope N_scope.

Lemma can_have_iff m grants n : can_have m grants n = true <-> obtainable m grants n.
Proof. unfold can_have, obtainable, room. rewrite orb_true_iff, andb_true_iff, N.eqb_eq, N.ltb_lt. tauto. Qed.
Lemma can_have_not m grants n : ~ obtainable m grants n -> can_have m grants n = false.
Proof. intros H. destruct (can_have m grants n) eqn:E; [|reflexivity]. apply can_have_iff in E. contradiction. Qed.

Lemma packets_allocated m grants n :
  (obtainable m grants n ->
     l_packet_zeroed m grants n = Ret (mk_packet (repeat 0 (N.to_nat n)) None (-1) default_time false false) /\
     l_packet_with_capacity m grants n = Ret (mk_packet [] None (-1) default_time false false)) /\
  (~ obtainable m grants n -> l_packet_zeroed m grants n = Panic /\ l_packet_with_capacity m grants n = Panic) /\
  l_packet_new m grants = Ret (mk_packet [] None (-1) default_time false false).
Proof.
  unfold l_packet_zeroed, l_packet_with_capacity, l_packet_new, l_zeros. split; [|split; [|reflexivity]]; intros H.
  - apply can_have_iff in H. rewrite H. split; reflexivity.
  - apply can_have_not in H. rewrite H. split; reflexivity.
Qed.

Lemma get_packet_allocated m grants (R : Type) (rd : reader R) src good tell fuel r len : reader_ok rd src good tell -> good r ->
  (obtainable m grants len -> exists r' res, l_get_packet m grants rd fuel r len = Ret (r', res) /\ good r' /\
    match res with
    | Some (Okay pkt) => (N.to_nat len <= length src - tell r)%nat /\ tell r' = (tell r + N.to_nat len)%nat /\
        pkt = mk_packet (firstn (N.to_nat len) (skipn (tell r) src)) None (-1) default_time false false
    | Some (Error e) => (e = UnexpectedEof /\ (length src - tell r < N.to_nat len)%nat /\ (length src <= tell r')%nat) \/ (e <> Interrupted /\ fails_with rd good e)
    | None => (fuel < N.to_nat len)%nat \/ fails_with rd good Interrupted
    end) /\
  (~ obtainable m grants len -> l_get_packet m grants rd fuel r len = Panic).
Proof.
  intros Hr Hg. destruct (packets_allocated m grants len) as (P1 & P2 & _). unfold l_get_packet. split; intros H.
  - destruct (P1 H) as [-> _]. cbn [obind]. exact (c62_get_packet R rd src good tell fuel r (N.to_nat len) Hr Hg).
  - destruct (P2 H) as [-> _]. reflexivity.
Qed.

(** ** [AccReader] *)
Section Acc.
Variable m : machine.
Variable grants : N -> bool.
Context {R : Type}.
Variable i : io R.

Lemma grow_allocated (a : wacc R) n : 0 < n -> blen (wa_buf a) + n < 2 ^ bits m ->
  (obtainable m grants (blen (wa_buf a) + n) ->
     l_grow m grants a n = Ret (mk_wacc (wa_inner a) (wa_buf a ++ repeat 0 (N.to_nat n)) (wa_pos a) (wa_end a) (wa_index a))) /\
  (~ obtainable m grants (blen (wa_buf a) + n) -> l_grow m grants a n = Panic).
Proof.
  intros H0 H. unfold l_grow, madd, ranged, modulus. destruct (N.ltb_spec (blen (wa_buf a) + n) (2 ^ bits m)) as [_|]; [|lia].
  cbn [obind]. destruct (N.leb_spec (blen (wa_buf a) + n) (blen (wa_buf a))) as [|_]; [lia|]. split; intros Ho.
  - apply can_have_iff in Ho. rewrite Ho. cbn [obind]. do 5 f_equal. lia.
  - apply can_have_not in Ho. rewrite Ho. reflexivity.
Qed.

Lemma grow_either (a : wacc R) n : l_grow m grants a n = m_grow m a n \/ l_grow m grants a n = Panic.
Proof.
  unfold l_grow, m_grow, m_resize. destruct (madd m (blen (wa_buf a)) n) as [l| |]; cbn [obind]; [|left; reflexivity..].
  destruct (l <=? blen (wa_buf a)) eqn:El; [left; reflexivity|]. unfold can_have.
  destruct (N.eqb_spec l 0) as [->|]; [exfalso; destruct (N.leb_spec 0 (blen (wa_buf a))); [discriminate El|lia]|].
  destruct (l <? room m); cbn [orb andb obind]; [|left; reflexivity]. destruct (grants l); [left|right]; reflexivity.
Qed.

Lemma step_either (a : wacc R) op : l_acc_step m grants i a op = m_acc_step m i a op \/ l_acc_step m grants i a op = Panic.
Proof.
  destruct op; try (left; reflexivity). cbn [l_acc_step m_acc_step]. destruct (grow_either a (N.of_nat n)) as [-> | ->]; [left|right]; reflexivity.
Qed.

Lemma run_either ops : forall a : wacc R, l_acc_run m grants i a ops = m_acc_run m i a ops \/ l_acc_run m grants i a ops = Panic.
Proof.
  induction ops as [|op ops IH]; intros a; [left; reflexivity|]. cbn [l_acc_run m_acc_run].
  destruct (step_either a op) as [-> | ->]; [|right; reflexivity].
  destruct (m_acc_step m i a op) as [[a1 o]| |]; cbn [obind]; [|left; reflexivity..].
  destruct (IH a1) as [-> | ->]; [left|right]; reflexivity.
Qed.

(** No call but [grow] makes the buffer longer. *)
Hypothesis Hio : honest_io i.

Lemma consume_len (a a' : wacc R) n : m_consume m a n = Ret a' -> wa_buf a' = wa_buf a.
Proof.
  unfold m_consume. destruct (madd m (wa_pos a) n); cbn [obind]; [|discriminate..]. destruct (madd m (wa_index a) n); cbn [obind]; [|discriminate..].
  intros E. injection E as <-. reflexivity.
Qed.
Lemma wslice_len (l : list N) a b s : wslice l a b = Ret s -> a <= b /\ b <= blen l /\ blen s = b - a.
Proof.
  unfold wslice, blen. destruct (N.leb_spec a b); cbn [andb]; [|discriminate]. destruct (N.leb_spec b (N.of_nat (length l))); [|discriminate].
  intros E. injection E as <-. rewrite firstn_length, skipn_length. lia.
Qed.
Lemma reset_len (a a' : wacc R) : m_reset m a = Ret a' -> blen (wa_buf a') <= blen (wa_buf a).
Proof.
  unfold m_reset. destruct (msub m (wa_end a) (wa_pos a)) as [rem| |] eqn:Em; cbn [obind]; [|discriminate..].
  destruct (N.ltb_spec 0 rem); cbn [obind]; [|intros E; injection E as <-; cbn [wa_buf]; lia].
  destruct (wslice _ _ _) as [w| |] eqn:Ew; cbn [obind]; [|discriminate..]. intros E. injection E as <-. cbn [wa_buf].
  apply wslice_len in Ew. unfold msub in Em. destruct (N.leb_spec (wa_pos a) (wa_end a)); [|lia]. injection Em as <-.
  unfold blen in *. rewrite app_length, skipn_length. lia.
Qed.
Lemma fill_len (a a' : wacc R) res : m_fill_buf m i a = Ret (a', res) -> blen (wa_buf a') <= blen (wa_buf a).
Proof.
  unfold m_fill_buf. destruct (negb _ || negb _).
  - destruct (m_reset m a) as [a1| |] eqn:Er; cbn [obind]; [|discriminate..]. apply reset_len in Er.
    destruct (wslice _ _ _) as [tail| |] eqn:Et; cbn [obind]; [|discriminate..]. apply wslice_len in Et.
    destruct (io_read i (wa_inner a1) tail) as [[r' t'] res'] eqn:Ei. destruct (Hio _ _ _ _ _ Ei) as [L _].
    assert (Lb : blen (with_tail (wa_buf a1) (N.to_nat (wa_end a1)) t') = blen (wa_buf a1)).
    { unfold with_tail, blen in *. rewrite app_length, firstn_length. lia. }
    destruct res' as [n|e].
    + destruct (madd m (wa_end a1) (N.of_nat n)) as [e| |]; cbn [obind]; [|discriminate..].
      cbn [wa_buf wa_pos wa_end]. destruct (wslice _ _ _) as [d| |]; cbn [obind]; [|discriminate..].
      intros E. injection E as <- _. cbn [wa_buf]. lia.
    + intros E. injection E as <- _. cbn [wa_buf]. lia.
  - destruct (wslice _ _ _) as [d| |]; cbn [obind]; [|discriminate..]. intros E. injection E as <- _. lia.
Qed.
Lemma read_len (a a' : wacc R) dst dst' res : m_read m i a dst = Ret (a', dst', res) -> blen (wa_buf a') <= blen (wa_buf a).
Proof.
  unfold m_read. destruct (msub m (wa_end a) (wa_pos a)) as [rem| |]; cbn [obind]; [|discriminate..]. destruct (blen dst <? rem).
  - destruct (madd m (wa_pos a) (blen dst)) as [e| |]; cbn [obind]; [|discriminate..]. destruct (wslice _ _ _) as [s| |]; cbn [obind]; [|discriminate..].
    destruct (slice_read s dst) as [d n]. destruct (m_consume m a (N.of_nat n)) as [a1| |] eqn:Ec; cbn [obind]; [|discriminate..].
    intros E. injection E as <- _ _. rewrite (consume_len _ _ _ Ec). lia.
  - destruct (blen (wa_buf a) <? blen dst).
    + destruct (wslice (wa_buf a) _ _) as [s| |]; cbn [obind]; [|discriminate..]. destruct (slice_read s dst) as [d n].
      destruct (wslice d _ _) as [t| |]; cbn [obind]; [|discriminate..]. destruct (io_read i (wa_inner a) t) as [[r' t'] [k|e]].
      * destruct (madd m (N.of_nat k) (N.of_nat n)) as [tot| |]; cbn [obind]; [|discriminate..].
        destruct (m_consume m _ tot) as [a2| |] eqn:Ec; cbn [obind]; [|discriminate..]. apply consume_len in Ec. cbn [wa_buf] in Ec.
        destruct (m_reset m a2) as [a3| |] eqn:Er; cbn [obind]; [|discriminate..]. apply reset_len in Er.
        intros E. injection E as <- _ _. rewrite Ec in Er. exact Er.
      * intros E. injection E as <- _ _. cbn [wa_buf]. lia.
    + destruct (m_fill_buf m i a) as [[a1 [d|e]]| |] eqn:Ef; cbn [obind]; [| |discriminate..]; apply fill_len in Ef.
      * destruct (slice_read d dst) as [d' n]. destruct (m_consume m a1 (N.of_nat n)) as [a2| |] eqn:Ec; cbn [obind]; [|discriminate..].
        intros E. injection E as <- _ _. rewrite (consume_len _ _ _ Ec). exact Ef.
      * intros E. injection E as <- _ _. exact Ef.
Qed.
Lemma seek_inner_len (a a' : wacc R) s res : m_seek_inner m i a s = Ret (a', res) -> blen (wa_buf a') <= blen (wa_buf a).
Proof.
  unfold m_seek_inner. destruct (io_seek i (wa_inner a) s) as [r' [sz|e]].
  - destruct (m_fill_buf m i _) as [[a1 [d|e]]| |] eqn:Ef; cbn [obind]; [| |discriminate..]; apply fill_len in Ef; cbn [wa_buf] in Ef;
      intros E; injection E as <- _; exact Ef.
  - intros E. injection E as <- _. cbn [wa_buf]. lia.
Qed.
Lemma seek_len (a a' : wacc R) s res : m_seek m i a s = Ret (a', res) -> blen (wa_buf a') <= blen (wa_buf a).
Proof.
  destruct s as [n|d|sz]; cbn [m_seek].
  - cbv zeta. intros E. destruct (if wa_index a <=? mcast m (N.of_nat n) then _ else _) as [here| |]; cbn [obind] in E; [|discriminate..].
    destruct here; [|exact (seek_inner_len _ _ _ _ E)].
    destruct (msub m _ _) as [d| |]; cbn [obind] in E; [|discriminate..]. destruct (madd m _ _) as [p| |]; cbn [obind] in E; [|discriminate..].
    injection E as <- _. cbn [wa_buf]. lia.
  - apply seek_inner_len.
  - intros E. destruct (msub m _ _) as [rem| |]; cbn [obind] in E; [|discriminate..].
    destruct (0 <=? sz)%Z; [|exact (seek_inner_len _ _ _ _ E)]. cbv zeta in E.
    destruct (mcast m (Z.to_N sz) <=? rem).
    + destruct (madd m (wa_index a) _) as [x| |]; cbn [obind] in E; [|discriminate..]. destruct (madd m (wa_pos a) _) as [p| |]; cbn [obind] in E; [|discriminate..].
      injection E as <- _. cbn [wa_buf]. lia.
    + destruct (misub m _ _) as [d| |]; cbn [obind] in E; [|discriminate..]. exact (seek_inner_len _ _ _ _ E).
Qed.
Lemma madd_le a b c : madd m a b = Ret c -> c <= a + b.
Proof.
  unfold madd, ranged. destruct (a + b <? modulus m); [intros E; injection E as <-; lia|]. destruct (checked m); [discriminate|].
  intros E. injection E as <-. unfold modulus. apply N.mod_le. apply N.pow_nonzero. lia.
Qed.
Lemma grow_len (a a' : wacc R) n : m_grow m a n = Ret a' -> blen (wa_buf a') <= blen (wa_buf a) + n.
Proof.
  unfold m_grow, m_resize. destruct (madd m _ n) as [l| |] eqn:El; cbn [obind]; [|discriminate..]. apply madd_le in El.
  destruct (N.leb_spec l (blen (wa_buf a))); cbn [obind].
  - intros E. injection E as <-. cbn [wa_buf]. unfold blen in *. rewrite firstn_length. lia.
  - destruct (l <? room m); cbn [obind]; [|discriminate]. intros E. injection E as <-. cbn [wa_buf]. unfold blen in *. rewrite app_length, repeat_length. lia.
Qed.
Lemma step_len (a a' : wacc R) op o : m_acc_step m i a op = Ret (a', o) -> blen (wa_buf a') <= blen (wa_buf a) + N.of_nat (grown [op]).
Proof.
  destruct op as [dst| |n|n| | | |s]; cbn [m_acc_step grown]; intros E.
  - destruct (m_read m i a dst) as [[[a1 d] res]| |] eqn:Er; cbn [obind] in E; [|discriminate..]. injection E as <- _. apply read_len in Er. lia.
  - destruct (m_fill_buf m i a) as [[a1 res]| |] eqn:Er; cbn [obind] in E; [|discriminate..]. injection E as <- _. apply fill_len in Er. lia.
  - destruct (m_consume m a (N.of_nat n)) as [a1| |] eqn:Er; cbn [obind] in E; [|discriminate..]. injection E as <- _. rewrite (consume_len _ _ _ Er). lia.
  - destruct (m_grow m a (N.of_nat n)) as [a1| |] eqn:Er; cbn [obind] in E; [|discriminate..]. injection E as <- _. apply grow_len in Er. lia.
  - destruct (m_reset m a) as [a1| |] eqn:Er; cbn [obind] in E; [|discriminate..]. injection E as <- _. apply reset_len in Er. lia.
  - destruct (m_data a) as [d| |]; cbn [obind] in E; [|discriminate..]. injection E as <- _. lia.
  - destruct (m_capacity m a) as [d| |]; cbn [obind] in E; [|discriminate..]. injection E as <- _. lia.
  - destruct (m_seek m i a s) as [[a1 res]| |] eqn:Er; cbn [obind] in E; [|discriminate..]. injection E as <- _. apply seek_len in Er. lia.
Qed.

Lemma grow_granted (a : wacc R) n : (forall k, k <= blen (wa_buf a) + n -> obtainable m grants k) -> l_grow m grants a n = m_grow m a n.
Proof.
  intros H. unfold l_grow, m_grow, m_resize. destruct (madd m (blen (wa_buf a)) n) as [l| |] eqn:El; cbn [obind]; [|reflexivity..].
  apply madd_le in El. destruct (N.leb_spec l (blen (wa_buf a))); [reflexivity|]. pose proof (H l El) as Ho.
  rewrite (proj2 (can_have_iff m grants l) Ho). destruct Ho as [->|[Ho _]]; [lia|]. fold (room m) in Ho.
  destruct (N.ltb_spec l (room m)); [reflexivity|lia].
Qed.

Lemma run_granted ops : forall a : wacc R, (forall k, k <= blen (wa_buf a) + N.of_nat (grown ops) -> obtainable m grants k) ->
  l_acc_run m grants i a ops = m_acc_run m i a ops.
Proof.
  induction ops as [|op ops IH]; intros a H; [reflexivity|]. cbn [l_acc_run m_acc_run].
  assert (G : grown (op :: ops) = (grown [op] + grown ops)%nat) by (destruct op; cbn [grown]; lia).
  assert (E : l_acc_step m grants i a op = m_acc_step m i a op).
  { destruct op; try reflexivity. cbn [l_acc_step m_acc_step]. rewrite grow_granted; [reflexivity|].
    intros k Hk. apply H. rewrite G. cbn [grown]. lia. }
  rewrite E. destruct (m_acc_step m i a op) as [[a1 o]| |] eqn:Es; cbn [obind]; [|reflexivity..]. apply step_len in Es.
  rewrite IH; [reflexivity|]. intros k Hk. apply H. lia.
Qed.

Lemma acc_allocated cap (r : R) ops :
  (l_acc_from m grants i cap r ops = m_acc_run m i (w_with_capacity cap r) ops \/ l_acc_from m grants i cap r ops = Panic) /\
  ((forall k, k <= cap + N.of_nat (grown ops) -> obtainable m grants k) ->
     l_acc_from m grants i cap r ops = m_acc_run m i (w_with_capacity cap r) ops) /\
  (~ obtainable m grants cap -> l_acc_from m grants i cap r ops = Panic).
Proof.
  unfold l_acc_from, l_with_capacity, l_zeros. split; [|split].
  - destruct (can_have m grants cap); cbn [obind]; [|right; reflexivity]. apply run_either.
  - intros H. rewrite (proj2 (can_have_iff m grants cap)) by (apply H; lia). cbn [obind]. apply run_granted.
    intros k Hk. apply H. assert (L : blen (repeat 0 (N.to_nat cap)) = cap) by (unfold blen; rewrite repeat_length; lia).
    unfold w_with_capacity in Hk. cbn [wa_buf] in Hk. lia.
  - intros H. rewrite (can_have_not _ _ _ H). reflexivity.
Qed.
End Acc.

Lemma new_allocated m grants {R : Type} (r : R) :
  (obtainable m grants 4096 -> l_new m grants r = Ret (mk_wacc r (repeat 0 (N.to_nat 4096)) 0 0 0)) /\
  (~ obtainable m grants 4096 -> l_new m grants r = Panic).
Proof.
  unfold l_new, l_with_capacity, l_zeros. split; intros H.
  - rewrite (proj2 (can_have_iff m grants 4096) H). cbn [obind]. reflexivity.
  - rewrite (can_have_not _ _ _ H). reflexivity.
Qed.

(** ** Default frames *)
Lemma frames_either m grants pg kind t :
  l_new_default_frame m grants pg kind t = m_new_default_frame m kind t \/ l_new_default_frame m grants pg kind t = Panic.
Proof.
  unfold l_new_default_frame, m_new_default_frame.
  assert (H : l_fb_new m grants pg kind = m_fb_new m kind \/ l_fb_new m grants pg kind = Panic);
    [|destruct H as [-> | ->]; [left|right]; reflexivity].
  assert (Z : forall n, l_zeros m grants n = m_zeroed m n \/ l_zeros m grants n = Panic).
  { intros n. unfold l_zeros, m_zeroed, can_have. destruct (N.eqb_spec n 0) as [->|]; cbn [orb].
    - left. assert (0 < room m) by (apply N.neq_0_lt_0, N.pow_nonzero; lia). destruct (N.ltb_spec 0 (room m)); [reflexivity|lia].
    - destruct (n <? room m); cbn [andb]; [|right; reflexivity]. destruct (grants n); [left|right]; reflexivity. }
  destruct kind as [v|v]; cbn [l_fb_new m_fb_new].
  - destruct (m_video_size m v ALIGNMENT) as [size| |]; cbn [obind]; [|left; reflexivity..].
    destruct (Z size) as [-> | ->]; [|right; reflexivity]. destruct (m_zeroed m size); cbn [obind]; [|left; reflexivity..].
    unfold l_planes. destruct (_ || _); [left|right]; reflexivity.
  - destruct (m_audio_size m v ALIGNMENT) as [size| |]; cbn [obind]; [|left; reflexivity..].
    destruct (Z size) as [-> | ->]; [|right; reflexivity]. destruct (m_zeroed m size); cbn [obind]; [|left; reflexivity..].
    unfold l_planes. destruct (_ || _); [left|right]; reflexivity.
Qed.

Section Frames.
Variable m : machine.
Variables grants pg : N -> bool.
Hypothesis Hc : checked m = true.
Hypothesis Hb : 9 <= bits m.

Lemma obtainable_room n : obtainable m grants n -> n < 2 ^ (bits m - 1).
Proof. intros [->|[H _]]; [apply N.neq_0_lt_0, N.pow_nonzero; lia|exact H]. Qed.

Lemma video_allocated v t : (exists f, l_new_default_frame m grants pg (Video v) t = Ret f) <->
  (exists sizes, Forall2 (plane_bytes_on (bits m) (vi_width v) (vi_height v)) (present (fo_comps (vi_format v))) sizes /\ obtainable m grants (total sizes)) /\
  (fo_components (vi_format v) = 0 \/ pg (fo_components (vi_format v)) = true).
Proof.
  pose proof (half_lt m Hc Hb) as HL. split.
  - intros [f E]. destruct (frames_either m grants pg (Video v) t) as [X|X]; [|rewrite X in E; discriminate].
    unfold l_new_default_frame in E. cbn [l_fb_new] in E. unfold m_video_size in E.
    destruct (m_sum_sizes m 0 (vi_width v) (vi_height v) ALIGNMENT (fo_comps (vi_format v))) as [size| |] eqn:Es; cbn [obind] in E; [|discriminate..].
    unfold l_zeros in E. destruct (can_have m grants size) eqn:Eh; cbn [obind] in E; [|discriminate].
    apply can_have_iff in Eh. unfold l_planes in E. unfold get_num_comp in E.
    destruct ((fo_components (vi_format v) =? 0) || pg (fo_components (vi_format v)))%bool eqn:Ep; cbn [obind] in E; [|discriminate].
    split; [|apply orb_true_iff in Ep; rewrite N.eqb_eq in Ep; exact Ep].
    pose proof (obtainable_room _ Eh) as L. apply (m_sum_exact m Hc Hb) in Es; [|lia]. destruct Es as (sizes & F & ->). exists sizes. split; [exact F|exact Eh].
  - intros [(sizes & F & Ho) Hp]. pose proof (obtainable_room _ Ho) as L.
    assert (X : exists f, m_new_default_frame m (Video v) t = Ret f) by (apply (m_video_created m Hc Hb); exists sizes; split; assumption).
    destruct X as [f X]. exists f. rewrite <- X.
    unfold l_new_default_frame, m_new_default_frame. cbn [l_fb_new m_fb_new]. unfold m_video_size.
    rewrite (proj2 (m_sum_exact m Hc Hb _ _ _ 0 (total sizes) ltac:(lia))) by (exists sizes; split; [exact F|reflexivity]). cbn [obind].
    unfold l_zeros, m_zeroed. rewrite (proj2 (can_have_iff m grants _) Ho). fold (room m) in L. destruct (N.ltb_spec (total sizes) (room m)); [|lia]. cbn [obind].
    unfold l_planes, get_num_comp. destruct Hp as [-> | ->]; [reflexivity|]. rewrite orb_true_r. reflexivity.
Qed.

Lemma audio_allocated v t : so_bits (ai_format v) < 256 -> (exists f, l_new_default_frame m grants pg (Audio v) t = Ret f) <->
  (exists s, samples_bytes_on (bits m) (ai_format v) (ai_samples v) 32 s /\ obtainable m grants (s * N.of_nat (length (ai_map v)))) /\
  (let planes := if so_planar (ai_format v) then N.of_nat (length (ai_map v)) else 1 in planes = 0 \/ pg planes = true).
Proof.
  intros Hs. pose proof (half_lt m Hc Hb) as HL. split.
  - intros [f E]. unfold l_new_default_frame in E. cbn [l_fb_new] in E. unfold m_audio_size, map_len in E.
    destruct (m_get_audio_size m (ai_format v) (ai_samples v) ALIGNMENT) as [s| |] eqn:Es; cbn [obind] in E; [|discriminate..].
    destruct (mmul m s (N.of_nat (length (ai_map v)))) as [size| |] eqn:Em; cbn [obind] in E; [|discriminate..].
    apply (mmul_exact m Hc Hb) in Em. destruct Em as [-> _]. unfold l_zeros in E.
    destruct (can_have m grants _) eqn:Eh; cbn [obind] in E; [|discriminate]. apply can_have_iff in Eh. unfold l_planes in E. cbv zeta.
    set (planes := if so_planar (ai_format v) then N.of_nat (length (ai_map v)) else 1) in *.
    destruct ((planes =? 0) || pg planes)%bool eqn:Ep; cbn [obind] in E; [|discriminate].
    split; [|apply orb_true_iff in Ep; rewrite N.eqb_eq in Ep; exact Ep].
    exists s. split; [apply (m_audio_exact m Hc Hb _ _ _ _ power_32 Hs); exact Es|exact Eh].
  - intros [(s & S1 & Ho) Hp]. pose proof (obtainable_room _ Ho) as L.
    assert (X : exists f, m_new_default_frame m (Audio v) t = Ret f) by (apply (m_audio_created m Hc Hb v t Hs); exists s; split; assumption).
    destruct X as [f X]. exists f. rewrite <- X.
    unfold l_new_default_frame, m_new_default_frame. cbn [l_fb_new m_fb_new]. unfold m_audio_size, map_len.
    apply (m_audio_exact m Hc Hb _ _ _ _ power_32 Hs) in S1. rewrite S1. cbn [obind].
    rewrite (proj2 (mmul_exact m Hc Hb s (N.of_nat (length (ai_map v))) _)) by (split; [reflexivity|lia]). cbn [obind].
    unfold l_zeros, m_zeroed. rewrite (proj2 (can_have_iff m grants _) Ho). fold (room m) in L.
    destruct (N.ltb_spec (s * N.of_nat (length (ai_map v))) (room m)); [|lia]. cbn [obind].
    unfold l_planes. cbv zeta in Hp. destruct Hp as [-> | ->]; [reflexivity|]. rewrite orb_true_r. reflexivity.
Qed.
End Frames.

(** ** A request for more than can be had *)
Lemma request_refused : forall m grants fuel, 2 <= bits m ->
  l_get_packet m grants (io_reader cursor_io) fuel (mk_cursor [1; 2; 3] 0 []) (2 ^ (bits m - 1)) = Panic.
Proof.
  intros m grants fuel H. unfold l_get_packet, l_packet_zeroed, l_zeros. rewrite can_have_not; [reflexivity|].
  assert (0 < 2 ^ (bits m - 1)) by (apply N.neq_0_lt_0, N.pow_nonzero; lia). intros [E|[E _]]; lia.
Qed.
Lemma short_source_refused : exists src : list N, reader_ok (io_reader cursor_io) src (fun c => cur_src c = src) cur_pos /\
  forall m grants fuel, 2 <= bits m ->
  l_get_packet m grants (io_reader cursor_io) fuel (mk_cursor src 0 []) (2 ^ (bits m - 1)) = Panic.
Proof. exists [1; 2; 3]. split; [apply io_reader_ok; apply cursor_ok|exact request_refused]. Qed.
