(** Limits of [Context] on any machine. *)
From Coq Require Import List Arith NArith ZArith Bool Lia.
From Coq Require Import ZifyBool ZifyNat ZifyN.
From Verif Require Import Base AccModel AccSpec AccProofs FormatModel DemuxModel DemuxSpec DemuxProofs DemuxProofs2 DemuxProofs3 DemuxExamples
  WordAccModel WordSpec WordBitProofs WordAccProofs MachineModel MachineAccModel MachineAccSpec MachineAccProofs MachineAccProofs2
  MachineDemuxModel WordDemuxModel WordDemuxSpec MachineDemuxSpec MachineDemuxProofs.
From Verif Require WordDemuxProofs2.
Import ListNotations.
Local Open Scope nat_scope.

Notation greedy := WordDemuxProofs2.greedy.

Lemma machine_session_exact : forall m (S P D : Type) (i : io S) src good tell (ps : parser P D) rounds calls cap r d,
  (1 <= bits m <= 64)%N ->
  source_ok i src good tell -> reports_within m i -> seeks_within m ps -> good r -> tell r = 0 ->
  (N.of_nat (length src) < 2 ^ (bits m - 1))%N -> (N.of_nat cap < 2 ^ (bits m - 1))%N ->
  exists c rs, plain_session i ps rounds calls (context_new d (with_capacity cap r)) = Ret (c, rs) /\
    ((room c < 2 ^ (bits m - 1))%N ->
       machine_session m i ps rounds calls (context_new d (w_with_capacity (N.of_nat cap) r)) = Ret (word_ctx c, rs)) /\
    ((2 ^ (bits m - 1) <= room c)%N -> checked m = true \/ (forall n, asks ps n -> (N.of_nat n < 2 ^ (bits m - 1))%N) ->
       machine_session m i ps rounds calls (context_new d (w_with_capacity (N.of_nat cap) r)) = Panic).
Proof.
  intros m S P D i src good tell ps n calls cap r d [Hb Hb2] Hs Hu Hp Hg Ht Hl Hc.
  destruct (new_both m Hb Hb2 i src good tell Hs Hu Hl ps Hp n calls cap r d Hg Ht Hc) as [c [rs [E [_ [_ [W Pn]]]]]].
  exists c, rs. split; [exact E|]. split; [exact W|]. intros Hr Hk. exact (Pn Hk Hr).
Qed.

Lemma machine_session_bounded : forall m (S P D : Type) (i : io S) src good tell (ps : parser P D) rounds calls cap r d M,
  (1 <= bits m <= 64)%N ->
  source_ok i src good tell -> reports_within m i -> seeks_within m ps -> good r -> tell r = 0 ->
  (N.of_nat (length src) < 2 ^ (bits m - 1))%N -> (forall n, asks ps n -> n <= M) ->
  (N.of_nat cap + N.of_nat (length calls) * N.of_nat rounds * N.of_nat M < 2 ^ (bits m - 1))%N ->
  exists c rs, plain_session i ps rounds calls (context_new d (with_capacity cap r)) = Ret (c, rs) /\
    machine_session m i ps rounds calls (context_new d (w_with_capacity (N.of_nat cap) r)) = Ret (word_ctx c, rs).
Proof.
  intros m S P D i src good tell ps n calls cap r d M [Hb Hb2] Hs Hu Hp Hg Ht Hl HM Hc.
  destruct (new_both m Hb Hb2 i src good tell Hs Hu Hl ps Hp n calls cap r d Hg Ht ltac:(lia)) as [c [rs [E [_ [HB [W _]]]]]].
  exists c, rs. split; [exact E|]. specialize (HB M HM). apply W. unfold room.
  remember (2 ^ (bits m - 1))%N as L. nia.
Qed.

Lemma greedy_within m n : (1 <= bits m)%N -> seeks_within m (greedy n).
Proof.
  intros Hb. assert (H : forward (Current 0) /\ call_within m (ASeek (Current 0))).
  { split; [cbn; lia|]. cbn. pose proof (Z.pow_pos_nonneg 2 (Z.of_N (bits m))). lia. }
  split; cbn [WordDemuxProofs2.greedy ps_event ps_headers].
  - intros d dat d' s ev E. destruct (length dat <? n); [discriminate E|]. injection E as <- <- <-. exact H.
  - intros d dat info d' info' s E. injection E as <- <- <-. exact H.
Qed.

(** A request for half the address space. *)
Lemma greedy_machine_panics m n (i : io cursor) (r : cursor) : (1 <= bits m)%N ->
  (2 ^ (bits m - 1) <= N.of_nat n < 2 ^ bits m)%N ->
  wd_event (parser_demuxer (greedy n) (machine_buffered m i)) (machine_buffered m i) (machine_grow m) 1
    (context_new tt (w_with_capacity 0 r)) = Panic.
Proof.
  intros Hb H. assert (0 < 2 ^ (bits m - 1))%N by (pose proof (N.pow_nonzero 2 (bits m - 1)); lia).
  cbn [wd_event]. unfold read_event_internal.
  cbn [parser_demuxer dm_event machine_buffered b_data b_seek c_demuxer c_reader c_info context_new WordDemuxProofs2.greedy ps_event].
  change (m_data (w_with_capacity 0 r)) with (Ret ([] : list N)). cbn [obind length].
  destruct (Nat.ltb_spec 0 n) as [_|Hn]; [|lia]. cbn [obind c_reader].
  change (m_data (w_with_capacity 0 r)) with (Ret ([] : list N)). cbn [obind length].
  destruct (Nat.leb_spec n 0) as [Hn|_]; [lia|].
  assert (G : machine_grow m (w_with_capacity 0 r) n = Panic); [|rewrite G; reflexivity].
  unfold machine_grow, m_grow. change (blen (wa_buf (w_with_capacity 0 r))) with 0%N.
  unfold madd, ranged, modulus. rewrite N.add_0_l.
  destruct (N.ltb_spec (N.of_nat n) (2 ^ bits m)); [|lia]. cbn [obind].
  unfold m_resize. change (blen (wa_buf (w_with_capacity 0 r))) with 0%N. unfold MachineModel.room.
  destruct (N.leb_spec (N.of_nat n) 0); [lia|]. destruct (N.ltb_spec (N.of_nat n) (2 ^ (bits m - 1))); [lia|]. reflexivity.
Qed.

Lemma greedy_machine_refutes : forall m, (1 <= bits m <= 64)%N -> exists (ps : parser unit unit) n,
  incremental ps /\ seeks_within m ps /\ (forall k, asks ps k -> k <= n) /\ (N.of_nat n < 2 ^ bits m)%N /\
  forall r, wd_event (parser_demuxer ps (machine_buffered m (narrow_cursor_io m))) (machine_buffered m (narrow_cursor_io m)) (machine_grow m) 1
    (context_new tt (w_with_capacity 0 r)) = Panic.
Proof.
  intros m [Hb _].
  assert (E2 : (2 ^ bits m = 2 * 2 ^ (bits m - 1))%N).
  { replace (bits m) with (N.succ (bits m - 1)) at 1 by lia. apply N.pow_succ_r'. }
  pose proof (N.pow_nonzero 2 (bits m - 1)).
  exists (greedy (N.to_nat (2 ^ (bits m - 1)))), (N.to_nat (2 ^ (bits m - 1))).
  split; [apply WordDemuxProofs2.greedy_incremental|]. split; [apply greedy_within; exact Hb|].
  split; [apply WordDemuxProofs2.greedy_asks|]. split; [rewrite N2Nat.id; lia|].
  intros r. apply greedy_machine_panics; [exact Hb|]. rewrite N2Nat.id. lia.
Qed.

(** Without overflow checks a request for [u32::MAX] bytes takes away a byte of the buffer. *)
Lemma greedy_wasm n : (N.of_nat n = 2 ^ 32 - 1)%N ->
  wd_event (parser_demuxer (greedy n) (machine_buffered wasm32_release (narrow_cursor_io wasm32_release)))
    (machine_buffered wasm32_release (narrow_cursor_io wasm32_release)) (machine_grow wasm32_release) 2
    (context_new tt (w_with_capacity 4 (mk_cursor [1; 2; 3; 4; 5]%N 0 []))) = Panic.
Proof.
  intros H. set (a0 := w_with_capacity 4 (mk_cursor [1; 2; 3; 4; 5]%N 0 [])).
  set (nio := narrow_cursor_io wasm32_release).
  assert (G : forall a : wacc cursor, machine_grow wasm32_release a n = m_grow wasm32_release a (2 ^ 32 - 1)) by (intros a; unfold machine_grow; rewrite H; reflexivity).
  assert (Step : forall d a info dat, m_data a = Ret dat -> length dat < n ->
    read_event_internal (parser_demuxer (greedy n) (machine_buffered wasm32_release nio)) (machine_buffered wasm32_release nio) (mk_dctx d a info) =
      Ret (mk_dctx d a info, Error (MoreDataNeeded n))).
  { intros d a info dat Ed Hd. unfold read_event_internal.
    cbn [parser_demuxer dm_event machine_buffered b_data c_demuxer c_reader c_info WordDemuxProofs2.greedy ps_event]. rewrite Ed. cbn [obind].
    destruct (Nat.ltb_spec (length dat) n); [reflexivity|lia]. }
  unfold context_new. cbn [wd_event]. rewrite (Step tt a0 _ [] eq_refl) by (cbn [length]; lia). cbn [obind machine_buffered b_data b_fill c_reader c_demuxer c_info].
  change (m_data a0) with (Ret ([] : list N)). cbn [obind length]. destruct (Nat.leb_spec n 0); [lia|].
  rewrite G. set (g := m_grow wasm32_release a0 (2 ^ 32 - 1)). vm_compute in g. subst g. cbn [obind].
  set (f := m_fill_buf _ _ _). vm_compute in f. subst f. cbn [obind].
  set (q := m_data _) at 1. vm_compute in q. subst q. cbn [obind length Nat.leb].
  set (a1 := mk_wacc _ _ _ _ _).
  change (mk_buffered (m_fill_buf wasm32_release nio) (m_seek wasm32_release nio) m_data (fun (a : wacc cursor) (_ : nat) => a)) with (machine_buffered wasm32_release nio).
  rewrite (Step tt a1 _ [1; 2; 3]%N eq_refl) by (cbn [length]; lia). cbn [obind c_reader c_demuxer c_info].
  change (m_data a1) with (Ret [1; 2; 3]%N). cbn [obind length]. destruct (Nat.leb_spec n 3); [lia|].
  rewrite G. vm_compute. reflexivity.
Qed.

Lemma greedy_wasm_refutes : exists (ps : parser unit unit) src r n cap,
  incremental ps /\ seeks_within wasm32_release ps /\ (forall k, asks ps k -> k <= n) /\ (N.of_nat n < 2 ^ 32)%N /\
  source_ok (narrow_cursor_io wasm32_release) src (fun c => cur_src c = src) cur_pos /\ cur_src r = src /\ cur_pos r = 0 /\
  wd_event (parser_demuxer ps (machine_buffered wasm32_release (narrow_cursor_io wasm32_release)))
    (machine_buffered wasm32_release (narrow_cursor_io wasm32_release)) (machine_grow wasm32_release) 2
    (context_new tt (w_with_capacity cap r)) = Panic.
Proof.
  exists (greedy (N.to_nat (2 ^ 32 - 1))), [1; 2; 3; 4; 5]%N, (mk_cursor [1; 2; 3; 4; 5]%N 0 []), (N.to_nat (2 ^ 32 - 1)), 4%N.
  split; [apply WordDemuxProofs2.greedy_incremental|]. split; [apply greedy_within; discriminate|]. split; [apply WordDemuxProofs2.greedy_asks|].
  split; [rewrite N2Nat.id; reflexivity|]. split; [apply narrow_cursor_ok|].
  split; [reflexivity|]. split; [reflexivity|]. apply greedy_wasm. rewrite N2Nat.id. reflexivity.
Qed.

(** ** Truncated headers *)

Lemma machine_truncated : forall m (S P D : Type) (i : io S) src good tell, (1 <= bits m <= 64)%N ->
  source_ok i src good tell -> never_fails i src good tell -> forall (ps : parser P D), incremental_headers ps ->
  reports_within m i -> seeks_within m ps -> checked m = true \/ (forall n, asks ps n -> (N.of_nat n < 2 ^ (bits m - 1))%N) ->
  forall cap r0 d k, good r0 -> tell r0 = 0 ->
  (N.of_nat (length src) < 2 ^ (bits m - 1))%N -> (N.of_nat cap < 2 ^ (bits m - 1))%N ->
  ps_headers ps d src (mk_info None None []) = (d, mk_info None None [], Error (MoreDataNeeded k)) ->
  forall n, (2 ^ (bits m - 1) <= N.of_nat cap + N.of_nat n)%N ->
  wd_headers (parser_demuxer ps (machine_buffered m i)) (machine_buffered m i) (machine_grow m) n
    (context_new d (w_with_capacity (N.of_nat cap) r0)) = Panic.
Proof.
  intros m S P D i src good tell Hb Hsrc Hnf ps Hinc Hu Hps Hk cap r0 d k Hg Ht Hl Hc E n Hn.
  destruct (WordDemuxProofs2.hang_grows i src good tell Hsrc Hnf ps Hinc _ d 0 (mk_info None None []) k (fresh_at src good tell cap r0 d Hg Ht) E n) as [c1 [E1 L1]].
  cbn [context_new c_reader with_capacity abuf] in L1. rewrite repeat_length in L1.
  destruct (machine_session_exact m S P D i src good tell ps n [ReadHeaders] cap r0 d Hb Hsrc Hu Hps Hg Ht Hl Hc) as [c [rs [Ep [_ Ew]]]].
  unfold plain_session, machine_session in *. cbn [session] in *. rewrite E1 in Ep. cbn [obind] in Ep. injection Ep as <- <-.
  assert (Hr : (2 ^ (bits m - 1) <= room c1)%N) by (unfold room; lia). specialize (Ew Hr Hk).
  destruct (wd_headers _ _ _ n _) as [[c2 r2]| |]; cbn [obind] in Ew; [discriminate Ew|reflexivity|discriminate Ew].
Qed.

Lemma dummy_within m : (4 <= bits m)%N -> seeks_within m dummy_parser.
Proof.
  intros Hb. assert (16 <= 2 ^ Z.of_N (bits m))%Z.
  { change 16%Z with (2 ^ 4)%Z. apply Z.pow_le_mono_r; lia. }
  assert (H0 : forall k, (0 <= k < 16)%Z -> forward (Current k) /\ call_within m (ASeek (Current k))) by (intros k Hk; cbn; lia).
  split; cbn [dummy_parser ps_event ps_headers].
  - intros d dat d' s ev E. destruct (length dat <? 2); [discriminate E|].
    repeat (match type of E with context [match ?c with _ => _ end] => destruct c end; try discriminate E);
      injection E as <- <- <-; apply H0; lia.
  - intros d dat info d' info' s E. destruct (length dat <? 9); [discriminate E|]. injection E as <- <- <-. apply H0; lia.
Qed.

Lemma dummy_asks k : asks dummy_parser k -> k <= 9.
Proof.
  intros [[d [dat [d' E]]]|[[d [dat [d' [s E]]]]|[d [dat [info [d' [info' E]]]]]]]; cbn [dummy_parser ps_event ps_headers] in E.
  - destruct (length dat <? 2); [assert (k = 2 - length dat) by congruence; lia|].
    repeat (match type of E with context [match ?c with _ => _ end] => destruct c end; try discriminate E).
  - destruct (length dat <? 2); [discriminate E|].
    repeat (match type of E with context [match ?c with _ => _ end] => destruct c end; try discriminate E); assert (k = 0) by congruence; lia.
  - destruct (length dat <? 9); [assert (k = 9 - length dat) by congruence; lia|discriminate E].
Qed.

(** ** 64 bits *)

Lemma seeks_64 (c : bool) {P D : Type} (ps : parser P D) : seeks_fit ps -> seeks_within (mk_machine 64 c) ps.
Proof.
  assert (H : forall s, call_fits (ASeek s) -> call_within (mk_machine 64 c) (ASeek s)).
  { intros [n|d|d]; cbn; intros H; try exact H; lia. }
  intros [He Hh]. split.
  - intros d dat d' s ev E. destruct (He _ _ _ _ _ E) as [F C]. split; [exact F|exact (H s C)].
  - intros d dat info d' info' s E. destruct (Hh _ _ _ _ _ _ E) as [F C]. split; [exact F|exact (H s C)].
Qed.

Lemma machine_session_64 : forall (S P D : Type) (i : io S) src good tell (ps : parser P D) rounds calls cap r d,
  source_ok i src good tell -> reports_u64 i -> seeks_fit ps -> good r -> tell r = 0 ->
  (N.of_nat (length src) < 2 ^ 63)%N -> (N.of_nat cap < 2 ^ 63)%N ->
  let c0 := context_new d (w_with_capacity (N.of_nat cap) r) in
  machine_session x86_64 i ps rounds calls c0 = word_session i ps rounds calls c0 /\
  (word_session i ps rounds calls c0 <> Panic ->
   machine_session x86_64_release i ps rounds calls c0 = release_session i ps rounds calls c0).
Proof.
  intros S P D i src good tell ps n calls cap r d Hs Hu Hp Hg Ht Hl Hc c0.
  destruct (WordDemuxProofs2.session_exact S P D i src good tell ps n calls cap r d Hs Hu Hp Hg Ht Hl Hc) as [c [rs [E Ew]]].
  fold c0 in Ew.
  assert (B : forall k, (1 <= bits (mk_machine 64 k) <= 64)%N) by (intros k; cbn; lia).
  destruct (machine_session_exact x86_64 S P D i src good tell ps n calls cap r d (B true) Hs Hu (seeks_64 true ps Hp) Hg Ht Hl Hc) as [c1 [rs1 [E1 [W1 P1]]]].
  destruct (machine_session_exact x86_64_release S P D i src good tell ps n calls cap r d (B false) Hs Hu (seeks_64 false ps Hp) Hg Ht Hl Hc) as [c2 [rs2 [E2 [W2 _]]]].
  fold c0 in W1, P1, W2. rewrite E in E1, E2. injection E1 as <- <-. injection E2 as <- <-.
  change (2 ^ (bits x86_64 - 1))%N with (2 ^ 63)%N in W1, P1. change (2 ^ (bits x86_64_release - 1))%N with (2 ^ 63)%N in W2.
  destruct (N.ltb_spec (room c) (2 ^ 63)) as [H|H]; rewrite Ew.
  - split; [exact (W1 H)|]. intros _. rewrite (W2 H). symmetry. apply (WordDemuxProofs2.release_new i ps Hp). exact Ew.
  - split; [exact (P1 H (or_introl eq_refl))|]. intros K. destruct (K eq_refl).
Qed.
