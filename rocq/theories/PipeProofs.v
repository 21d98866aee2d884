(** Muxing followed by demuxing. *)
From Coq Require Import List Arith NArith ZArith Bool String Lia.
From Coq Require Import ZifyBool ZifyNat ZifyN.
From Verif Require Import Base ByteModel ByteSpec ByteProofs AccModel AccSpec AccProofs AccProofs2 FormatModel DemuxModel DemuxSpec DemuxProofs DemuxProofs2 DemuxProofs3 MuxModel MuxSpec MuxProofs PipeSpec.
Import ListNotations.
Local Open Scope nat_scope.

(** ** Headers, then events *)
Section Source.
Context {S P D : Type}.
Variable i : io S.
Variable src : list N.
Variable good : S -> Prop.
Variable tell : S -> nat.
Variable ps : parser P D.
Hypothesis Hsrc : source_ok i src good tell.
Hypothesis Hnf : never_fails i src good tell.
Hypothesis Hinc : incremental ps.
Hypothesis Hhdr : incremental_headers ps.
Notation bio := (acc_buffered i).
Notation dm := (parser_demuxer ps bio).

Lemma headers_mono : forall n m (c c' : dctx P D (acc S)) r, read_headers dm bio n c = Ret (c', Some r) -> n <= m ->
  read_headers dm bio m c = Ret (c', Some r).
Proof.
  induction n as [|n IH]; intros m c c' r E Hm; [discriminate E|]. destruct m as [|m]; [lia|].
  rewrite read_headers_round in *. destruct (hround dm bio c) as [[[c1 r1]|c1]| |]; try discriminate E; cbn [obind] in *; [exact E|].
  apply IH; [exact E|lia].
Qed.

Lemma headers_then_events : forall cap r0 d calls rs, good r0 -> tell r0 = 0 ->
  (exists n c1 c2, read_headers dm bio n (context_new d (with_capacity cap r0)) = Ret (c1, Some (Okay tt)) /\
     read_events dm bio n calls c1 = Ret (c2, Some rs)) <->
  (exists d1 info1 s m d' p' info', ps_headers ps d src (mk_info None None []) = (d1, info1, Okay s) /\
     all_events ps src m calls d1 (Z.to_nat (target (List.length src) 0 s)) info1 = Some (d', p', info', rs)).
Proof.
  intros cap r0 d calls rs Hg Ht. pose proof (fresh_at src good tell (P := P) cap r0 d Hg Ht) as Hf. split.
  - intros [n [c1 [c2 [E1 E2]]]].
    destruct (headers_sound i src good tell Hsrc ps Hnf Hhdr n _ d 0 _ c1 _ Hf E1) as [d1 [info1 [res [Ep [_ Hres]]]]].
    destruct res as [s|e]; [|destruct Hres as [Hres _]; discriminate Hres]. destruct Hres as [_ Hat].
    destruct (events_sound i src good tell Hsrc ps Hnf Hinc calls n c1 _ _ _ c2 rs Hat E2) as [m [d' [p' [info' [Ea _]]]]].
    exists d1, info1, s, m, d', p', info'. split; [exact Ep|exact Ea].
  - intros [d1 [info1 [s [m [d' [p' [info' [Ep Ea]]]]]]]].
    destruct (headers_complete i src good tell Hsrc ps Hnf Hhdr _ d 0 _ d1 info1 (Okay s) Hf Ep) as [n1 [c1 [E1 Hat]]]; [discriminate|].
    destruct (events_complete i src good tell Hsrc ps Hnf Hinc calls m c1 _ _ _ d' p' info' rs Hat Ea) as [n2 [c2 [E2 _]]].
    exists (n1 + n2), c1, c2. split; [apply (headers_mono n1); [exact E1|lia]|].
    apply (read_events_mono dm bio calls n2); [exact E2|lia].
Qed.

End Source.

Lemma c31_headers_then_events : forall (S P D : Type) (i : io S) src good tell (ps : parser P D) cap r0 d calls rs,
  source_ok i src good tell -> never_fails i src good tell -> incremental ps -> incremental_headers ps -> good r0 -> tell r0 = 0 ->
  (exists n c1 c2,
     read_headers (parser_demuxer ps (acc_buffered i)) (acc_buffered i) n (context_new d (with_capacity cap r0)) = Ret (c1, Some (Okay tt)) /\
     read_events (parser_demuxer ps (acc_buffered i)) (acc_buffered i) n calls c1 = Ret (c2, Some rs)) <->
  (exists d1 info1 s m d' p' info', ps_headers ps d src (mk_info None None []) = (d1, info1, Okay s) /\
     all_events ps src m calls d1 (Z.to_nat (target (List.length src) 0 s)) info1 = Some (d', p', info', rs)).
Proof. intros S P D i src good tell ps cap r0 d calls rs Hs Hn Hi Hh. exact (headers_then_events i src good tell ps Hs Hn Hi Hh cap r0 d calls rs). Qed.

(** ** What the muxer wrote is what the demuxer reads *)
Section Pair.
Context {P V M D : Type}.
Variable em : emitter P V M.
Variable ps : parser P D.
Variables (m0 : M) (d0 : D).
Variable info : global_info P.
Variable kept : packet -> packet.
Variable agree : M -> D -> Prop.
Hypothesis Hpair : format_pair em ps m0 d0 info kept agree.

Lemma skipn_plus : forall (A : Type) a b (l : list A), skipn (a + b) l = skipn b (skipn a l).
Proof. induction a as [|a IH]; intros b l; [reflexivity|]. destruct l as [|x l]; cbn [skipn Nat.add]; [rewrite skipn_nil; reflexivity|apply IH]. Qed.

Notation delivered := (fun p : packet => Okay (stamped info (NewPacket (kept p)))).

Lemma packets_read : forall pkts prs m d m' marks, agree m d ->
  List.length prs = List.length pkts -> existsb io_failure prs = false ->
  output em m (map MPacket pkts ++ [MTrailer]) (prs ++ [Okay tt]) m' marks ->
  exists body, marks = map Byte body ++ [Flushed] /\
    forall src p, skipn p src = body -> exists d' p',
      all_events ps src 1 (List.length (written pkts prs) + 1) d p info = Some (d', p', info, map delivered (written pkts prs) ++ [Okay Eof]).
Proof.
  induction pkts as [|pk pkts IH]; intros prs m d m' marks Ha Hl Hio Ho.
  - destruct prs; [|discriminate Hl]. cbn [map app output] in Ho. destruct Ho as [l1 [l2 [-> [Hlv [_ ->]]]]].
    cbn [decides is_trailer] in Hlv. destruct (em_trailer em m) as [m1 [buf|e]] eqn:Et; cbn [snd leaves] in Hlv; [|destruct Hlv].
    exists buf. rewrite app_nil_r. split; [exact Hlv|]. intros src p Hp.
    cbn [written List.length Nat.add map app all_events next_event]. rewrite Hp.
    destruct (fp_trailer _ _ _ _ _ _ _ Hpair m d m1 buf Ha Et) as [d' [n [E|[s E]]]]; rewrite E.
    + eexists _, _. reflexivity.
    + cbn [register stamped]. eexists _, _. reflexivity.
  - destruct prs as [|r prs]; [discriminate Hl|]. cbn [map app output] in Ho. destruct Ho as [l1 [l2 [-> [Hlv Ho]]]].
    cbn [existsb] in Hio. apply orb_false_iff in Hio. destruct Hio as [Hr Hio]. cbn [decides is_trailer] in Hlv, Ho.
    destruct (em_packet em m pk) as [m1 [buf|e]] eqn:Ep; cbn [fst snd leaves] in Hlv, Ho.
    + destruct r as [u|[|n|e]]; try (destruct Hlv; fail); [|discriminate Hr]. rewrite app_nil_r in Hlv. subst l1.
      destruct (fp_packet _ _ _ _ _ _ _ Hpair m d pk m1 buf Ha Ep) as [d1 [Ha1 Hev]].
      destruct (IH prs m1 d1 m' l2 Ha1 ltac:(cbn in Hl; lia) Hio Ho) as [body [-> Hread]].
      exists (buf ++ body). split; [rewrite map_app, app_assoc; reflexivity|]. intros src p Hp.
      cbn [written List.length Nat.add map app all_events next_event]. rewrite Hp, Hev. cbn [register].
      replace (Z.to_nat (target (List.length src) p (Current (Z.of_nat (List.length buf))))) with (p + List.length buf) by (cbn [target]; lia).
      destruct (Hread src (p + List.length buf)) as [d' [p' E]].
      { rewrite skipn_plus, Hp, skipn_app, skipn_all2 by lia. rewrite Nat.sub_diag. reflexivity. }
      rewrite E. eexists _, _. reflexivity.
    + destruct r as [u|e']; [destruct Hlv|]. destruct Hlv as [-> ->].
      pose proof (fp_refused _ _ _ _ _ _ _ Hpair m d pk m1 e Ha Ep) as Ha1.
      destruct (IH prs m1 d m' l2 Ha1 ltac:(cbn in Hl; lia) Hio Ho) as [body [-> Hread]].
      exists body. split; [reflexivity|]. exact Hread.
Qed.

Lemma mux_then_demux : forall (W : Type) (s : sink W) good tape fuel w0 u pkts c' prs,
  keeps s good tape -> good w0 -> tape w0 = [] -> incremental ps -> incremental_headers ps ->
  mux_run (emitter_muxer em s fuel) s (mk_mctx m0 (writer_new w0) u) (MHeader :: map MPacket pkts ++ [MTrailer]) =
    Ret (c', Some (Okay tt :: prs ++ [Okay tt])) ->
  List.length prs = List.length pkts -> existsb io_failure prs = false ->
  exists file, tape (w_inner (mc_writer c')) = map Byte file ++ [Flushed] /\
    forall (S : Type) (i : io S) good' tell cap r0, source_ok i file good' tell -> never_fails i file good' tell -> good' r0 -> tell r0 = 0 ->
     exists n c1 c2,
       read_headers (parser_demuxer ps (acc_buffered i)) (acc_buffered i) n (context_new d0 (with_capacity cap r0)) = Ret (c1, Some (Okay tt)) /\
       c_info c1 = info /\
       read_events (parser_demuxer ps (acc_buffered i)) (acc_buffered i) n (List.length (written pkts prs) + 1) c1 =
         Ret (c2, Some (map (fun p => Okay (stamped info (NewPacket (kept p)))) (written pkts prs) ++ [Okay Eof])).
Proof.
  intros W s good tape fuel w0 u pkts c' prs Hk Hg Ht Hinc Hhdr E Hl Hio.
  destruct (run_output em s good tape Hk fuel _ (mk_mctx m0 (writer_new w0) u) c' _ Hg E) as [marks [Em Ho]]. cbn [mc_writer writer_new w_inner] in Em. rewrite Ht in Em. cbn [app] in Em.
  cbn [output mc_muxer] in Ho. destruct Ho as [l1 [l2 [-> [Hlv Ho]]]]. cbn [decides is_trailer] in Hlv, Ho.
  destruct (em_header em m0) as [m1 [buf|e]] eqn:Eh; cbn [fst snd leaves] in Hlv, Ho; [|destruct Hlv]. rewrite app_nil_r in Hlv. subst l1.
  destruct (fp_header _ _ _ _ _ _ _ Hpair m1 buf Eh) as [d1 [Ha Hh]].
  destruct (packets_read pkts prs m1 d1 _ l2 Ha Hl Hio Ho) as [body [-> Hread]].
  exists (buf ++ body). split; [rewrite Em, map_app, app_assoc; reflexivity|]. intros S i good' tell cap r0 Hs Hn Hg' Ht'.
  destruct (Hread (buf ++ body) (List.length buf)) as [d' [p' Ea]].
  { rewrite skipn_app, skipn_all2 by lia. rewrite Nat.sub_diag. reflexivity. }
  pose proof (fresh_at (buf ++ body) good' tell (P := P) cap r0 d0 Hg' Ht') as Hf.
  destruct (headers_complete i (buf ++ body) good' tell Hs ps Hn Hhdr _ d0 0 _ d1 info _ Hf (Hh body)) as [n1 [c1 [E1 Hat]]]; [discriminate|].
  replace (Z.to_nat (target (List.length (buf ++ body)) 0 (Current (Z.of_nat (List.length buf))))) with (List.length buf) in Hat by (cbn [target]; lia).
  destruct (events_complete i (buf ++ body) good' tell Hs ps Hn Hinc _ 1 c1 _ _ _ d' p' info _ Hat Ea) as [n2 [c2 [E2 _]]].
  exists (n1 + n2), c1, c2. split; [apply (headers_mono i ps n1); [exact E1|lia]|].
  split; [apply Hat|]. apply (read_events_mono _ _ _ n2); [exact E2|lia].
Qed.

End Pair.

(** ** The example format *)

Lemma get_gen_app : forall f k buf more, k <= List.length buf -> get_gen f k (buf ++ more) = get_gen f k buf.
Proof.
  intros f k buf more H. unfold get_gen. rewrite app_length.
  destruct (Nat.leb_spec k (List.length buf + List.length more)); [|lia]. destruct (Nat.leb_spec k (List.length buf)); [|lia].
  rewrite firstn_app. replace (k - List.length buf) with 0 by lia. cbn [firstn]. rewrite app_nil_r. reflexivity.
Qed.
Lemma get_u32l_app : forall buf more, 4 <= List.length buf -> get_u32l (buf ++ more) = get_u32l buf.
Proof. intros buf more H. rewrite !get_u32l_eq. apply get_gen_app. exact H. Qed.
Lemma get_i64b_app : forall buf more, 8 <= List.length buf -> get_i64b (buf ++ more) = get_i64b buf.
Proof. intros buf more H. unfold get_i64b. rewrite !get_u64b_eq, get_gen_app by exact H. reflexivity. Qed.
Lemma get_u8_app : forall buf more, 1 <= List.length buf -> get_u8 (buf ++ more) = get_u8 buf.
Proof. intros buf more H. rewrite !get_u8_eq. apply get_gen_app. exact H. Qed.

Lemma skipn_add_app : forall (A : Type) n (l r : list A), n = List.length l -> skipn n (l ++ r) = r.
Proof. intros A n l r ->. rewrite skipn_app, skipn_all2 by lia. rewrite Nat.sub_diag. reflexivity. Qed.

Lemma put_u32l_zero : forall v, (v < 2 ^ 32)%N -> exists l, put_u32l (repeat 0%N 4) v = Ret l /\ get_u32l l = Ret v /\ List.length l = 4.
Proof.
  intros v Hv. destruct all_put_get as [_ [_ [_ [H _]]]]. destruct (H (repeat 0%N 4) v Hv) as [_ H4].
  destruct (H4 (le_n 4)) as [l [E [G [_ [L _]]]]]. exists l. split; [exact E|]. split; [exact G|exact L].
Qed.
Lemma put_i64b_zero : forall v, signed_range 64 v -> exists l, put_i64b (repeat 0%N 8) v = Ret l /\ get_i64b l = Ret v /\ List.length l = 8.
Proof.
  intros v Hv. destruct all_put_get as (_ & _ & _ & _ & _ & _ & _ & _ & _ & _ & _ & _ & _ & H & _).
  destruct (H (repeat 0%N 8) v Hv) as [_ H4].
  destruct (H4 (le_n 8)) as [l [E [G [_ [L _]]]]]. exists l. split; [exact E|]. split; [exact G|exact L].
Qed.

Lemma lp_record_reads : forall p rest, lp_fits p = true ->
  List.length (lp_record p) = 13 + List.length (p_data p) /\
  get_u32l (lp_record p ++ rest) = Ret (N.of_nat (List.length (p_data p))) /\
  get_i64b (skipn 4 (lp_record p ++ rest)) = Ret (p_stream_index p) /\
  get_u8 (skipn 12 (lp_record p ++ rest)) = Ret (lp_flags p) /\
  skipn 13 (lp_record p ++ rest) = p_data p ++ rest.
Proof.
  intros p rest Hf. unfold lp_fits in Hf. apply andb_true_iff in Hf. destruct Hf as [Hn Hi].
  assert (Hn' : (N.of_nat (List.length (p_data p)) < 2 ^ 32)%N).
  { apply N.ltb_lt in Hn. unfold lp_end in Hn. change (2 ^ 32)%N with 4294967296%N. lia. }
  assert (Hi' : signed_range 64 (p_stream_index p)).
  { apply andb_true_iff in Hi. destruct Hi as [H1 H2]. apply Z.leb_le in H1. apply Z.ltb_lt in H2. split; [exact H1|exact H2]. }
  destruct (put_u32l_zero _ Hn') as [a [Ea [Ga La]]]. destruct (put_i64b_zero _ Hi') as [b [Eb [Gb Lb]]].
  unfold lp_record. rewrite Ea, Eb. cbn [put_or_empty put_u8 store].
  change (put_or_empty (put_u8 [0%N] (lp_flags p))) with [lp_flags p].
  split; [rewrite !app_length, La, Lb; reflexivity|]. rewrite <- !app_assoc.
  split; [rewrite get_u32l_app by lia; exact Ga|].
  split; [rewrite (skipn_add_app _ 4 a) by (symmetry; exact La); rewrite get_i64b_app by lia; exact Gb|].
  assert (T : forall k, skipn (4 + (8 + k)) (a ++ b ++ [lp_flags p] ++ p_data p ++ rest) = skipn k ([lp_flags p] ++ p_data p ++ rest)).
  { intros k. rewrite !skipn_plus. rewrite (skipn_add_app _ 4 a) by (symmetry; exact La). rewrite (skipn_add_app _ 8 b) by (symmetry; exact Lb). reflexivity. }
  split; [exact (f_equal get_u8 (T 0))|exact (T 1)].
Qed.

Lemma lp_flags_bits : forall p, N.testbit (lp_flags p) 0 = p_key p /\ N.testbit (lp_flags p) 1 = p_corrupted p.
Proof. intros p. unfold lp_flags. destruct (p_key p), (p_corrupted p); split; reflexivity. Qed.

Lemma lp_pair : forall m0, format_pair lp_emitter lp_parser m0 tt lp_info lp_kept (fun _ _ => True).
Proof.
  intros m0. constructor.
  - intros m buf E. injection E as <- <-. exists tt. split; [exact I|]. intros rest. reflexivity.
  - intros m d p m' buf _ E. cbn [lp_emitter em_packet] in E. destruct (lp_fits p) eqn:Hf; [|discriminate E].
    assert (buf = lp_record p) as -> by congruence. exists d. split; [exact I|]. intros rest.
    destruct (lp_record_reads p rest Hf) as [Hl [H1 [H2 [H3 H4]]]]. destruct (lp_flags_bits p) as [F0 F1].
    assert (Hn : (N.of_nat (List.length (p_data p)) < lp_end)%N).
    { unfold lp_fits in Hf. apply andb_true_iff in Hf. apply N.ltb_lt. apply Hf. }
    cbn [lp_parser ps_event]. rewrite app_length, Hl. destruct (Nat.ltb_spec (13 + List.length (p_data p) + List.length rest) 4); [lia|].
    rewrite H1, H2, H3, H4. cbn [get_or]. destruct (N.eqb_spec (N.of_nat (List.length (p_data p))) lp_end); [lia|].
    destruct (N.ltb_spec (N.of_nat (13 + List.length (p_data p) + List.length rest)) (13 + N.of_nat (List.length (p_data p)))); [lia|].
    rewrite F0, F1, Nat2N.id, firstn_app, firstn_all, Nat.sub_diag. cbn [firstn]. rewrite app_nil_r. unfold lp_kept.
    repeat f_equal. lia.
  - intros; exact I.
  - intros m d m' buf _ E. cbn [lp_emitter em_trailer] in E. 
    destruct (put_u32l_zero lp_end eq_refl) as [l [El [Gl Ll]]]. rewrite El in E. cbn [put_or_empty] in E.
    assert (buf = l) as -> by congruence. exists d, 0. right. exists (Current 4). cbn [lp_parser ps_event]. rewrite Ll, Gl. reflexivity.
Qed.

Lemma lp_headers : incremental_headers lp_parser.
Proof.
  constructor.
  - intros d dat info d' info' n E. cbn [lp_parser ps_headers] in E.
    destruct dat as [|x [|y dat]]; [| |destruct ((x =? 76) && (y =? 80))%N; discriminate E];
      (assert (n = 2) by congruence; split; [congruence|]; split; [congruence|lia]).
  - intros d dat more info d' info' res E Hf. cbn [lp_parser ps_headers] in *.
    destruct dat as [|x [|y dat]]; [assert (res = Error (MoreDataNeeded 2)) by congruence; destruct (Hf 2); assumption..|]. exact E.
  - intros d dat info d' info' s E. cbn [lp_parser ps_headers] in E.
    destruct dat as [|x [|y dat]]; [discriminate E..|]. destruct ((x =? 76) && (y =? 80))%N; [|discriminate E].
    assert (s = Current 2) as -> by congruence. unfold plain_seek. lia.
Qed.

Lemma lp_incremental : incremental lp_parser.
Proof.
  constructor.
  - intros d dat d' n E. cbn [lp_parser ps_event] in E. destruct (Nat.ltb_spec (List.length dat) 4).
    + assert (n = 4) by congruence. split; [congruence|lia].
    + destruct (get_or (get_u32l dat) 0%N =? lp_end)%N; [discriminate E|].
      destruct (N.ltb_spec (N.of_nat (List.length dat)) (13 + get_or (get_u32l dat) 0%N)) as [Hlt|]; [|discriminate E].
      assert (n = 13 + N.to_nat (get_or (get_u32l dat) 0%N)) by congruence. split; [congruence|lia].
  - intros d dat more d' res E Hf. cbn [lp_parser ps_event] in *. rewrite app_length. destruct (Nat.ltb_spec (List.length dat) 4) as [Hs|Hs].
    + assert (res = Error (MoreDataNeeded 4)) by congruence. destruct (Hf 4). assumption.
    + destruct (Nat.ltb_spec (List.length dat + List.length more) 4); [lia|]. rewrite get_u32l_app by lia.
      destruct (get_or (get_u32l dat) 0%N =? lp_end)%N; [exact E|]. set (len := get_or (get_u32l dat) 0%N) in *.
      destruct (N.ltb_spec (N.of_nat (List.length dat)) (13 + len)) as [Hlt|Hge].
      { assert (res = Error (MoreDataNeeded (13 + N.to_nat len))) by congruence. destruct (Hf (13 + N.to_nat len)). assumption. }
      destruct (N.ltb_spec (N.of_nat (List.length dat + List.length more)) (13 + len)) as [Hlt|_]; [lia|].
      rewrite !skipn_app. replace (13 - List.length dat) with 0 by lia. replace (12 - List.length dat) with 0 by lia. replace (4 - List.length dat) with 0 by lia.
      change (skipn 0 more) with more. rewrite get_u8_app by (rewrite skipn_length; lia). rewrite get_i64b_app by (rewrite skipn_length; lia).
      rewrite firstn_app, skipn_length. replace (N.to_nat len - (List.length dat - 13)) with 0 by lia. cbn [firstn]. rewrite app_nil_r. exact E.
  - intros d dat d' s ev E. cbn [lp_parser ps_event] in E. destruct (List.length dat <? 4); [discriminate E|].
    destruct (get_or (get_u32l dat) 0%N =? lp_end)%N; [assert (s = Current 4) as -> by congruence; unfold plain_seek; lia|].
    destruct (N.of_nat (List.length dat) <? 13 + get_or (get_u32l dat) 0%N)%N; [discriminate E|].
    assert (s = Current (13 + Z.of_N (get_or (get_u32l dat) 0%N))) as -> by congruence. unfold plain_seek. lia.
  - intros d dat d' s n E. cbn [lp_parser ps_event] in E. destruct (List.length dat <? 4); [discriminate E|].
    destruct (get_or (get_u32l dat) 0%N =? lp_end)%N; [discriminate E|].
    destruct (N.of_nat (List.length dat) <? 13 + get_or (get_u32l dat) 0%N)%N; discriminate E.
Qed.

Lemma whole_packets : forall pkts, forallb lp_fits pkts = true -> exists marks,
  whole_output lp_emitter tt (MHeader :: map MPacket pkts ++ [MTrailer]) = (tt, Okay tt :: map (fun _ => Okay tt) pkts ++ [Okay tt], marks).
Proof.
  assert (G : forall pkts, forallb lp_fits pkts = true -> exists marks,
    whole_output lp_emitter tt (map MPacket pkts ++ [MTrailer]) = (tt, map (fun _ => Okay tt) pkts ++ [Okay tt], marks)).
  { induction pkts as [|p pkts IH]; intros H; [eexists; reflexivity|]. cbn [forallb] in H. apply andb_true_iff in H. destruct H as [Hp H].
    destruct (IH H) as [marks E]. cbn [map app whole_output decides]. cbn [lp_emitter em_packet]. rewrite Hp. fold lp_emitter. rewrite E. eexists. reflexivity. }
  intros pkts H. destruct (G pkts H) as [marks E]. cbn [whole_output decides]. cbn [lp_emitter em_header]. fold lp_emitter. rewrite E. eexists. reflexivity.
Qed.

Lemma written_all : forall pkts, written pkts (map (fun _ => Okay tt) pkts) = pkts.
Proof. induction pkts as [|p pkts IH]; [reflexivity|]. cbn [map written]. rewrite IH. reflexivity. Qed.

Lemma length_prefixed : forall (W : Type) (s : sink W) good tape w0 u pkts,
  keeps s good tape -> accepts s good -> good w0 -> tape w0 = [] -> forallb lp_fits pkts = true ->
  exists fuel c' file,
    mux_run (emitter_muxer lp_emitter s fuel) s (mk_mctx tt (writer_new w0) u) (MHeader :: map MPacket pkts ++ [MTrailer]) =
      Ret (c', Some (Okay tt :: map (fun _ => Okay tt) pkts ++ [Okay tt])) /\
    tape (w_inner (mc_writer c')) = map Byte file ++ [Flushed] /\
    forall (S : Type) (i : io S) good' tell cap r0, source_ok i file good' tell -> never_fails i file good' tell -> good' r0 -> tell r0 = 0 ->
      exists n c1 c2,
        read_headers (parser_demuxer lp_parser (acc_buffered i)) (acc_buffered i) n (context_new tt (with_capacity cap r0)) = Ret (c1, Some (Okay tt)) /\
        c_info c1 = lp_info /\
        read_events (parser_demuxer lp_parser (acc_buffered i)) (acc_buffered i) n (List.length pkts + 1) c1 =
          Ret (c2, Some (map (fun p => Okay (stamped lp_info (NewPacket (lp_kept p)))) pkts ++ [Okay Eof])).
Proof.
  intros W s good tape w0 u pkts Hk Ha Hg Ht Hf. destruct (whole_packets pkts Hf) as [marks E].
  destruct (run_accepted_whole lp_emitter s good tape Hk Ha _ (longest lp_emitter tt (MHeader :: map MPacket pkts ++ [MTrailer])) tt (writer_new w0) u tt _ marks Hg (le_n _) E)
    as [c' [Er [_ Et]]].
  assert (Hn : existsb io_failure (map (fun _ : packet => Okay tt) pkts) = false) by (induction pkts as [|p l IH]; [reflexivity|]; clear - p; induction l; [reflexivity|assumption]).
  assert (Hl : List.length (map (fun _ : packet => Okay (E := error) tt) pkts) = List.length pkts) by apply map_length.
  destruct (mux_then_demux lp_emitter lp_parser tt tt lp_info lp_kept _ (lp_pair tt) W s good tape _ w0 u pkts c' _
    Hk Hg Ht lp_incremental lp_headers Er Hl Hn) as [file [Etape H]].
  exists (longest lp_emitter tt (MHeader :: map MPacket pkts ++ [MTrailer])), c', file. split; [exact Er|]. split; [exact Etape|].
  intros S i good' tell cap r0 Hs Hnf Hg' Ht'.
  destruct (H S i good' tell cap r0 Hs Hnf Hg' Ht') as [n [c1 [c2 [E1 [Ei E2]]]]]. rewrite written_all in E2. exists n, c1, c2. split; [exact E1|]. split; [exact Ei|exact E2].
Qed.
