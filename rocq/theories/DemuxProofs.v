(** Properties of [Context] for arbitrary demuxers and readers. *)
From Coq Require Import List Arith NArith ZArith Bool Lia.
From Coq Require Import ZifyBool ZifyNat ZifyN.
From Verif Require Import Base AccModel AccSpec AccProofs FormatModel DemuxModel DemuxSpec.
Import ListNotations.
Local Open Scope nat_scope.

Lemma find_first : forall (P : Type) (l : list (stream P)) idx,
  find (fun s => (as_isize (s_index s) =? idx)%Z) l = first_stream l idx.
Proof.
  intros P. induction l as [|s l IH]; intros idx; cbn [find first_stream]; [reflexivity|].
  unfold as_isize. destruct (as_signed 64 (s_index s) =? idx)%Z; [reflexivity|]. apply IH.
Qed.

Section Generic.
Context {P D R : Type}.
Variable dm : demuxer_fns P D R.
Variable b : buffered_io R.
Notation ctx := (dctx P D R).

(** What one internal call does. *)
Lemma internal_spec : forall (c c1 : ctx) res, read_event_internal dm b c = Ret (c1, res) ->
  exists d' r' raw, dm_event dm (c_demuxer c) (c_reader c) = Ret (d', r', raw) /\
    c_demuxer c1 = d' /\
    ((exists e, raw = Error e /\ res = Error e /\ c_reader c1 = r' /\ c_info c1 = c_info c) \/
     (exists s ev r'' e, raw = Okay (s, ev) /\ b_seek b r' s = Ret (r'', Error e) /\ res = Error (Io e) /\
        c_reader c1 = r'' /\ c_info c1 = c_info c) \/
     (exists s ev r'' q, raw = Okay (s, ev) /\ b_seek b r' s = Ret (r'', Okay q) /\ c_reader c1 = r'' /\
        c_info c1 = register (c_info c) ev /\
        ((exists n, ev = MoreData n /\ res = Error (MoreDataNeeded n)) \/
         ((forall n, ev <> MoreData n) /\ res = Okay (stamped (register (c_info c) ev) ev))))).
Proof.
  intros c c1 res E. unfold read_event_internal in E.
  destruct (dm_event dm (c_demuxer c) (c_reader c)) as [[[d' r'] raw]| |] eqn:Ed; try discriminate E. cbn [obind] in E.
  exists d', r', raw. split; [reflexivity|]. destruct raw as [[s ev]|e].
  - destruct (b_seek b r' s) as [[r'' sr]| |] eqn:Es; try discriminate E. cbn [obind] in E.
    destruct sr as [q|e].
    + destruct ev as [p|st|n| |];
        try (injection E as <- <-; cbn [c_demuxer]; split; [reflexivity|]; right; right; exists s; eexists; exists r'', q;
             split; [reflexivity|]; split; [exact Es|]; split; [reflexivity|]; split; [reflexivity|]; right; split; [discriminate|reflexivity]).
      * destruct (t_timebase (p_t p)) as [tb|] eqn:Et.
        -- injection E as <- <-. cbn [c_demuxer]. split; [reflexivity|]. right; right. exists s; eexists; exists r'', q.
           split; [reflexivity|]. split; [exact Es|]. split; [reflexivity|]. split; [reflexivity|]. right. split; [discriminate|].
           cbn [register stamped]. rewrite Et. reflexivity.
        -- rewrite find_first in E. cbn [g_streams] in E.
           destruct (first_stream (g_streams (c_info c)) (p_stream_index p)) as [st|] eqn:Ef; injection E as <- <-;
             (cbn [c_demuxer]; split; [reflexivity|]; right; right; exists s; eexists; exists r'', q;
              split; [reflexivity|]; split; [exact Es|]; split; [reflexivity|]; split; [reflexivity|]; right; split; [discriminate|];
              cbn [register stamped]; rewrite Et, Ef; reflexivity).
      * injection E as <- <-. cbn [c_demuxer]. split; [reflexivity|]. right; right. exists s; eexists; exists r'', q.
        split; [reflexivity|]. split; [exact Es|]. split; [reflexivity|]. split; [reflexivity|]. left. exists n. split; reflexivity.
    + injection E as <- <-. cbn [c_demuxer]. split; [reflexivity|]. right; left. exists s, ev, r'', e. repeat split; assumption.
  - injection E as <- <-. cbn [c_demuxer]. split; [reflexivity|]. left. exists e. repeat split.
Qed.

(** One round of [read_event]. *)
Lemma read_event_S : forall n (c : ctx), read_event dm b (S n) c =
  let! (c1, res) := read_event_internal dm b c in
  match res with
  | Error (MoreDataNeeded needed) =>
      let! d := b_data b (c_reader c1) in
      if needed <=? length d then read_event dm b n c1
      else
        let! (r3, fr) := b_fill b (b_grow b (c_reader c1) needed) in
        let c3 := mk_dctx (c_demuxer c1) r3 (c_info c1) in
        match fr with
        | Error e => Ret (c3, Some (Error (Io e)))
        | Okay _ =>
            let! d3 := b_data b r3 in
            if length d3 <=? length d then Ret (c3, Some (Okay Eof)) else read_event dm b n c3
        end
  | Error e => Ret (c1, Some (Error e))
  | Okay ev => Ret (c1, Some (Okay ev))
  end.
Proof. reflexivity. Qed.

(** The same, with the decision separated from the recursion. *)
Definition round (c : ctx) : outcome (ctx * result (event P) error + ctx) :=
  let! (c1, res) := read_event_internal dm b c in
  match res with
  | Error (MoreDataNeeded needed) =>
      let! d := b_data b (c_reader c1) in
      if needed <=? length d then Ret (inr c1)
      else
        let! (r3, fr) := b_fill b (b_grow b (c_reader c1) needed) in
        let c3 := mk_dctx (c_demuxer c1) r3 (c_info c1) in
        match fr with
        | Error e => Ret (inl (c3, Error (Io e)))
        | Okay _ =>
            let! d3 := b_data b r3 in
            if length d3 <=? length d then Ret (inl (c3, Okay Eof)) else Ret (inr c3)
        end
  | Error e => Ret (inl (c1, Error e))
  | Okay ev => Ret (inl (c1, Okay ev))
  end.

Lemma read_event_round : forall n (c : ctx), read_event dm b (S n) c =
  let! x := round c in match x with inl (c', r) => Ret (c', Some r) | inr c' => read_event dm b n c' end.
Proof.
  intros n c. rewrite read_event_S. unfold round.
  destruct (read_event_internal dm b c) as [[c1 res]| |]; cbn [obind]; try reflexivity.
  destruct res as [ev|[|needed|e]]; cbn [obind]; try reflexivity.
  destruct (b_data b (c_reader c1)) as [dat| |]; cbn [obind]; try reflexivity.
  destruct (needed <=? length dat); [reflexivity|].
  destruct (b_fill b _) as [[r3 fr]| |]; cbn [obind]; try reflexivity.
  destruct fr as [d|e]; [|reflexivity].
  destruct (b_data b r3) as [d3| |]; cbn [obind]; try reflexivity.
  destruct (length d3 <=? length dat); reflexivity.
Qed.

(** Retrying does not touch the streams. *)
Lemma retry_info : forall (c c1 : ctx) n, read_event_internal dm b c = Ret (c1, Error (MoreDataNeeded n)) -> c_info c1 = c_info c.
Proof.
  intros c c1 n E. destruct (internal_spec c c1 _ E) as [d' [r' [raw [_ [_ [H|[H|H]]]]]]].
  - destruct H as [e [_ [_ [_ H]]]]. exact H.
  - destruct H as [s [ev [r'' [e [_ [_ [H _]]]]]]]. discriminate H.
  - destruct H as [s [ev [r'' [q [_ [_ [_ [Hi [[m [-> _]]|[_ H]]]]]]]]]]; [exact Hi|discriminate H].
Qed.

Definition final (r : result (event P) error) : Prop := forall n, r <> Error (MoreDataNeeded n).

(** A call of [read_event] ends with an internal call whose answer is not a request
    for more data, or with the synthesised end of file, or with a failed fill. *)
Lemma read_event_cases : forall n (c c' : ctx) r, read_event dm b n c = Ret (c', Some r) ->
  exists c1, c_info c1 = c_info c /\
    ((read_event_internal dm b c1 = Ret (c', r) /\ final r) \/
     (c_info c' = c_info c /\
      exists c2 needed dat r3 fr, read_event_internal dm b c1 = Ret (c2, Error (MoreDataNeeded needed)) /\
       b_data b (c_reader c2) = Ret dat /\ length dat < needed /\
       b_fill b (b_grow b (c_reader c2) needed) = Ret (r3, fr) /\ c' = mk_dctx (c_demuxer c2) r3 (c_info c2) /\
       ((exists e, fr = Error e /\ r = Error (Io e)) \/
        (exists d d3, fr = Okay d /\ b_data b r3 = Ret d3 /\ length d3 <= length dat /\ r = Okay Eof)))).
Proof.
  induction n as [|n IH]; intros c c' r E; [discriminate E|]. rewrite read_event_S in E.
  destruct (read_event_internal dm b c) as [[c1 res]| |] eqn:Ei; try discriminate E. cbn [obind] in E.
  assert (Fin : forall x, res = x -> (forall m, x <> Error (MoreDataNeeded m)) -> Ret (c1, Some x) = Ret (c', Some r) ->
     exists c0, c_info c0 = c_info c /\ ((read_event_internal dm b c0 = Ret (c', r) /\ final r) \/ False)).
  { intros x -> Hx E'. injection E' as <- <-. exists c. split; [reflexivity|]. left. split; assumption. }
  destruct res as [ev|[|needed|e]].
  - destruct (Fin _ eq_refl ltac:(discriminate) E) as [c0 [H0 [H1|[]]]]. exists c0. split; [exact H0|]. left. exact H1.
  - destruct (Fin _ eq_refl ltac:(discriminate) E) as [c0 [H0 [H1|[]]]]. exists c0. split; [exact H0|]. left. exact H1.
  - clear Fin. pose proof (retry_info c c1 needed Ei) as Hi.
    destruct (b_data b (c_reader c1)) as [dat| |] eqn:Edat; try discriminate E. cbn [obind] in E.
    revert E. destruct (Nat.leb_spec needed (length dat)) as [Hle|Hgt]; intros E.
    + destruct (IH c1 c' r E) as [c0 [H0 H1]]. rewrite Hi in *. exists c0. split; assumption.
    + destruct (b_fill b _) as [[r3 fr]| |] eqn:Ef; try discriminate E. cbn [obind] in E. cbv zeta in E.
      destruct fr as [d|e].
      * destruct (b_data b r3) as [d3| |] eqn:Ed3; try discriminate E. cbn [obind] in E.
        revert E. destruct (Nat.leb_spec (length d3) (length dat)) as [H3|H3]; intros E.
        -- inversion E; subst c' r. exists c. split; [reflexivity|]. right.
           split; [exact Hi|]. exists c1, needed, dat, r3, (Okay d). repeat (split; [solve [assumption|reflexivity]|]).
           right. exists d, d3. repeat split; assumption.
        -- destruct (IH _ c' r E) as [c0 [H0 H1]]. cbn [c_info] in *. rewrite Hi in *. exists c0. split; assumption.
      * inversion E; subst c' r. exists c. split; [reflexivity|]. right. split; [exact Hi|].
        exists c1, needed, dat, r3, (Error e). repeat (split; [solve [assumption|reflexivity]|]). left. exists e. split; reflexivity.
  - destruct (Fin _ eq_refl ltac:(discriminate) E) as [c0 [H0 [H1|[]]]]. exists c0. split; [exact H0|]. left. exact H1.
Qed.

(** ** Packets *)

Lemma packet_timebase : forall n (c c' : ctx) p', read_event dm b n c = Ret (c', Some (Okay (NewPacket p'))) ->
  exists d r r' s q p, dm_event dm d r = Ret (c_demuxer c', r', Okay (s, NewPacket p)) /\
    b_seek b r' s = Ret (c_reader c', Okay q) /\
    c_info c' = c_info c /\ delivered_packet (g_streams (c_info c)) p p'.
Proof.
  intros n c c' p' E. destruct (read_event_cases n c c' _ E) as [c1 [Hi [[Ei _]|[_ H]]]].
  - destruct (internal_spec c1 c' _ Ei) as [d' [r' [raw [Ed [Hd [H|[H|H]]]]]]].
    + destruct H as [e [_ [H _]]]. discriminate H.
    + destruct H as [s [ev [r'' [e [_ [_ [H _]]]]]]]. discriminate H.
    + destruct H as [s [ev [r'' [q [-> [Es [Hr [Hinfo [[m [_ H]]|[_ H]]]]]]]]]]; [discriminate H|].
      destruct ev as [p|st|m| |]; try discriminate H.
      exists (c_demuxer c1), (c_reader c1), r', s, q, p. rewrite Hd, Hr. split; [exact Ed|]. split; [exact Es|]. cbn [register] in *. rewrite Hi in *. split; [exact Hinfo|].
      cbn [stamped] in H. unfold delivered_packet.
      destruct (t_timebase (p_t p)) as [tb|] eqn:Et.
      * injection H as ->. rewrite Et. repeat split.
      * destruct (first_stream (g_streams (c_info c)) (p_stream_index p)) as [st|].
        -- injection H as ->. repeat split.
        -- injection H as ->. rewrite Et. repeat split.
  - destruct H as [c2 [needed [dat [r3 [fr [_ [_ [_ [_ [_ [[e [_ H]]|[d [d3 [_ [_ [_ H]]]]]]]]]]]]]]]]; discriminate H.
Qed.

(** ** Streams *)

Lemma register_announced : forall (info : global_info P) ev, g_streams (register info ev) = g_streams info ++ announced [Okay ev].
Proof. intros info ev. destruct ev; cbn [register announced g_streams]; rewrite ?app_nil_r; reflexivity. Qed.

Lemma announced_stamped : forall (info : global_info P) ev l, announced (Okay (stamped info ev) :: l) = announced [Okay ev] ++ announced l.
Proof.
  intros info ev l. destruct ev as [p|s|n| |]; cbn [stamped]; try reflexivity.
  destruct (t_timebase (p_t p)); [reflexivity|]. destruct (first_stream _ _); reflexivity.
Qed.

Lemma event_streams : forall n (c c' : ctx) r, read_event dm b n c = Ret (c', Some r) ->
  c_info c' = c_info c /\ announced [r] = [] \/
  exists ev, c_info c' = register (c_info c) ev /\ r = Okay (stamped (register (c_info c) ev) ev).
Proof.
  intros n c c' r E. destruct (read_event_cases n c c' _ E) as [c1 [Hi [[Ei Hf]|[Hi' H]]]].
  - destruct (internal_spec c1 c' _ Ei) as [d' [r' [raw [Ed [_ [H|[H|H]]]]]]].
    + destruct H as [e [_ [-> [_ H]]]]. left. split; [congruence|reflexivity].
    + destruct H as [s [ev [r'' [e [_ [_ [-> [_ H]]]]]]]]. left. split; [congruence|reflexivity].
    + destruct H as [s [ev [r'' [q [_ [_ [_ [Hinfo [[m [_ H]]|[_ H]]]]]]]]]]; [destruct (Hf m H)|].
      right. exists ev. rewrite Hi in *. split; assumption.
  - left. split; [exact Hi'|].
    destruct H as [c2 [needed [dat [r3 [fr [_ [_ [_ [_ [_ [[e [_ ->]]|[d [d3 [_ [_ [_ ->]]]]]]]]]]]]]]]]; reflexivity.
Qed.

Lemma streams_registered : forall calls n (c c' : ctx) rs, read_events dm b n calls c = Ret (c', Some rs) ->
  g_streams (c_info c') = g_streams (c_info c) ++ announced rs /\
  g_duration (c_info c') = g_duration (c_info c) /\ g_timebase (c_info c') = g_timebase (c_info c).
Proof.
  induction calls as [|calls IH]; intros n c c' rs E; cbn [read_events] in E.
  - injection E as <- <-. cbn [announced]. rewrite app_nil_r. repeat split.
  - destruct (read_event dm b n c) as [[c1 r]| |] eqn:E1; try discriminate E. cbn [obind] in E.
    destruct r as [r|]; [|discriminate E].
    destruct (read_events dm b n calls c1) as [[c2 rest]| |] eqn:E2; try discriminate E. cbn [obind] in E.
    destruct rest as [rs'|]; [|discriminate E]. injection E as <- <-.
    destruct (IH n c1 c2 rs' E2) as [H1 [H2 H3]]. destruct (event_streams n c c1 r E1) as [[Hi Ha]|[ev [Hi Hr]]].
    + rewrite Hi in *. rewrite H1. split; [|split; assumption].
      f_equal. destruct r as [[p|s|m| |]|e]; try reflexivity. discriminate Ha.
    + rewrite H1, H2, H3, Hi, Hr, announced_stamped, register_announced, <- app_assoc.
      split; [reflexivity|]. destruct ev; split; reflexivity.
Qed.

(** ** Errors *)

Lemma demuxer_error_returned : forall n (c : ctx) d' r' e, dm_event dm (c_demuxer c) (c_reader c) = Ret (d', r', Error e) ->
  ~ wants_more e -> read_event dm b (S n) c = Ret (mk_dctx d' r' (c_info c), Some (Error e)).
Proof.
  intros n c d' r' e Ed He. rewrite read_event_S. unfold read_event_internal. rewrite Ed. cbn [obind].
  destruct e as [|m|io]; [reflexivity| |reflexivity]. exfalso. apply He. exact I.
Qed.

Lemma seek_error_returned : forall n (c : ctx) d' r' s ev r'' e,
  dm_event dm (c_demuxer c) (c_reader c) = Ret (d', r', Okay (s, ev)) -> b_seek b r' s = Ret (r'', Error e) ->
  read_event dm b (S n) c = Ret (mk_dctx d' r'' (c_info c), Some (Error (Io e))).
Proof.
  intros n c d' r' s ev r'' e Ed Es. rewrite read_event_S. unfold read_event_internal. rewrite Ed. cbn [obind]. rewrite Es. reflexivity.
Qed.

Lemma fill_error_returned : forall n (c : ctx) d' r' needed dat r3 e,
  dm_event dm (c_demuxer c) (c_reader c) = Ret (d', r', Error (MoreDataNeeded needed)) ->
  b_data b r' = Ret dat -> length dat < needed -> b_fill b (b_grow b r' needed) = Ret (r3, Error e) ->
  read_event dm b (S n) c = Ret (mk_dctx d' r3 (c_info c), Some (Error (Io e))).
Proof.
  intros n c d' r' needed dat r3 e Ed Edat Hlt Ef. rewrite read_event_S. unfold read_event_internal. rewrite Ed. cbn [obind c_reader c_demuxer c_info].
  rewrite Edat. cbn [obind]. destruct (Nat.leb_spec needed (length dat)); [lia|]. rewrite Ef. reflexivity.
Qed.

(** Where an error comes from. *)
Lemma error_origin : forall n (c c' : ctx) e, read_event dm b n c = Ret (c', Some (Error e)) ->
  ~ wants_more e /\ c_info c' = c_info c /\
  ((exists d r, dm_event dm d r = Ret (c_demuxer c', c_reader c', Error e)) \/
   (exists r s io, b_seek b r s = Ret (c_reader c', Error io) /\ e = Io io) \/
   (exists r io, b_fill b r = Ret (c_reader c', Error io) /\ e = Io io)).
Proof.
  intros n c c' e E. destruct (read_event_cases n c c' _ E) as [c1 [Hi [[Ei Hf]|[Hi' H]]]].
  - destruct (internal_spec c1 c' _ Ei) as [d' [r' [raw [Ed [Hd [H|[H|H]]]]]]].
    + destruct H as [e' [-> [H [Hr Hinfo]]]]. injection H as <-.
      split; [destruct e as [|k|]; intros W; try destruct W; apply (Hf k); reflexivity|]. split; [congruence|].
      left. exists (c_demuxer c1), (c_reader c1). rewrite Hd, Hr. exact Ed.
    + destruct H as [s [ev [r'' [io [_ [Es [H [Hr Hinfo]]]]]]]]. injection H as ->. split; [intros []|]. split; [congruence|].
      right; left. exists r', s, io. rewrite Hr. split; [exact Es|reflexivity].
    + destruct H as [s [ev [r'' [q [_ [_ [_ [_ [[m [_ H]]|[_ H]]]]]]]]]]; [destruct (Hf m H)|discriminate H].
  - destruct H as [c2 [needed [dat [r3 [fr [_ [_ [_ [Ef [Hc [[io [-> H]]|[d [d3 [_ [_ [_ H]]]]]]]]]]]]]]]]; [|discriminate H].
    injection H as ->. split; [intros []|]. split; [exact Hi'|]. right; right.
    exists (b_grow b (c_reader c2) needed), io. rewrite Hc. split; [exact Ef|reflexivity].
Qed.

Lemma header_error_returned : forall n (c : ctx) r1 x d' r' info' e,
  b_fill b (c_reader c) = Ret (r1, Okay x) -> dm_headers dm (c_demuxer c) r1 (c_info c) = Ret (d', r', info', Error e) ->
  ~ wants_more e -> read_headers dm b (S n) c = Ret (mk_dctx d' r' info', Some (Error e)).
Proof.
  intros n c r1 x d' r' info' e Ef Eh He. cbn [read_headers]. rewrite Ef. cbn [obind]. unfold read_headers_internal.
  cbn [c_demuxer c_reader c_info]. rewrite Eh. cbn [obind]. destruct e as [|m|io]; [reflexivity| |reflexivity].
  exfalso. apply He. exact I.
Qed.

Lemma header_fill_error_returned : forall n (c : ctx) r1 e, b_fill b (c_reader c) = Ret (r1, Error e) ->
  read_headers dm b (S n) c = Ret (mk_dctx (c_demuxer c) r1 (c_info c), Some (Error (Io e))).
Proof. intros n c r1 e Ef. cbn [read_headers]. rewrite Ef. reflexivity. Qed.

(** The round in which [read_headers] ends. *)
Lemma headers_last_round : forall n (c c' : ctx) res, read_headers dm b n c = Ret (c', Some res) ->
  (exists r io, b_fill b r = Ret (c_reader c', Error io) /\ res = Error (Io io)) \/
  (exists d r info e, dm_headers dm d r info = Ret (c_demuxer c', c_reader c', c_info c', Error e) /\ ~ wants_more e /\ res = Error e) \/
  (exists d r info r' s sr, dm_headers dm d r info = Ret (c_demuxer c', r', c_info c', Okay s) /\
     b_seek b r' s = Ret (c_reader c', sr) /\ res = Okay tt).
Proof.
  induction n as [|n IH]; intros c c' res E; [discriminate E|]. cbn [read_headers] in E.
  destruct (b_fill b (c_reader c)) as [[r1 fr]| |] eqn:Ef; try discriminate E. cbn [obind] in E.
  destruct fr as [x|io].
  - unfold read_headers_internal in E. cbn [c_demuxer c_reader c_info] in E.
    destruct (dm_headers dm (c_demuxer c) r1 (c_info c)) as [[[[d' r'] info'] hr]| |] eqn:Eh; try discriminate E. cbn [obind] in E.
    destruct hr as [s|e].
    + destruct (b_seek b r' s) as [[r2 sr]| |] eqn:Es; try discriminate E. cbn [obind] in E.
      injection E as <- <-. right; right. exists (c_demuxer c), r1, (c_info c), r', s, sr. cbn [c_demuxer c_reader c_info].
      split; [exact Eh|]. split; [exact Es|reflexivity].
    + destruct e as [|m|io].
      * injection E as <- <-. right; left. exists (c_demuxer c), r1, (c_info c), InvalidData. cbn [c_demuxer c_reader c_info].
        split; [exact Eh|]. split; [intros []|reflexivity].
      * exact (IH _ _ _ E).
      * injection E as <- <-. right; left. exists (c_demuxer c), r1, (c_info c), (Io io). cbn [c_demuxer c_reader c_info].
        split; [exact Eh|]. split; [intros []|reflexivity].
  - injection E as <- <-. left. exists (c_reader c), io. cbn [c_reader]. split; [exact Ef|reflexivity].
Qed.

Lemma header_error_origin : forall n (c c' : ctx) e, read_headers dm b n c = Ret (c', Some (Error e)) ->
  ~ wants_more e /\
  ((exists d r info, dm_headers dm d r info = Ret (c_demuxer c', c_reader c', c_info c', Error e)) \/
   (exists r io, b_fill b r = Ret (c_reader c', Error io) /\ e = Io io)).
Proof.
  intros n c c' e E. destruct (headers_last_round n c c' _ E) as [[r [io [Ef H]]]|[[d [r [info [e' [Eh [W H]]]]]]|[d [r [info [r' [s [sr [_ [_ H]]]]]]]]]].
  - injection H as ->. split; [intros []|]. right. exists r, io. split; [exact Ef|reflexivity].
  - injection H as ->. split; [exact W|]. left. exists d, r, info. exact Eh.
  - discriminate H.
Qed.

Lemma header_success : forall n (c c' : ctx) u, read_headers dm b n c = Ret (c', Some (Okay u)) ->
  exists d r info r' s sr, dm_headers dm d r info = Ret (c_demuxer c', r', c_info c', Okay s) /\ b_seek b r' s = Ret (c_reader c', sr).
Proof.
  intros n c c' u E. destruct (headers_last_round n c c' _ E) as [[r [io [_ H]]]|[[d [r [info [e' [_ [_ H]]]]]]|[d [r [info [r' [s [sr [Eh [Es _]]]]]]]]]];
    try discriminate H. exists d, r, info, r', s, sr. split; assumption.
Qed.

Definition hround (c : ctx) : outcome (ctx * result unit error + ctx) :=
  let! (r', fr) := b_fill b (c_reader c) in
  let c1 := mk_dctx (c_demuxer c) r' (c_info c) in
  match fr with
  | Error e => Ret (inl (c1, Error (Io e)))
  | Okay _ =>
      let! (c2, res) := read_headers_internal dm b c1 in
      match res with
      | Error (MoreDataNeeded needed) => Ret (inr (mk_dctx (c_demuxer c2) (b_grow b (c_reader c2) needed) (c_info c2)))
      | Error e => Ret (inl (c2, Error e))
      | Okay _ => Ret (inl (c2, Okay tt))
      end
  end.

Lemma read_headers_round : forall n (c : ctx), read_headers dm b (S n) c =
  let! x := hround c in match x with inl (c', r) => Ret (c', Some r) | inr c' => read_headers dm b n c' end.
Proof.
  intros n c. cbn [read_headers]. unfold hround.
  destruct (b_fill b (c_reader c)) as [[r' [d|e]]| |]; cbn [obind]; try reflexivity.
  destruct (read_headers_internal dm b _) as [[c2 [u|[|k|e]]]| |]; cbn [obind]; reflexivity.
Qed.

(** ** More rounds do not change a result *)

Lemma read_event_mono : forall n m (c c' : ctx) r, read_event dm b n c = Ret (c', Some r) -> n <= m ->
  read_event dm b m c = Ret (c', Some r).
Proof.
  induction n as [|n IH]; intros m c c' r E Hm; [discriminate E|]. destruct m as [|m]; [lia|].
  rewrite read_event_S in *.
  destruct (read_event_internal dm b c) as [[c1 res]| |] eqn:Ei; try discriminate E. cbn [obind] in *.
  destruct res as [ev|[|needed|e]]; try exact E.
  destruct (b_data b (c_reader c1)) as [dat| |] eqn:Edat; try discriminate E. cbn [obind] in *.
  revert E. destruct (needed <=? length dat); intros E; [apply IH; [exact E|lia]|].
  destruct (b_fill b _) as [[r3 fr]| |] eqn:Ef; try discriminate E. cbn [obind] in *. cbv zeta in *.
  destruct fr as [d|e]; [|exact E].
  destruct (b_data b r3) as [d3| |] eqn:Ed3; try discriminate E. cbn [obind] in *.
  revert E. destruct (length d3 <=? length dat); intros E; [exact E|]. apply IH; [exact E|lia].
Qed.

Lemma read_events_mono : forall calls n m (c c' : ctx) rs, read_events dm b n calls c = Ret (c', Some rs) -> n <= m ->
  read_events dm b m calls c = Ret (c', Some rs).
Proof.
  induction calls as [|calls IH]; intros n m c c' rs E Hm; cbn [read_events] in *; [exact E|].
  destruct (read_event dm b n c) as [[c1 [r|]]| |] eqn:E1; try discriminate E. cbn [obind] in E.
  rewrite (read_event_mono n m c c1 r E1 Hm). cbn [obind].
  destruct (read_events dm b n calls c1) as [[c2 [rs'|]]| |] eqn:E2; try discriminate E. cbn [obind] in E.
  rewrite (IH n m c1 c2 rs' E2 Hm). exact E.
Qed.

End Generic.
