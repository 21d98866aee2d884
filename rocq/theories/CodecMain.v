(** Proofs about codec contexts, option values and error texts. *)
From Coq Require Import Ascii String List Arith NArith ZArith Bool Lia DecimalString DecimalN.
From Verif Require Import Base AccModel AudioModel PixelModel FormatModel FrameModel MuxModel DisplayModel
  MuxSpec MuxProofs CodecModel CodecSpec.
Import ListNotations.
Local Open Scope nat_scope.

Ltac peel :=
  repeat match goal with
  | |- context [match ?x with _ => _ end] =>
      lazymatch x with
      | context [match _ with _ => _ end] => fail
      | _ => destruct x; cbn
      end
  end; try reflexivity.

Lemma dec_step_bare : forall (D : Type) (dd : decoder D) d op,
  dec_step dd (mk_dec_ctx d) op =
  match bare_dec dd d op with Ret (d', o) => Ret (mk_dec_ctx d', o) | Panic => Panic | UB => UB end.
Proof.
  intros D dd d [x|p| | |]; cbn;
    unfold ctx_set_extradata, ctx_send_packet, ctx_receive_frame, ctx_configure, ctx_flush; cbn; peel.
Qed.

Lemma dec_run_bare : forall (D : Type) (dd : decoder D) ops d,
  dec_run dd (mk_dec_ctx d) ops =
  match bare_decs dd d ops with Ret (d', os) => Ret (mk_dec_ctx d', os) | Panic => Panic | UB => UB end.
Proof.
  intros D dd ops. induction ops as [|op ops IH]; intros d; [reflexivity|].
  cbn [dec_run bare_decs]. rewrite dec_step_bare. destruct (bare_dec dd d op) as [[d1 o]| |]; cbn; try reflexivity.
  rewrite IH. destruct (bare_decs dd d1 ops) as [[d2 os]| |]; reflexivity.
Qed.

Lemma enc_step_bare : forall (E : Type) (en : encoder E) x op,
  enc_step en (mk_enc_ctx x) op =
  match bare_enc en x op with Ret (x', o) => Ret (mk_enc_ctx x', o) | Panic => Panic | UB => UB end.
Proof.
  intros E en x [ |p| |key a| |f| | ]; cbn;
    unfold enc_configure, enc_set_params, enc_get_params, enc_get_extradata, enc_send_frame,
      enc_receive_packet, enc_flush; cbn; try solve [peel].
  destruct a as [z|n|s|b|[p q]|f|s]; unfold enc_set_option, value_from_i64, value_from_u64, value_from_str,
    value_from_bool, value_from_pair, value_from_formaton, value_from_soniton; cbn; peel.
Qed.

Lemma enc_run_bare : forall (E : Type) (en : encoder E) ops x,
  enc_run en (mk_enc_ctx x) ops =
  match bare_encs en x ops with Ret (x', os) => Ret (mk_enc_ctx x', os) | Panic => Panic | UB => UB end.
Proof.
  intros E en ops. induction ops as [|op ops IH]; intros x; [reflexivity|].
  cbn [enc_run bare_encs]. rewrite enc_step_bare. destruct (bare_enc en x op) as [[x1 o]| |]; cbn; try reflexivity.
  rewrite IH. destruct (bare_encs en x1 ops) as [[x2 os]| |]; reflexivity.
Qed.

Lemma named_lookup : forall (T : Type) (codec_of : T -> string) l name t,
  first_named codec_of l name t -> codecs_by_name (codecs_from_list codec_of l) name = Ret (Some t).
Proof.
  intros T codec_of l name t H. rewrite from_list_lookup. apply find_named in H. congruence.
Qed.

Lemma unnamed_lookup : forall (T : Type) (codec_of : T -> string) l name,
  (forall t, In t l -> codec_of t <> name) -> codecs_by_name (codecs_from_list codec_of l) name = Ret None.
Proof.
  intros T codec_of l name H. rewrite from_list_lookup. apply find_unnamed in H. congruence.
Qed.

Lemma c82_decoder : forall (T D : Type) (codec_of : T -> string) (create : T -> D) (dd : decoder D) l name ops t,
  first_named codec_of l name t ->
  exists c, dec_by_name create (codecs_from_list codec_of l) name = Ret (Some c) /\
    match bare_decs dd (create t) ops with
    | Ret (d, outs) => exists c', dec_run dd c ops = Ret (c', outs) /\ ctx_decoder c' = d
    | Panic => dec_run dd c ops = Panic
    | UB => dec_run dd c ops = UB
    end.
Proof.
  intros T D codec_of create dd l name ops t H.
  exists (mk_dec_ctx (create t)). unfold dec_by_name. rewrite (named_lookup _ _ _ _ _ H). split; [reflexivity|].
  rewrite dec_run_bare. destruct (bare_decs dd (create t) ops) as [[d os]| |]; [|reflexivity|reflexivity].
  exists (mk_dec_ctx d). split; reflexivity.
Qed.

Lemma c82_encoder : forall (T E : Type) (codec_of : T -> string) (create : T -> E) (en : encoder E) l name ops t,
  first_named codec_of l name t ->
  exists c, enc_by_name create (codecs_from_list codec_of l) name = Ret (Some c) /\
    match bare_encs en (create t) ops with
    | Ret (x, outs) => exists c', enc_run en c ops = Ret (c', outs) /\ enc_encoder c' = x
    | Panic => enc_run en c ops = Panic
    | UB => enc_run en c ops = UB
    end.
Proof.
  intros T E codec_of create en l name ops t H.
  exists (mk_enc_ctx (create t)). unfold enc_by_name. rewrite (named_lookup _ _ _ _ _ H). split; [reflexivity|].
  rewrite enc_run_bare. destruct (bare_encs en (create t) ops) as [[d os]| |]; [|reflexivity|reflexivity].
  exists (mk_enc_ctx d). split; reflexivity.
Qed.

Lemma c82_unknown : forall (T X : Type) (codec_of : T -> string) (create : T -> X) l name,
  (forall t, In t l -> codec_of t <> name) ->
  dec_by_name create (codecs_from_list codec_of l) name = Ret None /\
  enc_by_name create (codecs_from_list codec_of l) name = Ret None.
Proof.
  intros T X codec_of create l name H. unfold dec_by_name, enc_by_name. rewrite (unnamed_lookup _ _ _ _ H).
  split; reflexivity.
Qed.

(** ** Option values *)

Lemma tagged_inj : forall a b, tagged a = tagged b -> a = b.
Proof.
  intros [z|n|s|b|[p q]|f|s] [z'|n'|s'|b'|[p' q']|f'|s'] H; cbn in H; congruence.
Qed.

Lemma c83_options : forall e k1 a1 k2 a2,
  enc_step recorder (mk_enc_ctx e) (ESetOption k1 a1) = enc_step recorder (mk_enc_ctx e) (ESetOption k2 a2) ->
  k1 = k2 /\ a1 = a2.
Proof.
  intros e k1 a1 k2 a2. rewrite !enc_step_bare. cbn. intros H.
  assert (H1 : k1 = k2) by congruence. assert (H2 : tagged a1 = tagged a2) by congruence.
  split; [exact H1|apply tagged_inj; exact H2].
Qed.

(** ** Error texts *)

Lemma dec_inj : forall m n, dec m = dec n -> m = n.
Proof.
  intros m n H. unfold dec in H.
  apply (f_equal NilEmpty.uint_of_string) in H. rewrite !NilEmpty.usu in H.
  apply (f_equal (fun o => match o with Some u => N.of_uint u | None => 0%N end)) in H.
  rewrite !Unsigned.of_to in H. exact H.
Qed.

Fixpoint digits_only (s : string) : bool :=
  match s with
  | EmptyString => true
  | String c s' => ((48 <=? Ascii.nat_of_ascii c) && (Ascii.nat_of_ascii c <=? 57)) && digits_only s'
  end.

Lemma digits_string_of_uint : forall u, digits_only (NilEmpty.string_of_uint u) = true.
Proof. induction u; cbn; auto. Qed.

Lemma digits_suffix : forall a b t, digits_only a = true -> digits_only b = true ->
  (a ++ String " "%char t = b ++ String " "%char t -> a = b)%string.
Proof.
  induction a as [|c a IH]; intros [|c' b] t Ha Hb H; cbn in H, Ha, Hb |- *; try reflexivity.
  - exfalso. assert (E : c' = " "%char) by congruence. subst c'. cbn in Hb. discriminate.
  - exfalso. assert (E : c = " "%char) by congruence. subst c. cbn in Ha. discriminate.
  - apply andb_prop in Ha. apply andb_prop in Hb. f_equal; [congruence|].
    apply (IH b t); [apply Ha|apply Hb|congruence].
Qed.

Lemma dec_digits : forall n, digits_only (dec n) = true.
Proof. intros n. apply digits_string_of_uint. Qed.

Lemma show_more_first : forall n t, digits_only (dec n) = true ->
  forall c s, (dec n ++ String " "%char t)%string = String c s -> c = " "%char \/ (48 <= Ascii.nat_of_ascii c <= 57).
Proof.
  intros n t Hd c s H. destruct (dec n) as [|c' d]; cbn in H.
  - left. congruence.
  - right. assert (c' = c) by congruence. subst c'. cbn [digits_only] in Hd.
    apply andb_prop in Hd. destruct Hd as [Hd _]. apply andb_prop in Hd. destruct Hd as [A B].
    apply Nat.leb_le in A. apply Nat.leb_le in B. lia.
Qed.

Lemma c84_format_texts : forall a b, show_error a = show_error b <-> same_kind a b.
Proof.
  intros a b. split.
  - destruct a as [|m|e], b as [|n|e']; cbn; intros H; try exact I; try discriminate H.
    + symmetry in H. destruct (show_more_first _ _ (dec_digits (N.of_nat n)) _ _ H) as [E|E]; [discriminate E|].
      cbn in E. lia.
    + destruct (show_more_first _ _ (dec_digits (N.of_nat m)) _ _ H) as [E|E]; [discriminate E|].
      cbn in E. lia.
    + apply digits_suffix in H; [|apply dec_digits|apply dec_digits]. apply dec_inj in H. lia.
    + destruct (show_more_first _ _ (dec_digits (N.of_nat m)) _ _ H) as [E|E]; [discriminate E|].
      cbn in E. lia.
    + symmetry in H. destruct (show_more_first _ _ (dec_digits (N.of_nat n)) _ _ H) as [E|E]; [discriminate E|].
      cbn in E. lia.
  - destruct a as [|m|e], b as [|n|e']; cbn; intros H; try contradiction; try reflexivity. subst; reflexivity.
Qed.

Lemma append_inj : forall p a b, (p ++ a = p ++ b -> a = b)%string.
Proof. induction p as [|c p IH]; cbn; intros a b H; [exact H|apply IH; congruence]. Qed.

Lemma c84_codec_texts : forall a b, show_codec_error a = show_codec_error b -> a = b.
Proof.
  intros [| | | |f] [| | | |g] H; try reflexivity; try discriminate H.
  apply (append_inj "Unsupported feature ") in H. congruence.
Qed.

Lemma c84_io_source : forall e io, error_source e = Some io <-> e = error_from_io io.
Proof.
  intros [|n|e] io; unfold error_from_io; cbn; split; intros H; try discriminate H; congruence.
Qed.
