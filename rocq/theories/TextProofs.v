(** Texts. *)
From Coq Require Import Ascii String.
From Coq Require Import List NArith ZArith Bool Lia.
From Coq Require Import ZifyBool ZifyN.
From Coq Require Import Decimal DecimalFacts DecimalN DecimalString.
From Verif Require Import Base AudioModel PixelModel FormatModel FrameModel DisplayModel CodecModel DisplayProofs TextSpec.
Import ListNotations.
Local Open Scope N_scope.
Ltac Zify.zify_post_hook ::= Z.div_mod_to_equations.

(** ** Decimal *)

Lemma value_digits : forall d p, value_from 10 (Npos p) (NilEmpty.string_of_uint d) = Some (Npos (Pos.of_uint_acc d p)).
Proof.
  induction d as [|d IH|d IH|d IH|d IH|d IH|d IH|d IH|d IH|d IH|d IH]; intros p; cbn [NilEmpty.string_of_uint value_from Pos.of_uint_acc]; [reflexivity|..];
    match goal with |- context [digit_value ?a] => let v := eval vm_compute in (digit_value a) in change (digit_value a) with v end; cbv iota beta;
    match goal with |- context [?x <? 10] => change (x <? 10) with true end; cbv iota beta;
    match goal with |- value_from 10 ?a _ = Some (Npos (Pos.of_uint_acc _ ?q)) => replace a with (Npos q) by lia end; apply IH.
Qed.

Lemma value_dec0 : forall d, value_from 10 0 (NilEmpty.string_of_uint d) = Some (N.of_uint d).
Proof.
  induction d as [|d IH|d IH|d IH|d IH|d IH|d IH|d IH|d IH|d IH|d IH]; [reflexivity|exact IH|..]; apply (value_digits d).
Qed.

Lemma numeral_dec : forall n, numeral 10 (dec n) n.
Proof.
  intros n. unfold numeral, dec. rewrite value_dec0, DecimalN.Unsigned.of_to. split; [reflexivity|].
  assert (U : N.to_uint n = unorm (N.to_uint n)) by (rewrite <- DecimalN.Unsigned.to_of, DecimalN.Unsigned.of_to; reflexivity).
  rewrite U. unfold unorm. pose proof (nzhead_nonzero (N.to_uint n)) as Z. destruct (nzhead (N.to_uint n)) as [|d|d|d|d|d|d|d|d|d|d]; cbn [NilEmpty.string_of_uint];
    [intros _; reflexivity|exfalso; exact (Z d eq_refl)|intros E; discriminate E..].
Qed.

(** ** Hexadecimal *)

Lemma value_app : forall base s t acc, value_from base acc (s ++ t) = match value_from base acc s with Some n => value_from base n t | None => None end.
Proof.
  intros base s. induction s as [|a s IH]; intros t acc; cbn [append value_from]; [reflexivity|].
  destruct (digit_value a) as [d|]; [|reflexivity]. destruct (d <? base); [apply IH|reflexivity].
Qed.

Lemma hex_digit_value : forall d acc, d < 16 -> value_from 16 acc (hex_digit d) = Some (16 * acc + d).
Proof.
  intros d acc H. assert (d = 0 \/ d = 1 \/ d = 2 \/ d = 3 \/ d = 4 \/ d = 5 \/ d = 6 \/ d = 7 \/ d = 8 \/ d = 9 \/ d = 10 \/ d = 11 \/ d = 12 \/ d = 13 \/ d = 14 \/ d = 15) as C by lia.
  repeat destruct C as [->|C]; [..|rewrite C]; reflexivity.
Qed.
Lemma hex_digit_first : forall d, d < 16 -> exists a, hex_digit d = String a "" /\ (a = "0"%char -> d = 0).
Proof.
  intros d H. assert (d = 0 \/ d = 1 \/ d = 2 \/ d = 3 \/ d = 4 \/ d = 5 \/ d = 6 \/ d = 7 \/ d = 8 \/ d = 9 \/ d = 10 \/ d = 11 \/ d = 12 \/ d = 13 \/ d = 14 \/ d = 15) as C by lia.
  repeat destruct C as [->|C]; [..|rewrite C]; (eexists; split; [reflexivity|]; intros E; first [reflexivity|discriminate E]).
Qed.

Lemma hex_value : forall f n, n < 16 ^ N.of_nat (S f) -> value_from 16 0 (hex_fuel (S f) n) = Some n /\
  exists a s, hex_fuel (S f) n = String a s /\ (a = "0"%char -> n = 0 /\ s = ""%string).
Proof.
  induction f as [|f IH]; intros n H; cbn [hex_fuel]; destruct (N.ltb_spec n 16) as [L|G].
  - rewrite hex_digit_value by exact L. split; [f_equal; lia|]. destruct (hex_digit_first n L) as [a [E Z]]. exists a, ""%string. split; [exact E|]. intros A. split; [exact (Z A)|reflexivity].
  - change (16 ^ N.of_nat 1) with 16 in H. lia.
  - rewrite hex_digit_value by exact L. split; [f_equal; lia|]. destruct (hex_digit_first n L) as [a [E Z]]. exists a, ""%string. split; [exact E|]. intros A. split; [exact (Z A)|reflexivity].
  - assert (Hd : n / 16 < 16 ^ N.of_nat (S f)).
    { apply N.div_lt_upper_bound; [discriminate|]. rewrite <- N.pow_succ_r', <- Nat2N.inj_succ. exact H. }
    destruct (IH _ Hd) as [V [a [s [E Z]]]]. change (if n / 16 <? 16 then hex_digit (n / 16) else (hex_fuel f (n / 16 / 16) ++ hex_digit ((n / 16) mod 16))%string) with (hex_fuel (S f) (n / 16)).
    rewrite value_app, V, hex_digit_value by (apply N.mod_lt; discriminate). split; [f_equal; symmetry; rewrite N.mul_comm; rewrite N.mul_comm; apply N.div_mod; discriminate|].
    rewrite E. exists a, (s ++ hex_digit (n mod 16))%string. split; [reflexivity|]. intros A. destruct (Z A) as [Z1 _]. exfalso. lia.
Qed.

Lemma numeral_hex : forall z, numeral 16 (hex32 z) (as_unsigned 32 z).
Proof.
  intros z. unfold hex32. assert (H : as_unsigned 32 z < 16 ^ N.of_nat 8).
  { unfold as_unsigned. change (16 ^ N.of_nat 8) with 4294967296. change (2 ^ Z.of_N 32)%Z with 4294967296%Z. lia. }
  destruct (hex_value 7 _ H) as [V [a [s [E Z]]]]. split; [exact V|]. rewrite E. intros A. exact (proj2 (Z A)).
Qed.

(** ** Components *)

Lemma sapp : forall a b c : string, ((a ++ b) ++ c = a ++ (b ++ c))%string.
Proof. induction a as [|x a IH]; intros b c; [reflexivity|]. cbn [append]. rewrite IH. reflexivity. Qed.


Lemma mask_value : forall m n, (0 <= m)%Z -> as_unsigned 32 (as_signed 32 (as_unsigned 32 (m * 2 ^ Z.of_N n))) = Z.to_N m * 2 ^ n mod 2 ^ 32.
Proof.
  intros m n Hm. replace (Z.to_N m * 2 ^ n) with (Z.to_N (m * 2 ^ Z.of_N n)).
  2: { rewrite Z2N.inj_mul; [|exact Hm|apply Z.pow_nonneg; lia]. f_equal. rewrite <- (N2Z.id (2 ^ n)), N2Z.inj_pow. reflexivity. }
  assert (0 <= m * 2 ^ Z.of_N n)%Z by (apply Z.mul_nonneg_nonneg; [exact Hm|apply Z.pow_nonneg; lia]).
  generalize dependent (m * 2 ^ Z.of_N n)%Z. intros x Hx. unfold as_signed, as_unsigned. change (2 ^ (32 - 1)) with 2147483648.
  change (2 ^ 32) with 4294967296. change (2 ^ Z.of_N 32)%Z with 4294967296%Z. destruct (N.ltb_spec (Z.to_N (x mod 4294967296)) 2147483648); lia.
Qed.

Lemma chromaton_text : forall c, displayable c -> exists s, show_chromaton c = Ret s /\ component_text c s.
Proof.
  intros c H. unfold show_chromaton. destruct (ch_packed c) eqn:P.
  - destruct H as [H|[H1 H2]]; [congruence|]. rewrite ishl32_one by assumption. cbn [obind].
    assert (L : (2 ^ Z.of_N (depth c) < 2 ^ 31)%Z) by (apply Z.pow_lt_mono_r; lia).
    assert (Q : (0 < 2 ^ Z.of_N (depth c))%Z) by (apply Z.pow_pos_nonneg; lia).
    unfold isub32. destruct (Z.leb_spec (- 2 ^ 31) (2 ^ Z.of_N (depth c) - 1)); [|lia].
    destruct (Z.ltb_spec (2 ^ Z.of_N (depth c) - 1) (2 ^ 31)); [|lia]. cbn [andb obind].
    unfold ishl32. destruct (N.ltb_spec (shift c) 32); [|lia]. cbn [obind]. eexists. split; [reflexivity|].
    exists (dec (h_ss c)), (dec (v_ss c)), (dec (comp_offs c)), (dec (next_elem c)).
    split; [apply numeral_dec|]. split; [apply numeral_dec|]. split; [apply numeral_dec|]. split; [apply numeral_dec|]. rewrite P.
    eexists. split.
    + replace (2 ^ depth c - 1) with (Z.to_N (2 ^ Z.of_N (depth c) - 1)).
      * rewrite <- mask_value by lia. apply numeral_hex.
      * rewrite Z2N.inj_sub by lia. rewrite <- (N2Z.id (2 ^ depth c)), N2Z.inj_pow. reflexivity.
    + repeat (cbn [append]; rewrite sapp). reflexivity.
  - cbn [obind]. eexists. split; [reflexivity|].
    exists (dec (h_ss c)), (dec (v_ss c)), (dec (comp_offs c)), (dec (next_elem c)).
    split; [apply numeral_dec|]. split; [apply numeral_dec|]. split; [apply numeral_dec|]. split; [apply numeral_dec|]. rewrite P. repeat (cbn [append]; rewrite sapp). reflexivity.
Qed.

Lemma chromaton_panics : forall c, ~ displayable c -> show_chromaton c = Panic.
Proof.
  intros c H. unfold displayable in H. destruct (ch_packed c) eqn:P; [|exfalso; tauto].
  apply show_chromaton_panic. all: try exact P. lia.
Qed.

Lemma comps_text : forall l str, Forall displayable (flat_map (fun o => match o with Some c => [c] | None => [] end) l) ->
  exists texts, show_comps str l = Ret (str ++ spaced texts)%string /\
    Forall2 component_text (flat_map (fun o => match o with Some c => [c] | None => [] end) l) texts.
Proof.
  induction l as [|[c|] l IH]; intros str H; cbn [flat_map app show_comps] in *.
  - exists []. split; [|constructor]. cbn [spaced]. assert (E : forall s : string, (s ++ "" = s)%string) by (induction s as [|a s IH]; [reflexivity|cbn [append]; rewrite IH; reflexivity]). rewrite E. reflexivity.
  - inversion H as [|? ? H1 H2]; subst. destruct (chromaton_text c H1) as [s [-> T]]. cbn [obind].
    destruct (IH (str ++ " " ++ s)%string H2) as [texts [E F]]. exists (s :: texts). split; [|constructor; assumption].
    rewrite E. f_equal. cbn [spaced]. repeat (cbn [append]; rewrite sapp). reflexivity.
  - exact (IH str H).
Qed.

Lemma comps_panic : forall l str, ~ Forall displayable (flat_map (fun o => match o with Some c => [c] | None => [] end) l) -> show_comps str l = Panic.
Proof.
  induction l as [|[c|] l IH]; intros str H; cbn [flat_map app show_comps] in *.
  - exfalso. apply H. constructor.
  - assert (D : displayable c \/ ~ displayable c) by (unfold displayable; destruct (ch_packed c); lia). destruct D as [D|D].
    + destruct (chromaton_text c D) as [s [-> _]]. cbn [obind]. apply IH. intros F. apply H. constructor; assumption.
    + rewrite chromaton_panics by exact D. reflexivity.
  - exact (IH str H).
Qed.

Lemma model_text : forall m, show_model m = model_name m.
Proof. destruct m as [[|[[|]| |]|]| | |]; reflexivity. Qed.

Lemma formaton_text : forall f, (Forall displayable (present f) -> exists s, show_formaton f = Ret s /\ format_text f s) /\ (~ Forall displayable (present f) -> show_formaton f = Panic).
Proof.
  intros f. split; intros H; unfold show_formaton; cbv zeta.
  - destruct (comps_text (fo_comps f) ("Formaton for " ++ show_model (fo_model f) ++ " (" ++ (if fo_palette f then "palette " else "") ++ (if fo_alpha f then "alpha " else "") ++ "elem " ++ (if fo_be f then "BE" else "LE") ++ " size " ++ dec (fo_elem_size f) ++ "): ")%string H) as [texts [-> T]].
    cbn [obind]. eexists. split; [reflexivity|]. exists (dec (fo_elem_size f)), texts. split; [apply numeral_dec|]. split; [exact T|].
    rewrite model_text. repeat (cbn [append]; rewrite sapp). reflexivity.
  - rewrite comps_panic by exact H. reflexivity.
Qed.

Lemma soniton_text : forall f, sample_text f (show_soniton f).
Proof. intros f. exists (dec (so_bits f)). split; [apply numeral_dec|]. unfold show_soniton. destruct (so_be f), (so_packed f), (so_planar f), (so_float f), (so_signed f); reflexivity. Qed.

Lemma media_texts : forall k, media_text k (show_media k).
Proof.
  intros [v|a]; [exists (dec (vi_width v)), (dec (vi_height v))|exists (dec (ai_rate a)), (dec (map_len (ai_map a)))];
    (split; [apply numeral_dec|]; split; [apply numeral_dec|reflexivity]).
Qed.

Lemma names_all :
  (forall m, In (matrix_code m, show_matrix m) matrix_names) /\
  (forall p, In (primaries_code p, show_primaries p) primaries_names) /\
  (forall x, In (xfer_code x, show_xfer x) transfer_names) /\
  (forall c, nth_error channel_names (N.to_nat (channel_code c)) = Some (show_channel c)) /\
  (forall l, In (l, show_chroma_location l) location_names) /\
  (forall t, In (t, show_frame_type t) frame_names).
Proof.
  split; [|split; [|split; [|split; [|split]]]].
  - intros m; destruct m; cbn; tauto.
  - intros m; destruct m; cbn; tauto.
  - intros m; destruct m; cbn; tauto.
  - intros m; destruct m; reflexivity.
  - intros m; destruct m; cbn; tauto.
  - intros m; destruct m; cbn; tauto.
Qed.

Lemma error_texts : (forall e, codec_error_text e (show_codec_error e)) /\ (forall e, format_error_text e (show_error e)).
Proof.
  split.
  - intros [| | | |f]; reflexivity.
  - intros [|n|i]; try reflexivity. exists (dec (N.of_nat n)). split; [apply numeral_dec|reflexivity].
Qed.
