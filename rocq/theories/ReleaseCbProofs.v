(** Codebooks without overflow checks: agreement with the checked construction. *)
From Coq Require Import List Arith NArith ZArith Bool Lia Permutation.
From Coq Require Import ZifyBool ZifyNat ZifyN.
From Verif Require Import Base CodebookModel CodebookSpec ReleaseCbModel.
Import ListNotations.
Local Open Scope nat_scope.
Ltac Zify.zify_post_hook ::= Z.div_mod_to_equations.

Lemma rshl32_of a n x : shl32 a n = Ret x -> rshl32 a n = x.
Proof.
  unfold shl32, rshl32. destruct (Nat.ltb_spec n 32); intros E; [|discriminate E]. injection E as <-.
  rewrite (N.mod_small (N.of_nat n)) by lia. reflexivity.
Qed.
Lemma rshr32_of a n x : shr32 a n = Ret x -> rshr32 a n = x.
Proof.
  unfold shr32, rshr32. destruct (Nat.ltb_spec n 32); intros E; [|discriminate E]. injection E as <-.
  rewrite (N.mod_small (N.of_nat n)) by lia. reflexivity.
Qed.
Lemma radd32_of a b x : add32 a b = Ret x -> radd32 a b = x.
Proof.
  unfold add32, radd32. destruct (N.ltb_spec (a + b) W32); intros E; [|discriminate E]. injection E as <-. apply N.mod_small. assumption.
Qed.
Lemma shl32_lt a n x : shl32 a n = Ret x -> (x < W32)%N.
Proof. unfold shl32. destruct (n <? 32); intros E; [|discriminate E]. injection E as <-. apply N.mod_lt. discriminate. Qed.
Lemma rsub32_of a b x : (a < W32)%N -> sub32 a b = Ret x -> rsub32 a b = x.
Proof.
  unfold sub32, rsub32. intros Ha. destruct (N.leb_spec b a); intros E; [|discriminate E]. injection E as <-.
  rewrite (N.mod_small b) by lia. assert (W : (W32 = 4294967296)%N) by reflexivity. rewrite W in *. lia.
Qed.
Lemma rsub8_of a b x : a < 256 -> csub a b = Ret x -> rsub8 a b = x /\ x <= a.
Proof.
  unfold csub, rsub8. intros Ha. destruct (Nat.leb_spec b a); intros E; [|discriminate E]. injection E as <-.
  rewrite (Nat.mod_small b) by lia. split; [|lia]. lia.
Qed.

Lemma fill_loop_of off (idx : N -> outcome N) ridx v n : (forall j x, idx j = Ret x -> ridx j = x) ->
  forall table j t, fill_loop table off idx v j n = Ret t -> rc_fill_loop table off ridx v j n = Ret t.
Proof.
  intros H. induction n as [|n IH]; intros table j t E; cbn [fill_loop rc_fill_loop] in *; [exact E|].
  destruct (idx j) as [x| |] eqn:Ej; cbn [obind] in E; try discriminate E. rewrite (H j x Ej).
  destruct (store table (N.to_nat x + off) v) as [t'| |]; cbn [obind] in *; try discriminate E. exact (IH _ _ _ E).
Qed.

Lemma fill_lut_of table m off code bits lut_bits symidx esc t : lut_bits < 256 ->
  fill_lut table m off code bits lut_bits symidx esc = Ret t -> rc_fill_lut table m off code bits lut_bits symidx esc = Ret t.
Proof.
  intros Hl E. destruct m; cbn [fill_lut rc_fill_lut] in *; [unfold fill_lut_msb, rc_fill_lut_msb in *|unfold fill_lut_lsb, rc_fill_lut_lsb in *];
    (destruct esc; cbn [negb] in *; [exact E|]);
    (destruct (csub lut_bits bits) as [fl| |] eqn:E1; cbn [obind] in E; try discriminate E);
    (destruct (shl32 1 fl) as [fs| |] eqn:E2; cbn [obind] in E; try discriminate E);
    (destruct (rsub8_of _ _ _ Hl E1) as [-> Hfl]); rewrite (rshl32_of _ _ _ E2); cbv zeta in *.
  - destruct (shl32 code fl) as [fc| |] eqn:E3; cbn [obind] in E; try discriminate E. rewrite (rshl32_of _ _ _ E3).
    apply (fill_loop_of off (fun j => add32 fc j)); [|exact E]. intros j x Ej. exact (radd32_of _ _ _ Ej).
  - destruct (csub lut_bits fl) as [st| |] eqn:E3; cbn [obind] in E; try discriminate E. destruct (rsub8_of _ _ _ Hl E3) as [-> _].
    apply (fill_loop_of off (fun j => let! s := shl32 j st in add32 code s)); [|exact E]. intros j x Ej.
    destruct (shl32 j st) as [s| |] eqn:E4; cbn [obind] in Ej; try discriminate Ej. rewrite (rshl32_of _ _ _ E4). exact (radd32_of _ _ _ Ej).
Qed.

Lemma resize_of table bits x : resize_table table bits = Ret x -> rc_resize_table table bits = x.
Proof.
  unfold resize_table, rc_resize_table. destruct (shl32 1 bits) as [s| |] eqn:E1; intros E; cbn [obind] in E; try discriminate E.
  rewrite (rshl32_of _ _ _ E1). injection E as <-. reflexivity.
Qed.

Lemma lut_part_of code bits lut m x : bits < 256 -> extract_lut_part code bits lut m = Ret x -> rc_lut_part code bits lut m = x.
Proof.
  intros Hb E. destruct m; cbn [extract_lut_part rc_lut_part] in *.
  - destruct (csub bits lut) as [d| |] eqn:E1; cbn [obind] in E; try discriminate E. destruct (rsub8_of _ _ _ Hb E1) as [-> _].
    exact (rshr32_of _ _ _ E).
  - destruct (shl32 1 lut) as [o| |] eqn:E1; cbn [obind] in E; try discriminate E. rewrite (rshl32_of _ _ _ E1).
    destruct (sub32 o 1) as [k| |] eqn:E2; cbn [obind] in E; try discriminate E.
    rewrite (rsub32_of _ _ _ (shl32_lt _ _ _ E1) E2). injection E as <-. reflexivity.
Qed.

Lemma esc_part_of code bits lut m x : bits < 256 -> extract_esc_part code bits lut m = Ret x -> rc_esc_part code bits lut m = x.
Proof.
  intros Hb E. destruct m; cbn [extract_esc_part rc_esc_part] in *.
  - destruct (csub bits lut) as [d| |] eqn:E1; cbn [obind] in E; try discriminate E. destruct (rsub8_of _ _ _ Hb E1) as [-> _].
    destruct (shl32 1 d) as [o| |] eqn:E2; cbn [obind] in E; try discriminate E. rewrite (rshl32_of _ _ _ E2).
    destruct (sub32 o 1) as [k| |] eqn:E3; cbn [obind] in E; try discriminate E.
    rewrite (rsub32_of _ _ _ (shl32_lt _ _ _ E2) E3). injection E as <-. reflexivity.
  - exact (rshr32_of _ _ _ E).
Qed.

(** All code lengths in the map are [u8]. *)
Definition small_bucket (b : bucket) : Prop := b_maxlen b < 256 /\ Forall (fun c => c_bits c < 256) (b_codes b).
Definition small_map (cc : escape_codes) : Prop := Forall (fun kb => small_bucket (snd kb)) cc.

Lemma add_code_small b c : small_bucket b -> c_bits c < 256 -> small_bucket (add_code b c).
Proof.
  intros [H1 H2] Hc. split; cbn [add_code b_maxlen b_codes].
  - destruct (b_maxlen b <? c_bits c); assumption.
  - apply Forall_app. split; [exact H2|]. constructor; [exact Hc|constructor].
Qed.
Lemma add_esc_small cc key c : small_map cc -> c_bits c < 256 -> small_map (add_esc_code cc key c).
Proof.
  intros H Hc. induction H as [|[k b] cc Hb H IH]; cbn [add_esc_code].
  - constructor; [|constructor]. apply add_code_small; [|exact Hc]. split; [cbn; lia|constructor].
  - destruct (k =? key)%N; constructor; [apply add_code_small; assumption|exact H|exact Hb|exact IH].
Qed.

Lemma long_of cc m c cc' : small_map cc -> c_bits c < 256 -> add_long_code cc m c = Ret cc' ->
  rc_add_long_code cc m c = cc' /\ small_map cc'.
Proof.
  intros Hcc Hc E. unfold add_long_code in E. unfold rc_add_long_code.
  destruct (extract_lut_part _ _ _ _) as [k| |] eqn:E1; cbn [obind] in E; try discriminate E.
  destruct (extract_esc_part _ _ _ _) as [v| |] eqn:E2; cbn [obind] in E; try discriminate E.
  destruct (csub _ _) as [r| |] eqn:E3; cbn [obind] in E; try discriminate E.
  rewrite (lut_part_of _ _ _ _ _ Hc E1), (esc_part_of _ _ _ _ _ Hc E2). destruct (rsub8_of _ _ _ Hc E3) as [-> Hr].
  injection E as <-. split; [reflexivity|]. apply add_esc_small; [exact Hcc|cbn [c_bits]; lia].
Qed.

Lemma pass1_of m off maxlen codes : maxlen < 256 -> Forall (fun c => c_bits c < 256) codes ->
  forall table cc x, small_map cc -> esc_pass1 table m off maxlen codes cc = Ret x ->
  rc_esc_pass1 table m off maxlen codes cc = Ret x /\ small_map (snd x).
Proof.
  intros Hm Hc. induction Hc as [|c codes Hc Hcs IH]; intros table cc x Hcc E; cbn [esc_pass1 rc_esc_pass1] in *.
  - injection E as <-. split; [reflexivity|exact Hcc].
  - destruct (c_bits c <=? MAX_LUT_BITS).
    + destruct (fill_lut _ _ _ _ _ _ _ _) as [t'| |] eqn:E1; cbn [obind] in E; try discriminate E.
      rewrite (fill_lut_of _ _ _ _ _ _ _ _ _ Hm E1). cbn [obind]. exact (IH _ _ _ Hcc E).
    + destruct (add_long_code cc m c) as [cc'| |] eqn:E1; cbn [obind] in E; try discriminate E.
      destruct (long_of _ _ _ _ Hcc Hc E1) as [-> Hcc']. exact (IH _ _ _ Hcc' E).
Qed.

Lemma ten_small : MAX_LUT_BITS < 256.
Proof. unfold MAX_LUT_BITS. lia. Qed.
Lemma min_small n : Nat.min n MAX_LUT_BITS < 256.
Proof. unfold MAX_LUT_BITS. lia. Qed.

Lemma alloc_of table m off key b x : small_bucket b -> alloc_bucket table m off key b = Ret x ->
  rc_alloc_bucket table m off key b = Ret x /\ small_bucket (snd x).
Proof.
  intros Hb E. unfold alloc_bucket in E. unfold rc_alloc_bucket.
  destruct (resize_table table _) as [[t1 o]| |] eqn:E1; cbn [obind] in E; try discriminate E. rewrite (resize_of _ _ _ E1).
  destruct (fill_lut _ _ _ _ _ _ _ _) as [t2| |] eqn:E2; cbn [obind] in E; try discriminate E.
  rewrite (fill_lut_of _ _ _ _ _ _ _ _ _ ten_small E2). cbn [obind]. injection E as <-. split; [reflexivity|exact Hb].
Qed.

Lemma pass2_of m off cc : small_map cc -> forall table x, esc_pass2 table m off cc = Ret x ->
  rc_esc_pass2 table m off cc = Ret x /\ small_map (snd x).
Proof.
  intros H. induction H as [|[k b] cc Hb H IH]; intros table x E; cbn [esc_pass2 rc_esc_pass2 snd] in *.
  - injection E as <-. split; [reflexivity|constructor].
  - destruct (alloc_bucket _ _ _ _ _) as [[t1 b']| |] eqn:E1; cbn [obind] in E; try discriminate E.
    destruct (alloc_of _ _ _ _ _ _ Hb E1) as [-> Hb']. cbn [obind].
    destruct (esc_pass2 t1 m off cc) as [[t2 cc'']| |] eqn:E2; cbn [obind] in E; try discriminate E.
    destruct (IH _ _ E2) as [-> Hcc]. cbn [obind]. injection E as <-. split; [reflexivity|]. constructor; [exact Hb'|exact Hcc].
Qed.

Lemma build_all_of (f g : list N -> N -> bucket -> outcome (list N)) :
  (forall t k b t', small_bucket b -> f t k b = Ret t' -> g t k b = Ret t') ->
  forall cc, small_map cc -> forall t t', build_all f t cc = Ret t' -> build_all g t cc = Ret t'.
Proof.
  intros H cc Hcc. induction Hcc as [|[k b] cc Hb Hcc IH]; intros t t' E; cbn [build_all snd] in *; [exact E|].
  destruct (f t k b) as [t1| |] eqn:E1; cbn [obind] in E; try discriminate E. rewrite (H _ _ _ _ Hb E1). cbn [obind]. exact (IH _ _ E).
Qed.

Lemma build_of ord m fuel : permuting ord -> forall path table b t, small_bucket b ->
  build_esc_lut fuel ord path table m b = Ret t -> rc_build_esc_lut fuel ord path table m b = Ret t.
Proof.
  intros Hord. induction fuel as [|fuel IH]; intros path table b t Hb E; cbn [build_esc_lut rc_build_esc_lut] in *; [discriminate E|].
  destruct (esc_pass1 _ _ _ _ _ _) as [[t1 cc]| |] eqn:E1; cbn [obind] in E; try discriminate E.
  destruct (pass1_of _ _ _ _ (min_small (b_maxlen b)) (proj2 Hb) _ _ _ (Forall_nil _) E1) as [-> Hcc]. cbn [obind snd] in *.
  destruct (esc_pass2 _ _ _ _) as [[t2 cc2]| |] eqn:E2; cbn [obind] in E; try discriminate E.
  assert (Hcc' : small_map (ord path cc)) by (eapply Permutation_Forall; [apply Hord|exact Hcc]).
  destruct (pass2_of _ _ _ Hcc' _ _ E2) as [-> Hcc2]. cbn [obind snd] in *.
  refine (build_all_of _ _ _ _ Hcc2 _ _ E). intros t0 k b0 t' Hb0 E0. exact (IH _ _ _ _ Hb0 E0).
Qed.

Lemma new_pass1_of {S : Type} m (ds : list (desc S)) : Forall (fun d => d_bits d < 256) ds ->
  forall maxbits symidx cc x, small_map cc -> new_pass1 m ds maxbits symidx cc = Ret x ->
  rc_new_pass1 m ds maxbits symidx cc = x /\ small_map (snd x).
Proof.
  intros H. induction H as [|d ds Hd H IH]; intros maxbits symidx cc x Hcc E; cbn [new_pass1 rc_new_pass1] in *.
  - injection E as <-. split; [reflexivity|exact Hcc].
  - destruct (MAX_LUT_BITS <? d_bits d).
    + destruct (add_long_code _ _ _) as [cc'| |] eqn:E1; cbn [obind] in E; try discriminate E.
      destruct (long_of _ _ (mk_code (d_code d) (d_bits d) symidx) _ Hcc Hd E1) as [-> Hcc']. exact (IH _ _ _ _ Hcc' E).
    + cbn [obind] in E. exact (IH _ _ _ _ Hcc E).
Qed.

Lemma find_small cc key b : small_map cc -> find_bucket cc key = Some b -> small_bucket b.
Proof.
  intros H. induction H as [|[k b0] cc Hb H IH]; cbn [find_bucket]; intros E; cbn [snd] in *; [discriminate E|].
  destruct (k =? key)%N; [injection E as <-; exact Hb|exact (IH E)].
Qed.
Lemma set_small cc key b : small_map cc -> small_bucket b -> small_map (set_bucket cc key b).
Proof.
  intros H Hb. induction H as [|[k b0] cc Hb0 H IH]; cbn [set_bucket]; [constructor|].
  destruct (k =? key)%N; constructor; assumption.
Qed.

Lemma new_pass2_of {S : Type} m maxbits (ds : list (desc S)) : maxbits < 256 -> Forall (fun d => d_bits d < 256) ds ->
  forall table symidx cc x, small_map cc -> new_pass2 table m maxbits ds symidx cc = Ret x ->
  rc_new_pass2 table m maxbits ds symidx cc = Ret x /\ small_map (snd x).
Proof.
  intros Hm H. induction H as [|d ds Hd H IH]; intros table symidx cc x Hcc E; cbn [new_pass2 rc_new_pass2] in *.
  - injection E as <-. split; [reflexivity|exact Hcc].
  - destruct (d_bits d =? 0); [exact (IH _ _ _ _ Hcc E)|].
    assert (G : forall (o r : outcome (list N * escape_codes)),
      (forall y, o = Ret y -> r = Ret y /\ small_map (snd y)) ->
      obind o (fun '(t, c) => let! s := add32 symidx 1 in new_pass2 t m maxbits ds s c) = Ret x ->
      obind r (fun '(t, c) => rc_new_pass2 t m maxbits ds (radd32 symidx 1) c) = Ret x /\ small_map (snd x)).
    { intros o r Ho Eo. destruct o as [[t c]| |]; cbn [obind] in Eo; try discriminate Eo.
      destruct (Ho _ eq_refl) as [-> Hc]. cbn [obind snd] in *.
      destruct (add32 symidx 1) as [s| |] eqn:Es; cbn [obind] in Eo; try discriminate Eo. rewrite (radd32_of _ _ _ Es). exact (IH _ _ _ _ Hc Eo). }
    revert E. apply G. clear G. intros y Ey. destruct (d_bits d <=? MAX_LUT_BITS).
    + destruct (fill_lut _ _ _ _ _ _ _ _) as [t'| |] eqn:E1; cbn [obind] in Ey; try discriminate Ey.
      rewrite (fill_lut_of _ _ _ _ _ _ _ _ _ Hm E1). cbn [obind]. injection Ey as <-. split; [reflexivity|exact Hcc].
    + destruct (extract_lut_part _ _ _ _) as [k| |] eqn:E1; cbn [obind] in Ey; try discriminate Ey.
      rewrite (lut_part_of _ _ _ _ _ Hd E1). destruct (index_at table (N.to_nat k)) as [v| |]; cbn [obind] in *; try discriminate Ey.
      destruct (v =? TABLE_FILL_VALUE)%N; [|injection Ey as <-; split; [reflexivity|exact Hcc]].
      destruct (find_bucket cc k) as [b|] eqn:Eb; [|injection Ey as <-; split; [reflexivity|exact Hcc]].
      destruct (alloc_bucket _ _ _ _ _) as [[t' b']| |] eqn:E2; cbn [obind] in Ey; try discriminate Ey.
      destruct (alloc_of _ _ _ _ _ _ (find_small _ _ _ Hcc Eb) E2) as [-> Hb']. cbn [obind]. injection Ey as <-.
      split; [reflexivity|]. apply set_small; [exact Hcc|exact Hb'].
Qed.

Lemma release_construction : forall (S : Type) ord m (ds : list (desc S)) x, permuting ord -> Forall (fun d => d_bits d < 256) ds ->
  new_codebook ord ds m = Ret x -> rc_new_codebook ord ds m = Ret x.
Proof.
  intros S ord m ds x Hord Hds E. unfold new_codebook in E. unfold rc_new_codebook. set (fuel := 26) in E |- *. clearbody fuel.
  destruct (new_pass1 m ds 0 0 []) as [[mb cc]| |] eqn:E1; cbn [obind] in E; try discriminate E.
  destruct (new_pass1_of m ds Hds _ _ _ _ (Forall_nil _) E1) as [-> Hcc]. cbn [snd] in Hcc.
  destruct (mb =? 0); [exact E|]. cbv zeta in *. set (mb' := if MAX_LUT_BITS <? mb then MAX_LUT_BITS else mb) in *.
  assert (Hmb : mb' < 256) by (unfold mb'; destruct (Nat.ltb_spec MAX_LUT_BITS mb); unfold MAX_LUT_BITS in *; lia).
  destruct (shl32 1 mb') as [tl| |] eqn:E2; cbn [obind] in E; try discriminate E. rewrite (rshl32_of _ _ _ E2).
  destruct (new_pass2 _ _ _ _ _ _) as [[t cc']| |] eqn:E3; cbn [obind] in E; try discriminate E.
  destruct (new_pass2_of _ _ _ Hmb Hds _ _ _ _ Hcc E3) as [-> Hcc']. cbn [obind snd] in *.
  destruct (build_all _ _ _) as [t'| |] eqn:E4; cbn [obind] in E; try discriminate E.
  rewrite (build_all_of _ (fun t key b => rc_build_esc_lut fuel ord [key] t m b)
    ltac:(intros t0 k b t0' Hb Eb; exact (build_of ord m fuel Hord _ _ _ _ Hb Eb)) _ ltac:(eapply Permutation_Forall; [apply Hord|exact Hcc']) _ _ E4).
  cbn [obind]. exact E.
Qed.

(** ** Codes of 42 and more bits *)

Lemma long_code_panics {S : Type} ord (ds : list (desc S)) d : In d ds -> 42 <= d_bits d -> new_codebook ord ds MSB = Panic.
Proof.
  intros Hin Hd. unfold new_codebook. assert (G : forall ds maxbits symidx cc, In d ds -> new_pass1 MSB ds maxbits symidx cc = Panic \/ new_pass1 MSB ds maxbits symidx cc = UB).
  { clear ds Hin. induction ds as [|d0 ds IH]; intros maxbits symidx cc Hin; [destruct Hin|]. cbn [new_pass1].
    destruct (MAX_LUT_BITS <? d_bits d0) eqn:L.
    - destruct (add_long_code cc MSB _) as [cc'| |] eqn:E1; cbn [obind]; [|left; reflexivity|right; reflexivity].
      destruct Hin as [->|Hin]; [|apply IH; exact Hin]. exfalso. unfold add_long_code in E1. cbn [extract_lut_part c_bits c_code] in E1.
      unfold csub in E1. destruct (Nat.leb_spec MAX_LUT_BITS (d_bits d)); [|unfold MAX_LUT_BITS in *; lia]. cbn [obind] in E1. unfold shr32 in E1.
      destruct (Nat.ltb_spec (d_bits d - MAX_LUT_BITS) 32); [unfold MAX_LUT_BITS in *; lia|discriminate E1].
    - cbn [obind]. destruct Hin as [->|Hin]; [apply Nat.ltb_ge in L; unfold MAX_LUT_BITS in L; lia|apply IH; exact Hin]. }
  assert (NoUB : forall ds maxbits symidx cc, new_pass1 (S := S) MSB ds maxbits symidx cc <> UB).
  { clear. induction ds as [|d ds IH]; intros maxbits symidx cc; cbn [new_pass1]; [discriminate|].
    destruct (MAX_LUT_BITS <? d_bits d); [|cbn [obind]; apply IH]. unfold add_long_code, extract_lut_part, extract_esc_part, shr32, shl32, sub32, csub.
    repeat (match goal with |- context [if ?c then _ else _] => destruct c end; cbn [obind]; try discriminate); apply IH. }
  destruct (G ds 0 0 [] Hin) as [->|E]; [reflexivity|destruct (NoUB _ _ _ _ E)].
Qed.
