(** The bit reader without overflow checks. *)
From Coq Require Import List Arith NArith ZArith Bool Lia.
From Coq Require Import ZifyBool ZifyNat ZifyN.
From Verif Require Import Base ByteModel BitModel BitSpec BitQueueSpec BitQueueProofs WordBitModel WordSpec WordBitProofs
  ReleaseModel ReleaseBitModel ReleaseBitSpec.
Import ListNotations.
Local Open Scope N_scope.
Ltac Zify.zify_post_hook ::= Z.div_mod_to_equations.

Lemma radd_of : forall a b c, uadd a b = Ret c -> radd a b = c.
Proof. intros a b c. unfold uadd, radd. rewrite W64_eq. destruct (N.ltb_spec (a + b) 18446744073709551616); intros E; [|discriminate E]. injection E as <-. apply N.mod_small. assumption. Qed.
Lemma rmul_of : forall a b c, umul a b = Ret c -> rmul a b = c.
Proof. intros a b c. unfold umul, rmul. rewrite W64_eq. destruct (N.ltb_spec (a * b) 18446744073709551616); intros E; [|discriminate E]. injection E as <-. apply N.mod_small. assumption. Qed.
Lemma rsub_of : forall a b c, a < W64 -> usub a b = Ret c -> rsub a b = c.
Proof.
  intros a b c. unfold usub, rsub. rewrite W64_eq. intros Ha. destruct (N.leb_spec b a); intros E; [|discriminate E]. injection E as <-.
  lia.
Qed.
Lemma rshl_of : forall a n c, ushl a n = Ret c -> rshl a n = c.
Proof.
  intros a n c. unfold ushl, rshl. destruct (N.ltb_spec n 64) as [H|H]; intros E; [|discriminate E]. injection E as <-.
  rewrite (N.mod_small n 64) by exact H. reflexivity.
Qed.

Ltac checked E :=
  match type of E with
  | (let! _ := uadd ?a ?b in _) = _ => let c := fresh "c" in let X := fresh "X" in destruct (uadd a b) as [c| |] eqn:X; cbn [obind] in E; try discriminate E; apply radd_of in X
  | (let! _ := umul ?a ?b in _) = _ => let c := fresh "c" in let X := fresh "X" in destruct (umul a b) as [c| |] eqn:X; cbn [obind] in E; try discriminate E
  | (let! _ := usub ?a ?b in _) = _ => let c := fresh "c" in let X := fresh "X" in destruct (usub a b) as [c| |] eqn:X; cbn [obind] in E; try discriminate E
  | (let! _ := ushl ?a ?b in _) = _ => let c := fresh "c" in let X := fresh "X" in destruct (ushl a b) as [c| |] eqn:X; cbn [obind] in E; try discriminate E; apply rshl_of in X
  end.

Lemma usub_le : forall a b c, usub a b = Ret c -> c <= a.
Proof. intros a b c. unfold usub. destruct (b <=? a); intros E; [|discriminate E]. injection E as <-. lia. Qed.
Lemma umul_lt : forall a b c, umul a b = Ret c -> c < W64.
Proof. intros a b c. unfold umul. destruct (N.ltb_spec (a * b) W64); intros E; [|discriminate E]. injection E as <-. assumption. Qed.

Lemma peek_release : forall e r n v, w_peek_val e r n = Ret v -> rb_peek_val e r n = v.
Proof.
  intros [] r n v; unfold w_peek_val, rb_peek_val; intros E; [injection E as <-; reflexivity|].
  destruct (N.leb_spec (w_as_u32 n) 64); [|discriminate E]. assert (checked_shr0 (w_cache r) (64 - w_as_u32 n) = v) as <- by congruence. f_equal. generalize dependent (w_as_u32 n). intros m Hm. rewrite W32_eq.
  lia.
Qed.
Lemma val_release : forall e r n x, w_get_val e r n = Ret x -> rb_get_val e r n = x.
Proof.
  intros e r n x E. unfold w_get_val in E. destruct (w_peek_val e r n) as [v| |] eqn:P; cbn [obind] in E; try discriminate E.
  injection E as <-. unfold rb_get_val. rewrite (peek_release _ _ _ _ P). reflexivity.
Qed.
Lemma merge_release : forall e a b m l v, w_merge_val e a b m l = Ret v -> rb_merge_val e a b m l = v.
Proof.
  intros [] a b m l v; unfold w_merge_val, rb_merge_val; intros E; [checked E|]; injection E as <-; [rewrite X|]; reflexivity.
Qed.
Lemma build_release : forall e c v l x, w_build_cache e c v l = Ret x -> rb_build_cache e c v l = x.
Proof.
  intros [] c v l x; unfold w_build_cache, rb_build_cache; intros E.
  - checked E. injection E as <-. rewrite X. reflexivity.
  - checked E. apply rsub_of in X; [|reflexivity]. rewrite X. checked E. injection E as <-. rewrite X0. reflexivity.
Qed.
Lemma can_release : forall r b, w_can_refill r = Ret b -> rb_can_refill r = b.
Proof. intros r b E. unfold w_can_refill in E. checked E. injection E as <-. unfold rb_can_refill. rewrite X. reflexivity. Qed.
Lemma refill64_release : forall e r r', w_refill64 e r = Ret r' -> rb_refill64 e r = Ret r'.
Proof.
  intros e r r' E. unfold w_refill64 in E. destruct (w_can_refill r) as [b| |] eqn:C; cbn [obind] in E; try discriminate E.
  unfold rb_refill64. rewrite (can_release _ _ C). destruct (negb b); [exact E|].
  destruct (w_fill64 e r) as [v| |]; cbn [obind] in *; try discriminate E. checked E. injection E as <-. rewrite X. reflexivity.
Qed.
Lemma refill32_release : forall e r r', w_refill32 e r = Ret r' -> rb_refill32 e r = Ret r'.
Proof.
  intros e r r' E. unfold w_refill32 in E. destruct (w_can_refill r) as [b| |] eqn:C; cbn [obind] in E; try discriminate E.
  unfold rb_refill32. rewrite (can_release _ _ C). destruct (negb b); [exact E|].
  destruct (w_fill32 e r) as [v| |]; cbn [obind] in *; try discriminate E.
  destruct (w_build_cache e (w_cache r) v (w_left r)) as [c| |] eqn:B; cbn [obind] in E; try discriminate E.
  rewrite (build_release _ _ _ _ _ B). checked E. checked E. injection E as <-. rewrite X, X0. reflexivity.
Qed.
Lemma skip_release : forall e r n r', n < W64 -> w_skip_bits e r n = Ret r' -> rb_skip_bits e r n = Ret r'.
Proof.
  intros e r n r' Hn E. unfold w_skip_bits in E. unfold rb_skip_bits. destruct (w_left r <? n); [|exact E].
  checked E. pose proof (usub_le _ _ _ X) as Lc. apply rsub_of in X; [|exact Hn]. rewrite X.
  destruct (64 <? c).
  - cbv zeta in E. destruct (umul (c / 8) 8) as [bits| |] eqn:M; cbn [obind] in E; try discriminate E.
    destruct (usub c bits) as [n2| |] eqn:S2; cbn [obind] in E; try discriminate E.
    destruct (uadd (w_index r) (c / 8)) as [i| |] eqn:A2; cbn [obind] in E; try discriminate E.
    apply rmul_of in M. apply rsub_of in S2; [|lia]. apply radd_of in A2. cbv zeta. rewrite M, S2, A2.
    destruct (w_refill64 e _) as [r3| |] eqn:F; cbn [obind] in E; try discriminate E.
    rewrite (refill64_release _ _ _ F). exact E.
  - cbn [obind] in E. cbv zeta in E |- *.
    destruct (w_refill64 e _) as [r3| |] eqn:F; cbn [obind] in E; try discriminate E.
    rewrite (refill64_release _ _ _ F). exact E.
Qed.
Lemma bit_release : forall e r x, w_get_bit e r = Ret x -> rb_get_bit e r = Ret x.
Proof.
  intros e r x E. unfold w_get_bit in E. unfold rb_get_bit.
  destruct (if w_left r =? 0 then w_refill64 e r else Ret r) as [r1| |] eqn:F; cbn [obind] in E; try discriminate E.
  assert (F' : (if w_left r =? 0 then rb_refill64 e r else Ret r) = Ret r1) by (destruct (w_left r =? 0); [apply refill64_release|]; exact F).
  rewrite F'. cbn [obind]. destruct (w_get_val e r1 1) as [[r2 v]| |] eqn:G; cbn [obind] in E; try discriminate E.
  rewrite (val_release _ _ _ _ G). exact E.
Qed.
Lemma get32_release : forall e r n x, w_get_bits_32 e r n = Ret x -> rb_get_bits_32 e r n = Ret x.
Proof.
  intros e r n x E. unfold w_get_bits_32 in E. unfold rb_get_bits_32. destruct (n =? 0); [exact E|].
  destruct (if w_left r <=? n then w_refill32 e r else Ret r) as [r1| |] eqn:F; cbn [obind] in E; try discriminate E.
  assert (F' : (if w_left r <=? n then rb_refill32 e r else Ret r) = Ret r1) by (destruct (w_left r <=? n); [apply refill32_release|]; exact F).
  rewrite F'. cbn [obind]. destruct (w_get_val e r1 n) as [[r2 v]| |] eqn:G; cbn [obind] in E; try discriminate E.
  rewrite (val_release _ _ _ _ G). exact E.
Qed.
Lemma get64_release : forall e r n x, n < W64 -> w_get_bits_64 e r n = Ret x -> rb_get_bits_64 e r n = Ret x.
Proof.
  intros e r n x Hn E. unfold w_get_bits_64 in E. unfold rb_get_bits_64. destruct (n =? 0); [exact E|]. destruct (w_left r <? n).
  - checked E. apply rsub_of in X; [|exact Hn]. rewrite X. cbv zeta in E |- *.
    destruct (w_get_val e r (w_left r)) as [[r1 a]| |] eqn:G1; cbn [obind] in E; try discriminate E.
    rewrite (val_release _ _ _ _ G1). destruct (w_refill64 e r1) as [r2| |] eqn:F; cbn [obind] in E; try discriminate E.
    rewrite (refill64_release _ _ _ F). cbn [obind]. destruct (w_get_val e r2 c) as [[r3 v]| |] eqn:G2; cbn [obind] in E; try discriminate E.
    rewrite (val_release _ _ _ _ G2). destruct (w_merge_val e v a (w_left r) c) as [m| |] eqn:M; cbn [obind] in E; try discriminate E.
    rewrite (merge_release _ _ _ _ _ _ M). exact E.
  - destruct (w_get_val e r n) as [[r1 v]| |] eqn:G1; cbn [obind] in E; try discriminate E.
    rewrite (val_release _ _ _ _ G1). destruct (w_merge_val e v 0 0 n) as [m| |] eqn:M; cbn [obind] in E; try discriminate E.
    rewrite (merge_release _ _ _ _ _ _ M). exact E.
Qed.

Lemma op_release : forall e r op x, w_len r < W64 -> arg_fits op -> w_run_op e r op = Ret x -> rb_run_op e r op = Ret x.
Proof.
  intros e r op x Hl Ha E. destruct op as [|n|n| |n|n|n| | |]; cbn [w_run_op rb_run_op arg_fits] in *.
  - destruct (w_get_bit e r) as [y| |] eqn:G; cbn [obind] in E; try discriminate E. rewrite (bit_release _ _ _ G). exact E.
  - destruct (w_get_bits_32 e r (N.of_nat n)) as [y| |] eqn:G; cbn [obind] in E; try discriminate E. rewrite (get32_release _ _ _ _ G). exact E.
  - destruct (w_get_bits_64 e r (N.of_nat n)) as [y| |] eqn:G; cbn [obind] in E; try discriminate E. rewrite (get64_release _ _ _ _ Ha G). exact E.
  - destruct (w_get_bit e r) as [y| |] eqn:G; cbn [obind] in E; try discriminate E. rewrite (bit_release _ _ _ G). exact E.
  - destruct (w_get_bits_32 e r (N.of_nat n)) as [y| |] eqn:G; cbn [obind] in E; try discriminate E. rewrite (get32_release _ _ _ _ G). exact E.
  - destruct (w_get_bits_64 e r (N.of_nat n)) as [y| |] eqn:G; cbn [obind] in E; try discriminate E. rewrite (get64_release _ _ _ _ Ha G). exact E.
  - destruct (w_skip_bits e r (N.of_nat n)) as [y| |] eqn:G; cbn [obind] in E; try discriminate E. rewrite (skip_release _ _ _ _ Ha G). exact E.
  - unfold w_align_bits, rb_align_bits in *. destruct (w_skip_bits e r (N.land (w_left r) 7)) as [y| |] eqn:G; cbn [obind] in E; try discriminate E.
    rewrite (skip_release e r _ y); [exact E| |exact G]. change 7 with (N.ones 3). rewrite N.land_ones. pose proof (N.mod_lt (w_left r) (2 ^ 3)).
    change W64 with (2 ^ 64). change (2 ^ 3) with 8 in *. apply N.lt_trans with 8; [apply N.mod_lt; discriminate|reflexivity].
  - unfold w_consumed in E. unfold rb_consumed. destruct (umul (w_index r) 8) as [b| |] eqn:M; cbn [obind] in E; try discriminate E.
    destruct (usub b (w_left r)) as [c| |] eqn:S; cbn [obind] in E; try discriminate E. injection E as <-.
    pose proof (umul_lt _ _ _ M). apply rmul_of in M. rewrite M. apply rsub_of in S; [|assumption]. rewrite S. reflexivity.
  - unfold w_available in E. unfold rb_available. destruct (usub (w_len r) (w_index r)) as [d| |] eqn:S; cbn [obind] in E; try discriminate E.
    destruct (umul d 8) as [b| |] eqn:M; cbn [obind] in E; try discriminate E.
    destruct (uadd b (w_left r)) as [c| |] eqn:A; cbn [obind] in E; try discriminate E. injection E as <-.
    apply rsub_of in S; [|exact Hl]. rewrite S. apply rmul_of in M. rewrite M. apply radd_of in A. rewrite A. reflexivity.
Qed.

(** ** Whole runs *)

Lemma skip_rem_buffer : forall e r n, w_buffer (w_skip_rem e r n) = w_buffer r.
Proof. intros []; reflexivity. Qed.
Lemma val_buffer : forall e r n r' v, w_get_val e r n = Ret (r', v) -> w_buffer r' = w_buffer r.
Proof.
  intros e r n r' v E. unfold w_get_val in E. destruct (w_peek_val e r n); cbn [obind] in E; try discriminate E. injection E as <- _. apply skip_rem_buffer.
Qed.
Lemma refill64_buffer : forall e r r', w_refill64 e r = Ret r' -> w_buffer r' = w_buffer r.
Proof.
  intros e r r' E. unfold w_refill64 in E. destruct (w_can_refill r) as [b| |]; cbn [obind] in E; try discriminate E.
  destruct (negb b); [injection E as <-; reflexivity|]. destruct (w_fill64 e r); cbn [obind] in E; try discriminate E. checked E. injection E as <-. reflexivity.
Qed.
Lemma refill32_buffer : forall e r r', w_refill32 e r = Ret r' -> w_buffer r' = w_buffer r.
Proof.
  intros e r r' E. unfold w_refill32 in E. destruct (w_can_refill r) as [b| |]; cbn [obind] in E; try discriminate E.
  destruct (negb b); [injection E as <-; reflexivity|]. destruct (w_fill32 e r); cbn [obind] in E; try discriminate E.
  destruct (w_build_cache e (w_cache r) _ (w_left r)); cbn [obind] in E; try discriminate E. checked E. checked E. injection E as <-. reflexivity.
Qed.
Lemma skip_buffer : forall e r n r', w_skip_bits e r n = Ret r' -> w_buffer r' = w_buffer r.
Proof.
  intros e r n r' E. unfold w_skip_bits in E. destruct (w_left r <? n); [|injection E as <-; apply skip_rem_buffer].
  checked E. destruct (64 <? c).
  - cbv zeta in E. destruct (umul (c / 8) 8); cbn [obind] in E; try discriminate E.
    destruct (usub c _); cbn [obind] in E; try discriminate E. destruct (uadd (w_index r) (c / 8)); cbn [obind] in E; try discriminate E.
    destruct (w_refill64 e _) as [r3| |] eqn:F; cbn [obind] in E; try discriminate E. injection E as <-. rewrite skip_rem_buffer, (refill64_buffer _ _ _ F), skip_rem_buffer. reflexivity.
  - cbn [obind] in E. cbv zeta in E. destruct (w_refill64 e _) as [r3| |] eqn:F; cbn [obind] in E; try discriminate E. injection E as <-.
    rewrite skip_rem_buffer, (refill64_buffer _ _ _ F), skip_rem_buffer. reflexivity.
Qed.
Lemma op_buffer : forall e r op r' o, w_run_op e r op = Ret (r', o) -> w_buffer r' = w_buffer r.
Proof.
  intros e r op r' o E. destruct op as [|n|n| |n|n|n| | |]; cbn [w_run_op] in E.
  - destruct (w_get_bit e r) as [[r1 b]| |] eqn:G; cbn [obind] in E; try discriminate E. injection E as <- _. unfold w_get_bit in G.
    destruct (if w_left r =? 0 then w_refill64 e r else Ret r) as [r2| |] eqn:F; cbn [obind] in G; try discriminate G.
    destruct (w_get_val e r2 1) as [[r3 v]| |] eqn:V; cbn [obind] in G; try discriminate G. injection G as <- _. rewrite (val_buffer _ _ _ _ _ V).
    destruct (w_left r =? 0); [exact (refill64_buffer _ _ _ F)|injection F as <-; reflexivity].
  - destruct (w_get_bits_32 e r (N.of_nat n)) as [[r1 b]| |] eqn:G; cbn [obind] in E; try discriminate E. injection E as <- _. unfold w_get_bits_32 in G.
    destruct (N.of_nat n =? 0); [injection G as <- _; reflexivity|].
    destruct (if w_left r <=? N.of_nat n then w_refill32 e r else Ret r) as [r2| |] eqn:F; cbn [obind] in G; try discriminate G.
    destruct (w_get_val e r2 (N.of_nat n)) as [[r3 v]| |] eqn:V; cbn [obind] in G; try discriminate G. injection G as <- _. rewrite (val_buffer _ _ _ _ _ V).
    destruct (w_left r <=? N.of_nat n); [exact (refill32_buffer _ _ _ F)|injection F as <-; reflexivity].
  - destruct (w_get_bits_64 e r (N.of_nat n)) as [[r1 b]| |] eqn:G; cbn [obind] in E; try discriminate E. injection E as <- _. unfold w_get_bits_64 in G.
    destruct (N.of_nat n =? 0); [injection G as <- _; reflexivity|]. destruct (w_left r <? N.of_nat n).
    + checked G. cbv zeta in G. destruct (w_get_val e r (w_left r)) as [[r2 a]| |] eqn:G1; cbn [obind] in G; try discriminate G.
      destruct (w_refill64 e r2) as [r3| |] eqn:F; cbn [obind] in G; try discriminate G.
      destruct (w_get_val e r3 c) as [[r4 v]| |] eqn:G2; cbn [obind] in G; try discriminate G.
      destruct (w_merge_val e v a (w_left r) c); cbn [obind] in G; try discriminate G. injection G as <- _.
      rewrite (val_buffer _ _ _ _ _ G2), (refill64_buffer _ _ _ F). exact (val_buffer _ _ _ _ _ G1).
    + destruct (w_get_val e r (N.of_nat n)) as [[r2 a]| |] eqn:G1; cbn [obind] in G; try discriminate G.
      destruct (w_merge_val e a 0 0 (N.of_nat n)); cbn [obind] in G; try discriminate G. injection G as <- _. exact (val_buffer _ _ _ _ _ G1).
  - destruct (w_get_bit e r) as [[r1 b]| |]; cbn [obind] in E; try discriminate E. injection E as <- _. reflexivity.
  - destruct (w_get_bits_32 e r (N.of_nat n)) as [[r1 b]| |]; cbn [obind] in E; try discriminate E. injection E as <- _. reflexivity.
  - destruct (w_get_bits_64 e r (N.of_nat n)) as [[r1 b]| |]; cbn [obind] in E; try discriminate E. injection E as <- _. reflexivity.
  - destruct (w_skip_bits e r (N.of_nat n)) as [r1| |] eqn:G; cbn [obind] in E; try discriminate E. injection E as <- _. exact (skip_buffer _ _ _ _ G).
  - destruct (w_align_bits e r) as [r1| |] eqn:G; cbn [obind] in E; try discriminate E. injection E as <- _. exact (skip_buffer _ _ _ _ G).
  - destruct (w_consumed r); cbn [obind] in E; try discriminate E. injection E as <- _. reflexivity.
  - destruct (w_available r); cbn [obind] in E; try discriminate E. injection E as <- _. reflexivity.
Qed.

Lemma ops_release : forall e ops r x, w_len r < W64 -> Forall arg_fits ops -> w_run_ops e r ops = Ret x -> rb_run_ops e r ops = Ret x.
Proof.
  intros e. induction ops as [|op ops IH]; intros r x Hl Ha E; [exact E|]. cbn [w_run_ops rb_run_ops] in *.
  inversion Ha as [|? ? Ha1 Ha2]; subst. destruct (w_run_op e r op) as [[r1 o]| |] eqn:O; cbn [obind] in E; try discriminate E.
  rewrite (op_release _ _ _ _ Hl Ha1 O). cbn [obind]. destruct (w_run_ops e r1 ops) as [y| |] eqn:R; cbn [obind] in E; try discriminate E.
  rewrite (IH r1 y); [exact E| |exact Ha2|exact R]. unfold w_len in *. rewrite (op_buffer _ _ _ _ _ O). exact Hl.
Qed.

Lemma bits_agree : forall e buf ops x, N.of_nat (length buf) < 2 ^ 64 -> Forall arg_fits ops ->
  w_run_from_new e buf ops = Ret x -> rb_run_from_new e buf ops = Ret x.
Proof.
  intros e buf ops x Hl Ha E. unfold w_run_from_new in E. unfold rb_run_from_new, rb_new, w_new in *.
  destruct (w_refill64 e (mk_wreader buf 0 0 0)) as [r| |] eqn:F; cbn [obind] in E; try discriminate E.
  rewrite (refill64_release _ _ _ F). cbn [obind]. apply ops_release; [|exact Ha|exact E].
  unfold w_len. rewrite (refill64_buffer _ _ _ F). exact Hl.
Qed.

(** ** The queue *)

Lemma available_exact : forall e buf r q, rep e buf r q -> fine r -> N.of_nat (index r) < W64 -> N.of_nat (length buf) < W64 ->
  rb_available (word_reader r) = Z.to_N (bits_left (bits_of e buf) q mod 2 ^ 64).
Proof.
  intros e buf r q R F Hi Hl. destruct R as [R1 R2 R3 R4 R5 _]. destruct F as [F1 F2].
  unfold rb_available, bits_left, w_len, radd, rmul, rsub. cbn [w_buffer w_index w_left word_reader].
  rewrite BitProofs.bits_of_length, <- R2, <- R3, R1. rewrite W64_eq in *. change (2 ^ 64)%Z with 18446744073709551616%Z.
  assert (D : (Z.of_nat (8 * length buf) - Z.of_nat (8 * index r) + Z.of_nat (left r) = 8 * (Z.of_nat (length buf) - Z.of_nat (index r)) + Z.of_nat (left r))%Z) by lia.
  rewrite D. clear - Hi Hl. lia.
Qed.

Lemma arg_of_ok : forall op, op_ok op -> op_skip op < W64 -> arg_fits op.
Proof.
  intros op Hok Hs. destruct op; cbn [op_ok op_skip arg_fits] in *; try exact I; change (2 ^ 64) with W64; rewrite ?W64_eq in *; lia.
Qed.

Lemma op_queue : forall e buf r q op, bytes buf -> rep e buf r q -> fine r -> budget r (op_skip op) -> op_ok op ->
  exists r', rb_run_op e (word_reader r) op = Ret (word_reader r', snd (rq_op e (bits_of e buf) q op)) /\
    rep e buf r' (fst (rq_op e (bits_of e buf) q op)) /\ fine r' /\
    (N.of_nat (index r') <= N.of_nat (Nat.max (index r) (length buf)) + op_skip op / 8).
Proof.
  intros e buf r q op Hb R F B Hok. assert (Eb : buffer r = buf) by (destruct R; assumption).
  pose proof (q_op_rep e buf r q op Hb R Hok) as Q. pose proof (op_word e r op F B) as Wd.
  assert (Hi : N.of_nat (index r) < W64 /\ N.of_nat (length buf) < W64 /\ op_skip op < W64) by (unfold budget in B; rewrite Eb in B; rewrite W64_eq in *; lia).
  destruct Hi as [Hi [Hl Hs]].
  assert (G : op = OpAvailable \/ rq_op e (bits_of e buf) q op = match q_op e (bits_of e buf) q op with Some x => x | None => (q, OutUnit) end /\ q_op e (bits_of e buf) q op <> None).
  { destruct op as [|n|n| |n|n|n| | |]; try (left; reflexivity); right; (split; [reflexivity|]); cbn [q_op]; try discriminate.
    - destruct (q_get32 (bits_of e buf) q n); discriminate.
    - destruct (q_get64 (bits_of e buf) q n); discriminate. }
  destruct G as [->|[G1 G2]].
  - exists r. cbn [rb_run_op rq_op fst snd]. split; [|split; [exact R|split; [exact F|cbn [op_skip]; lia]]].
    rewrite (available_exact e buf r q R F Hi Hl). do 3 f_equal. apply Z_N_nat.
  - rewrite G1. destruct (q_op e (bits_of e buf) q op) as [[q' o]|]; [|exfalso; apply G2; reflexivity].
    destruct Q as [r' [Q1 Q2]]. rewrite Q1 in Wd. cbn [omap] in Wd. unfold wr1 in Wd. cbn [fst snd] in Wd |- *.
    pose proof (op_within e r op r' o F Q1) as W. exists r'. split.
    + apply op_release; [unfold w_len; cbn [w_buffer word_reader]; rewrite Eb; exact Hl|exact (arg_of_ok op Hok Hs)|exact Wd].
    + split; [exact Q2|]. split; [exact (within_fine _ _ _ W)|]. destruct W as [_ [_ [_ W]]]. rewrite Eb in W. lia.
Qed.

Lemma ops_queue : forall e buf ops r q, bytes buf -> rep e buf r q -> fine r -> budget r (total_skip ops) -> Forall op_ok ops ->
  exists r', rb_run_ops e (word_reader r) ops = Ret (word_reader r', snd (rq_ops e (bits_of e buf) q ops)) /\
    rep e buf r' (fst (rq_ops e (bits_of e buf) q ops)) /\ fine r' /\ 8 * N.of_nat (index r') < W64.
Proof.
  intros e buf. induction ops as [|op ops IH]; intros r q Hb R F B Ho.
  - exists r. split; [reflexivity|]. split; [exact R|]. split; [exact F|]. unfold budget in B. lia.
  - rewrite total_cons in B. inversion Ho as [|? ? Ho1 Ho2]; subst. cbn [rb_run_ops rq_ops].
    assert (Eb : buffer r = buf) by (destruct R; assumption).
    destruct (op_queue e buf r q op Hb R F) as [r1 [E1 [R1 [F1 I1]]]]; [unfold budget in *; lia|exact Ho1|].
    rewrite E1. cbn [obind]. destruct (rq_op e (bits_of e buf) q op) as [q1 o]. cbn [fst snd] in *.
    destruct (IH r1 q1 Hb R1 F1) as [r2 [E2 [R2 [F2 I2]]]].
    { assert (buffer r1 = buf) as Eb1 by (destruct R1; assumption). unfold budget in *. rewrite Eb in B. rewrite Eb1. lia. }
    { exact Ho2. }
    rewrite E2. cbn [obind]. destruct (rq_ops e (bits_of e buf) q1 ops) as [q2 os]. cbn [fst snd] in *.
    exists r2. split; [reflexivity|]. split; [exact R2|]. split; [exact F2|exact I2].
Qed.

Lemma run_queue : forall e buf ops, bytes buf -> Forall op_ok ops -> 8 * N.of_nat (length buf) + total_skip ops < 2 ^ 64 ->
  exists r, rb_run_from_new e buf ops = Ret (word_reader r, snd (rq_run e buf ops)) /\
    rep e buf r (fst (rq_run e buf ops)) /\ fine r /\ 8 * N.of_nat (index r) < W64.
Proof.
  intros e buf ops Hb Ho B. change (2 ^ 64) with W64 in B. set (r0 := mk_reader buf 0 0%N 0).
  assert (fine r0) as F0 by (split; cbn; lia). unfold rb_run_from_new, rb_new.
  change (mk_wreader buf 0 0 0) with (word_reader r0).
  destruct (rep_refill64 e buf _ _ Hb (rep_start e buf)) as [r [E R]]. fold r0 in E.
  assert (Wd : w_refill64 e (word_reader r0) = Ret (word_reader r)).
  { rewrite refill64_word, E; [reflexivity|]. apply roomy_safe; [exact F0|].
    apply (budget_roomy r0 (total_skip ops)); [unfold budget, r0; cbn [index buffer]; lia|lia]. }
  rewrite (refill64_release _ _ _ Wd). cbn [obind]. pose proof (refill64_within e r0 r F0 E) as W.
  unfold rq_run. apply ops_queue; [exact Hb|exact R|exact (within_fine _ _ _ W)| |exact Ho].
  destruct W as [W1 [_ [_ W2]]]. unfold budget. rewrite W1 in *. unfold r0 in *. cbn [index buffer] in *. lia.
Qed.

Lemma consumed_exact : forall e buf r q, rep e buf r q -> 8 * N.of_nat (index r) < W64 ->
  rb_consumed (word_reader r) = N.of_nat (fetched q - length (waiting q)).
Proof.
  intros e buf r q R Hi. destruct R as [_ R2 R3 _ R5 _]. unfold rb_consumed, rsub, rmul. cbn [w_index w_left word_reader].
  rewrite W64_eq in *. lia.
Qed.

Lemma release_queue : forall e buf ops, bytes buf -> Forall op_ok ops -> 8 * N.of_nat (length buf) + total_skip ops < 2 ^ 64 ->
  exists r, rb_run_from_new e buf ops = Ret (r, snd (rq_run e buf ops)) /\
    w_left r = N.of_nat (length (waiting (fst (rq_run e buf ops)))) /\
    rb_consumed r = N.of_nat (fetched (fst (rq_run e buf ops)) - length (waiting (fst (rq_run e buf ops)))) /\
    rb_available r = Z.to_N (bits_left (bits_of e buf) (fst (rq_run e buf ops)) mod 2 ^ 64).
Proof.
  intros e buf ops Hb Ho B. destruct (run_queue e buf ops Hb Ho B) as [r [E [R [F I]]]]. exists (word_reader r). split; [exact E|].
  change (2 ^ 64) with W64 in B. split; [destruct R as [_ _ R3 _ _ _]; cbn [w_left word_reader]; rewrite R3; reflexivity|].
  split; [exact (consumed_exact e buf r _ R I)|]. apply available_exact; [exact R|exact F|rewrite W64_eq in *; lia..].
Qed.

Lemma release_available : forall e buf ops r outs, bytes buf -> Forall op_ok ops -> 8 * N.of_nat (length buf) + total_skip ops < 2 ^ 64 ->
  rb_run_from_new e buf ops = Ret (r, outs) ->
  (rb_consumed r <= 8 * N.of_nat (length buf) -> rb_consumed r + rb_available r = 8 * N.of_nat (length buf)) /\
  (8 * N.of_nat (length buf) < rb_consumed r -> rb_consumed r + rb_available r = 8 * N.of_nat (length buf) + 2 ^ 64).
Proof.
  intros e buf ops r outs Hb Ho B E. destruct (run_queue e buf ops Hb Ho B) as [r1 [E1 [R [F I]]]]. rewrite E1 in E. injection E as <- _.
  change (2 ^ 64) with W64 in *. rewrite (consumed_exact e buf r1 _ R I).
  rewrite (available_exact e buf r1 _ R F) by (rewrite W64_eq in *; lia).
  destruct R as [_ R2 R3 _ R5 _]. unfold bits_left. rewrite BitProofs.bits_of_length. generalize dependent (fst (rq_run e buf ops)). intros q R2 R3 R5.
  rewrite W64_eq in *. change (2 ^ 64)%Z with 18446744073709551616%Z. lia.
Qed.

Lemma release_available_refuted : exists e buf ops r outs, bytes buf /\ Forall op_ok ops /\
  rb_run_from_new e buf ops = Ret (r, outs) /\ 8 * N.of_nat (length buf) < rb_available r.
Proof.
  exists LE, [1; 2; 3], [OpSkip 100]. eexists _, _. split; [repeat constructor|]. split; [repeat constructor|].
  split; [vm_compute; reflexivity|]. vm_compute. reflexivity.
Qed.
