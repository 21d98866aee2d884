(** A copy of codebook construction and reading for large tables, with the table as
    a map from positions to the entries that are not blank and with binary
    numbers throughout, and the proof that it computes what the model computes.
    Only a means of evaluating the model on descriptions whose tables are too long
    for lists; LSB mode only. *)
From Coq Require Import List Arith NArith ZArith Bool Lia FMapPositive.
From Coq Require Import ZifyBool ZifyNat ZifyN.
From Verif Require Import Base BitModel CodebookModel CodebookProofs CodebookProofs2.
Import ListNotations.
Local Open Scope nat_scope.

Record sparse : Type := mk_sparse { sp_len : N; sp_map : PositiveMap.t N }.

Definition sp_look (s : sparse) (q : N) : N :=
  match PositiveMap.find (N.succ_pos q) (sp_map s) with Some v => v | None => TABLE_FILL_VALUE end.
Definition sp_index (s : sparse) (q : N) : outcome N :=
  if (q <? sp_len s)%N then Ret (sp_look s q) else Panic.
Definition sp_store (s : sparse) (q v : N) : outcome sparse :=
  if (q <? sp_len s)%N then Ret (mk_sparse (sp_len s) (PositiveMap.add (N.succ_pos q) v (sp_map s))) else Panic.

(** The list [t] has the length and entries of [s], and [s] holds nothing beyond. *)
Definition same (t : list N) (s : sparse) : Prop :=
  length t = N.to_nat (sp_len s) /\
  (forall q, (q < sp_len s)%N -> nth_error t (N.to_nat q) = Some (sp_look s q)) /\
  (forall q, (sp_len s <= q)%N -> sp_look s q = TABLE_FILL_VALUE).

Lemma succ_pos_inj : forall a b, N.succ_pos a = N.succ_pos b -> a = b.
Proof.
  intros a b H. apply (f_equal Npos) in H. rewrite !N.succ_pos_spec in H. lia.
Qed.

Lemma sp_look_add : forall s n q v x, sp_look (mk_sparse n (PositiveMap.add (N.succ_pos q) v (sp_map s))) x =
  if (x =? q)%N then v else sp_look s x.
Proof.
  intros s n q v x. unfold sp_look. cbn [sp_map]. destruct (N.eqb_spec x q) as [->|Hne].
  - rewrite PositiveMap.gss. reflexivity.
  - rewrite PositiveMap.gso; [reflexivity|]. intros E. apply succ_pos_inj in E. congruence.
Qed.

Lemma same_index : forall t s q v, same t s -> sp_index s q = Ret v -> index_at t (N.to_nat q) = Ret v.
Proof.
  intros t s q v [_ [H _]] E. unfold sp_index in E. destruct (N.ltb_spec q (sp_len s)) as [Hq|]; [|discriminate].
  injection E as <-. apply index_nth. apply H. exact Hq.
Qed.

Lemma same_store : forall t s q v s', same t s -> sp_store s q v = Ret s' ->
  exists t', store t (N.to_nat q) v = Ret t' /\ same t' s'.
Proof.
  intros t s q v s' [L [H B]] E. unfold sp_store in E. destruct (N.ltb_spec q (sp_len s)) as [Hq|]; [|discriminate].
  injection E as <-. exists (update t (N.to_nat q) v). split; [apply store_ok; lia|]. split; [|split].
  - cbn [sp_len]. rewrite update_length. exact L.
  - cbn [sp_len]. intros x Hx. rewrite update_nth by lia. rewrite sp_look_add.
    destruct (N.eqb_spec x q) as [E|Hne]; destruct (Nat.eqb_spec (N.to_nat x) (N.to_nat q)); try lia.
    + reflexivity.
    + apply H. exact Hx.
  - cbn [sp_len]. intros x Hx. rewrite sp_look_add. destruct (N.eqb_spec x q); [lia|]. apply B. exact Hx.
Qed.

Lemma nth_repeat : forall (A : Type) (x : A) n i, i < n -> nth_error (repeat x n) i = Some x.
Proof. intros A x n. induction n as [|n IH]; intros [|i] H; cbn; try lia; [reflexivity|apply IH; lia]. Qed.

Lemma same_grow : forall t s k, same t s ->
  same (t ++ repeat TABLE_FILL_VALUE (N.to_nat k)) (mk_sparse (sp_len s + k) (sp_map s)).
Proof.
  intros t s k [L [H B]]. split; [|split]; cbn [sp_len].
  - rewrite app_length, repeat_length. lia.
  - intros q Hq. change (sp_look (mk_sparse (sp_len s + k) (sp_map s)) q) with (sp_look s q).
    destruct (N.lt_ge_cases q (sp_len s)) as [Hl|Hl].
    + rewrite nth_error_app1 by lia. apply H. exact Hl.
    + rewrite nth_error_app2 by lia. rewrite nth_repeat by lia. rewrite B by exact Hl. reflexivity.
  - intros q Hq. change (sp_look (mk_sparse (sp_len s + k) (sp_map s)) q) with (sp_look s q). apply B. lia.
Qed.

(** ** Construction *)

Record scode : Type := mk_scode { sc_code : N; sc_bits : nat; sc_idx : N }.
Record sbucket : Type := mk_sbucket { sb_maxlen : nat; sb_offset : N; sb_codes : list scode }.
Definition sescapes : Type := list (N * sbucket).

Definition to_code (c : scode) : code := mk_code (sc_code c) (sc_bits c) (N.to_nat (sc_idx c)).
Definition to_bucket (b : sbucket) : bucket :=
  mk_bucket (sb_maxlen b) (N.to_nat (sb_offset b)) (map to_code (sb_codes b)).
Definition to_escapes (cc : sescapes) : escape_codes := map (fun x => (fst x, to_bucket (snd x))) cc.

Fixpoint sp_fill_loop (s : sparse) (off : N) (idx : N -> outcome N) (v j : N) (n : nat) : outcome sparse :=
  match n with
  | O => Ret s
  | S n' =>
      let! i := idx j in
      let! s' := sp_store s (i + off) v in
      sp_fill_loop s' off idx v (j + 1)%N n'
  end.

Lemma same_fill_loop : forall off idx v n t s j s', same t s -> sp_fill_loop s off idx v j n = Ret s' ->
  exists t', fill_loop t (N.to_nat off) idx v j n = Ret t' /\ same t' s'.
Proof.
  intros off idx v. induction n as [|n IH]; intros t s j s' HS E; cbn [sp_fill_loop fill_loop] in *.
  - injection E as <-. exists t. split; [reflexivity|exact HS].
  - destruct (idx j) as [i| |]; try discriminate. cbn [obind] in *.
    destruct (sp_store s (i + off) v) as [s1| |] eqn:E1; try discriminate. cbn [obind] in E.
    destruct (same_store t s (i + off) v s1 HS E1) as [t1 [Et H1]].
    replace (N.to_nat i + N.to_nat off) with (N.to_nat (i + off)) by lia. rewrite Et. cbn [obind].
    apply (IH t1 s1 _ s' H1 E).
Qed.

Definition sp_fill_lut (s : sparse) (off code : N) (bits lut_bits : nat) (symidx : N) (esc : bool) : outcome sparse :=
  if negb esc then
    let! fill_len := csub lut_bits bits in
    let! fill_size := shl32 1 fill_len in
    let! step := csub lut_bits fill_len in
    sp_fill_loop s off (fun j => let! x := shl32 j step in add32 code x) (lut_entry symidx bits) 0 (N.to_nat fill_size)
  else
    sp_store s (code + off) (esc_entry symidx bits).

Lemma same_fill_lut : forall t s off code bits lut_bits symidx esc s', same t s ->
  sp_fill_lut s off code bits lut_bits symidx esc = Ret s' ->
  exists t', fill_lut t LSB (N.to_nat off) code bits lut_bits symidx esc = Ret t' /\ same t' s'.
Proof.
  intros t s off code bits lut_bits symidx esc s' HS E. unfold sp_fill_lut in E. unfold fill_lut, fill_lut_lsb.
  destruct (negb esc).
  - destruct (csub lut_bits bits) as [n| |]; try discriminate. cbn [obind] in *.
    destruct (shl32 1 n) as [a| |]; try discriminate. cbn [obind] in *.
    destruct (csub lut_bits n) as [b| |]; try discriminate. cbn [obind] in *.
    apply (same_fill_loop _ _ _ _ _ _ _ _ HS E).
  - replace (N.to_nat code + N.to_nat off) with (N.to_nat (code + off)) by lia. apply (same_store _ _ _ _ _ HS E).
Qed.

Definition sp_add_code (b : sbucket) (c : scode) : sbucket :=
  mk_sbucket (if sb_maxlen b <? sc_bits c then sc_bits c else sb_maxlen b) (sb_offset b) (sb_codes b ++ [c]).

Fixpoint sp_add_esc_code (cc : sescapes) (key : N) (c : scode) : sescapes :=
  match cc with
  | [] => [(key, sp_add_code (mk_sbucket 0 0 []) c)]
  | (k, b) :: cc' =>
      if (k =? key)%N then (k, sp_add_code b c) :: cc' else (k, b) :: sp_add_esc_code cc' key c
  end.

Lemma to_add_code : forall b c, to_bucket (sp_add_code b c) = add_code (to_bucket b) (to_code c).
Proof. intros b c. unfold to_bucket, sp_add_code, add_code. cbn. rewrite map_app. reflexivity. Qed.

Lemma to_add_esc_code : forall cc key c, to_escapes (sp_add_esc_code cc key c) = add_esc_code (to_escapes cc) key (to_code c).
Proof.
  induction cc as [|[k b] cc IH]; intros key c; cbn [sp_add_esc_code to_escapes map fst snd add_esc_code].
  - rewrite to_add_code. reflexivity.
  - fold (to_escapes cc). destruct (k =? key)%N; cbn [to_escapes map fst snd].
    + rewrite to_add_code. reflexivity.
    + fold (to_escapes (sp_add_esc_code cc key c)). rewrite IH. reflexivity.
Qed.

Definition sp_add_long_code (cc : sescapes) (c : scode) : outcome sescapes :=
  let! ckey := extract_lut_part (sc_code c) (sc_bits c) MAX_LUT_BITS LSB in
  let! cval := extract_esc_part (sc_code c) (sc_bits c) MAX_LUT_BITS LSB in
  let! rest := csub (sc_bits c) MAX_LUT_BITS in
  Ret (sp_add_esc_code cc ckey (mk_scode cval rest (sc_idx c))).

Lemma same_add_long_code : forall cc c cc', sp_add_long_code cc c = Ret cc' ->
  add_long_code (to_escapes cc) LSB (to_code c) = Ret (to_escapes cc').
Proof.
  intros cc c cc' E. unfold sp_add_long_code in E. unfold add_long_code. cbn [to_code c_code c_bits c_idx].
  destruct (extract_lut_part (sc_code c) (sc_bits c) MAX_LUT_BITS LSB) as [a| |]; try discriminate. cbn [obind] in *.
  destruct (extract_esc_part (sc_code c) (sc_bits c) MAX_LUT_BITS LSB) as [b| |]; try discriminate. cbn [obind] in *.
  destruct (csub (sc_bits c) MAX_LUT_BITS) as [n| |]; try discriminate. cbn [obind] in *.
  injection E as <-. rewrite to_add_esc_code. reflexivity.
Qed.

Fixpoint sp_pass1 (s : sparse) (off : N) (maxlen : nat) (codes : list scode) (cc : sescapes)
    : outcome (sparse * sescapes) :=
  match codes with
  | [] => Ret (s, cc)
  | c :: codes' =>
      if sc_bits c <=? MAX_LUT_BITS then
        let! s' := sp_fill_lut s off (sc_code c) (sc_bits c) maxlen (sc_idx c mod W32) false in
        sp_pass1 s' off maxlen codes' cc
      else
        let! cc' := sp_add_long_code cc c in
        sp_pass1 s off maxlen codes' cc'
  end.

Lemma same_pass1 : forall off maxlen codes t s cc s' cc', same t s ->
  sp_pass1 s off maxlen codes cc = Ret (s', cc') ->
  exists t', esc_pass1 t LSB (N.to_nat off) maxlen (map to_code codes) (to_escapes cc) = Ret (t', to_escapes cc') /\
    same t' s'.
Proof.
  intros off maxlen. induction codes as [|c codes IH]; intros t s cc s' cc' HS E; cbn [sp_pass1 map esc_pass1] in *.
  - injection E as <- <-. exists t. split; [reflexivity|exact HS].
  - change (c_bits (to_code c)) with (sc_bits c). change (c_code (to_code c)) with (sc_code c).
    destruct (sc_bits c <=? MAX_LUT_BITS).
    + change (c_idx (to_code c)) with (N.to_nat (sc_idx c)). rewrite Nnat.N2Nat.id.
      destruct (sp_fill_lut s off (sc_code c) (sc_bits c) maxlen (sc_idx c mod W32) false) as [s1| |] eqn:E1; try discriminate.
      cbn [obind] in E. destruct (same_fill_lut _ _ _ _ _ _ _ _ _ HS E1) as [t1 [Et H1]]. rewrite Et. cbn [obind].
      apply (IH t1 s1 cc s' cc' H1 E).
    + destruct (sp_add_long_code cc c) as [cc1| |] eqn:E1; try discriminate. cbn [obind] in E.
      rewrite (same_add_long_code cc c cc1 E1). cbn [obind]. apply (IH t s cc1 s' cc' HS E).
Qed.

Definition sp_alloc (s : sparse) (cur key : N) (b : sbucket) : outcome (sparse * sbucket) :=
  let maxlen := Nat.min (sb_maxlen b) MAX_LUT_BITS in
  let! add := shl32 1 maxlen in
  let new_off := (sp_len s mod W32)%N in
  let! s2 := sp_fill_lut (mk_sparse (sp_len s + add) (sp_map s)) cur key maxlen MAX_LUT_BITS new_off true in
  Ret (s2, mk_sbucket (sb_maxlen b) new_off (sb_codes b)).

Lemma same_alloc : forall t s cur key b s' b', same t s -> sp_alloc s cur key b = Ret (s', b') ->
  exists t', alloc_bucket t LSB (N.to_nat cur) key (to_bucket b) = Ret (t', to_bucket b') /\ same t' s'.
Proof.
  intros t s cur key b s' b' HS E. unfold sp_alloc in E. unfold alloc_bucket, resize_table.
  change (b_maxlen (to_bucket b)) with (sb_maxlen b).
  destruct (shl32 1 (Nat.min (sb_maxlen b) MAX_LUT_BITS)) as [add| |]; try discriminate. cbn [obind] in *.
  assert (L : N.of_nat (length t) = sp_len s) by (destruct HS as [L _]; lia). rewrite L.
  destruct (sp_fill_lut (mk_sparse (sp_len s + add) (sp_map s)) cur key (Nat.min (sb_maxlen b) MAX_LUT_BITS)
      MAX_LUT_BITS (sp_len s mod W32) true) as [s2| |] eqn:E2; try discriminate. cbn [obind] in E.
  injection E as <- <-.
  destruct (same_fill_lut _ _ _ _ _ _ _ _ _ (same_grow t s add HS) E2) as [t2 [Et H2]]. rewrite Et. cbn [obind].
  exists t2. split; [reflexivity|exact H2].
Qed.

Fixpoint sp_pass2 (s : sparse) (cur : N) (cc : sescapes) : outcome (sparse * sescapes) :=
  match cc with
  | [] => Ret (s, [])
  | (key, b) :: cc' =>
      let! (s1, b') := sp_alloc s cur key b in
      let! (s2, cc'') := sp_pass2 s1 cur cc' in
      Ret (s2, (key, b') :: cc'')
  end.

Lemma same_pass2 : forall cur cc t s s' cc', same t s -> sp_pass2 s cur cc = Ret (s', cc') ->
  exists t', esc_pass2 t LSB (N.to_nat cur) (to_escapes cc) = Ret (t', to_escapes cc') /\ same t' s'.
Proof.
  intros cur. induction cc as [|[key b] cc IH]; intros t s s' cc' HS E; cbn [sp_pass2 to_escapes map fst snd esc_pass2] in *.
  - injection E as <- <-. exists t. split; [reflexivity|exact HS].
  - destruct (sp_alloc s cur key b) as [[s1 b1]| |] eqn:E1; try discriminate. cbn [obind] in E.
    destruct (same_alloc _ _ _ _ _ _ _ HS E1) as [t1 [Et H1]]. rewrite Et. cbn [obind].
    destruct (sp_pass2 s1 cur cc) as [[s2 cc2]| |] eqn:E2; try discriminate. cbn [obind] in E. injection E as <- <-.
    destruct (IH t1 s1 s2 cc2 H1 E2) as [t2 [Et2 H2]]. fold (to_escapes cc). rewrite Et2. cbn [obind].
    exists t2. split; [reflexivity|exact H2].
Qed.

Fixpoint sp_build_all (build : sparse -> sbucket -> outcome sparse) (s : sparse) (cc : sescapes) : outcome sparse :=
  match cc with
  | [] => Ret s
  | (_, b) :: cc' => let! s' := build s b in sp_build_all build s' cc'
  end.

Fixpoint sp_build (fuel : nat) (s : sparse) (b : sbucket) : outcome sparse :=
  match fuel with
  | O => Panic
  | S fuel' =>
      let maxlen := Nat.min (sb_maxlen b) MAX_LUT_BITS in
      let! (s1, cc) := sp_pass1 s (sb_offset b) maxlen (sb_codes b) [] in
      let! (s2, cc2) := sp_pass2 s1 (sb_offset b) cc in
      sp_build_all (fun s b' => sp_build fuel' s b') s2 cc2
  end.

(** Visiting the hash maps in order of insertion. *)
Definition in_order : order := fun _ cc => cc.

Lemma same_build_all : forall build lbuild,
  (forall t s key b s', same t s -> build s b = Ret s' ->
     exists t', lbuild t key (to_bucket b) = Ret t' /\ same t' s') ->
  forall cc t s s', same t s -> sp_build_all build s cc = Ret s' ->
  exists t', build_all lbuild t (to_escapes cc) = Ret t' /\ same t' s'.
Proof.
  intros build lbuild HB. induction cc as [|[k b] cc IH]; intros t s s' HS E; cbn [sp_build_all to_escapes map fst snd build_all] in *.
  - injection E as <-. exists t. split; [reflexivity|exact HS].
  - destruct (build s b) as [s1| |] eqn:E1; try discriminate. cbn [obind] in E.
    destruct (HB t s k b s1 HS E1) as [t1 [Et H1]]. rewrite Et. cbn [obind]. apply (IH t1 s1 s' H1 E).
Qed.

Lemma same_build : forall fuel path t s b s', same t s -> sp_build fuel s b = Ret s' ->
  exists t', build_esc_lut fuel in_order path t LSB (to_bucket b) = Ret t' /\ same t' s'.
Proof.
  induction fuel as [|fuel IH]; intros path t s b s' HS E; cbn [sp_build build_esc_lut] in *; [discriminate|].
  change (b_maxlen (to_bucket b)) with (sb_maxlen b). change (b_offset (to_bucket b)) with (N.to_nat (sb_offset b)).
  change (b_codes (to_bucket b)) with (map to_code (sb_codes b)).
  destruct (sp_pass1 s (sb_offset b) (Nat.min (sb_maxlen b) MAX_LUT_BITS) (sb_codes b) []) as [[s1 cc]| |] eqn:E1;
    try discriminate. cbn [obind] in E.
  destruct (same_pass1 _ _ _ _ _ _ _ _ HS E1) as [t1 [Et H1]]. cbn [to_escapes map] in Et. rewrite Et. cbn [obind].
  destruct (sp_pass2 s1 (sb_offset b) cc) as [[s2 cc2]| |] eqn:E2; try discriminate. cbn [obind] in E.
  destruct (same_pass2 _ _ _ _ _ _ H1 E2) as [t2 [Et2 H2]]. unfold in_order at 1. fold in_order.
  rewrite Et2. cbn [obind].
  apply (same_build_all (fun s b' => sp_build fuel s b')
           (fun t key b' => build_esc_lut fuel in_order (key :: path) t LSB b')) with (s := s2); [|exact H2|exact E].
  intros t0 s0 key b0 s0' HS0 E0. apply (IH (key :: path) t0 s0 b0 s0' HS0 E0).
Qed.

Fixpoint sp_new1 {S : Type} (ds : list (desc S)) (maxbits : nat) (symidx : N) (cc : sescapes)
    : outcome (nat * sescapes) :=
  match ds with
  | [] => Ret (maxbits, cc)
  | d :: ds' =>
      let bits := d_bits d in
      let maxbits' := Nat.max bits maxbits in
      let! cc' := if MAX_LUT_BITS <? bits
                  then sp_add_long_code cc (mk_scode (d_code d) bits symidx) else Ret cc in
      sp_new1 ds' maxbits' (if 0 <? bits then (symidx + 1)%N else symidx) cc'
  end.

Lemma same_new1 : forall (S : Type) (ds : list (desc S)) maxbits symidx cc n cc',
  sp_new1 ds maxbits symidx cc = Ret (n, cc') ->
  new_pass1 LSB ds maxbits (N.to_nat symidx) (to_escapes cc) = Ret (n, to_escapes cc').
Proof.
  intros S. induction ds as [|d ds IH]; intros maxbits symidx cc n cc' E; cbn [sp_new1 new_pass1] in *.
  - injection E as <- <-. reflexivity.
  - assert (K : (if 0 <? d_bits d then N.to_nat symidx + 1 else N.to_nat symidx)
              = N.to_nat (if 0 <? d_bits d then (symidx + 1)%N else symidx)) by (destruct (0 <? d_bits d); lia).
    rewrite K. destruct (MAX_LUT_BITS <? d_bits d).
    + destruct (sp_add_long_code cc (mk_scode (d_code d) (d_bits d) symidx)) as [cc1| |] eqn:E1; try discriminate.
      cbn [obind] in E. apply same_add_long_code in E1. cbn [to_code sc_code sc_bits sc_idx] in E1.
      unfold to_code in E1. cbn [sc_code sc_bits sc_idx] in E1. rewrite E1. cbn [obind]. apply IH. exact E.
    + cbn [obind] in *. apply IH. exact E.
Qed.

Fixpoint sp_find (cc : sescapes) (key : N) : option sbucket :=
  match cc with
  | [] => None
  | (k, b) :: cc' => if (k =? key)%N then Some b else sp_find cc' key
  end.
Fixpoint sp_set (cc : sescapes) (key : N) (b : sbucket) : sescapes :=
  match cc with
  | [] => []
  | (k, b0) :: cc' => if (k =? key)%N then (k, b) :: cc' else (k, b0) :: sp_set cc' key b
  end.

Lemma to_find : forall cc key, find_bucket (to_escapes cc) key = option_map to_bucket (sp_find cc key).
Proof.
  induction cc as [|[k b] cc IH]; intros key; cbn [to_escapes map fst snd find_bucket sp_find]; [reflexivity|].
  destruct (k =? key)%N; [reflexivity|apply IH].
Qed.

Lemma to_set : forall cc key b, to_escapes (sp_set cc key b) = set_bucket (to_escapes cc) key (to_bucket b).
Proof.
  induction cc as [|[k b0] cc IH]; intros key b; cbn [to_escapes map fst snd set_bucket sp_set]; [reflexivity|].
  destruct (k =? key)%N; cbn [to_escapes map fst snd]; [reflexivity|].
  fold (to_escapes (sp_set cc key b)). rewrite IH. reflexivity.
Qed.

Fixpoint sp_new2 {S : Type} (s : sparse) (maxbits : nat) (ds : list (desc S)) (symidx : N) (cc : sescapes)
    : outcome (sparse * sescapes) :=
  match ds with
  | [] => Ret (s, cc)
  | d :: ds' =>
      let bits := d_bits d in
      if bits =? 0 then sp_new2 s maxbits ds' symidx cc
      else
        let! (s', cc') :=
          if bits <=? MAX_LUT_BITS then
            let! s1 := sp_fill_lut s 0 (d_code d) bits maxbits symidx false in Ret (s1, cc)
          else
            let! ckey := extract_lut_part (d_code d) bits MAX_LUT_BITS LSB in
            let! x := sp_index s ckey in
            if (x =? TABLE_FILL_VALUE)%N then
              match sp_find cc ckey with
              | Some b =>
                  let! (s1, b') := sp_alloc s 0 ckey b in
                  Ret (s1, sp_set cc ckey b')
              | None => Ret (s, cc)
              end
            else Ret (s, cc) in
        let! symidx' := add32 symidx 1 in
        sp_new2 s' maxbits ds' symidx' cc'
  end.

Lemma same_new2 : forall (S : Type) (ds : list (desc S)) maxbits t s symidx cc s' cc', same t s ->
  sp_new2 s maxbits ds symidx cc = Ret (s', cc') ->
  exists t', new_pass2 t LSB maxbits ds symidx (to_escapes cc) = Ret (t', to_escapes cc') /\ same t' s'.
Proof.
  intros S. induction ds as [|d ds IH]; intros maxbits t s symidx cc s' cc' HS E; cbn [sp_new2 new_pass2] in *.
  - injection E as <- <-. exists t. split; [reflexivity|exact HS].
  - destruct (d_bits d =? 0); [apply (IH _ _ _ _ _ _ _ HS E)|].
    match type of E with obind ?m _ = _ => destruct m as [[s1 cc1]| |] eqn:E1; try discriminate end.
    cbn [obind] in E. destruct (add32 symidx 1) as [y| |]; try discriminate. cbn [obind] in E.
    match goal with |- exists t', obind ?m _ = _ /\ _ =>
      assert (G : exists t1, m = Ret (t1, to_escapes cc1) /\ same t1 s1) end.
    { destruct (d_bits d <=? MAX_LUT_BITS).
      - destruct (sp_fill_lut s 0 (d_code d) (d_bits d) maxbits symidx false) as [s2| |] eqn:E2; try discriminate.
        cbn [obind] in E1. injection E1 as <- <-.
        destruct (same_fill_lut _ _ _ _ _ _ _ _ _ HS E2) as [t2 [Et H2]]. change (N.to_nat 0) with 0 in Et.
        rewrite Et. cbn [obind]. exists t2. split; [reflexivity|exact H2].
      - destruct (extract_lut_part (d_code d) (d_bits d) MAX_LUT_BITS LSB) as [k| |]; try discriminate. cbn [obind] in *.
        destruct (sp_index s k) as [x| |] eqn:Ex; try discriminate. cbn [obind] in E1.
        rewrite (same_index t s k x HS Ex). cbn [obind]. destruct (x =? TABLE_FILL_VALUE)%N.
        + rewrite to_find. destruct (sp_find cc k) as [b|]; cbn [option_map].
          * destruct (sp_alloc s 0 k b) as [[s2 b2]| |] eqn:E2; try discriminate. cbn [obind] in E1. injection E1 as <- <-.
            destruct (same_alloc _ _ _ _ _ _ _ HS E2) as [t2 [Et H2]]. change (N.to_nat 0) with 0 in Et.
            rewrite Et. cbn [obind]. exists t2. rewrite to_set. split; [reflexivity|exact H2].
          * injection E1 as <- <-. exists t. split; [reflexivity|exact HS].
        + injection E1 as <- <-. exists t. split; [reflexivity|exact HS]. }
    destruct G as [t1 [Et H1]]. rewrite Et. cbn [obind]. apply (IH _ _ _ _ _ _ _ H1 E).
Qed.

Definition sp_new {S : Type} (ds : list (desc S)) : outcome (option (sparse * nat)) :=
  let! (maxbits0, cc) := sp_new1 ds 0 0 [] in
  if maxbits0 =? 0 then Ret None
  else
    let maxbits := if MAX_LUT_BITS <? maxbits0 then MAX_LUT_BITS else maxbits0 in
    let! tab_len := shl32 1 maxbits in
    let! (s, cc') := sp_new2 (mk_sparse tab_len (PositiveMap.empty N)) maxbits ds 0 cc in
    let! s' := sp_build_all (fun s b => sp_build 26 s b) s cc' in
    Ret (Some (s', maxbits)).

Lemma same_blank : forall n, same (repeat TABLE_FILL_VALUE (N.to_nat n)) (mk_sparse n (PositiveMap.empty N)).
Proof.
  intros n. assert (B : forall q, sp_look (mk_sparse n (PositiveMap.empty N)) q = TABLE_FILL_VALUE).
  { intros q. unfold sp_look. cbn [sp_map]. rewrite PositiveMap.gempty. reflexivity. }
  split; [apply repeat_length|]. split; cbn [sp_len].
  - intros q Hq. rewrite B. apply nth_repeat. lia.
  - intros q _. apply B.
Qed.

Lemma same_new : forall (S : Type) (ds : list (desc S)) s n, sp_new ds = Ret (Some (s, n)) ->
  exists t, new_codebook in_order ds LSB = Ret (Okay (mk_codebook t (used_syms ds) n)) /\ same t s.
Proof.
  intros S ds s n E. unfold sp_new in E. unfold new_codebook.
  destruct (sp_new1 ds 0 0 []) as [[maxbits0 cc]| |] eqn:E1; try discriminate. cbn [obind] in E.
  apply same_new1 in E1. cbn [to_escapes map] in E1. change (N.to_nat 0) with 0 in E1. rewrite E1. cbn [obind].
  destruct (maxbits0 =? 0); [discriminate|].
  destruct (shl32 1 (if MAX_LUT_BITS <? maxbits0 then MAX_LUT_BITS else maxbits0)) as [len| |]; try discriminate.
  cbn [obind] in *.
  match type of E with obind ?m _ = _ => destruct m as [[s1 cc1]| |] eqn:E2; try discriminate end.
  cbn [obind] in E. destruct (same_new2 _ _ _ _ _ _ _ _ _ (same_blank len) E2) as [t1 [Et H1]]. rewrite Et. cbn [obind].
  match type of E with obind ?m _ = _ => destruct m as [s2| |] eqn:E3; try discriminate end.
  cbn [obind] in E. injection E as <- <-.
  destruct (same_build_all (fun s b => sp_build 26 s b)
     (fun t key b => build_esc_lut 26 in_order [key] t LSB b)) with (cc := cc1) (t := t1) (s := s1) (s' := s2) as [t2 [Et2 H2]].
  - intros t0 s0 key b0 s0' HS0 E0. apply (same_build 26 [key] t0 s0 b0 s0' HS0 E0).
  - exact H1.
  - exact E3.
  - unfold in_order at 2. rewrite Et2. cbn [obind]. exists t2. split; [reflexivity|exact H2].
Qed.

(** ** Reading *)

Fixpoint sp_read_loop {S : Type} (fuel : nat) (e : endian) (s : sparse) (syms : list S) (r : reader)
    (idx : N) (lut_bits : nat) : outcome (reader * result S codebook_error) :=
  match fuel with
  | O => Panic
  | S fuel' =>
      let! (_, v) := peek_bits_32 e r lut_bits in
      let! x := sp_index s (v + idx) in
      if (x =? TABLE_FILL_VALUE)%N then Ret (r, Error InvalidCode)
      else
        let bits := N.land x 127 in
        let esc := negb (N.land x 128 =? 0)%N in
        let idx' := N.shiftr x 8 in
        let! avail := available r in
        if (N.of_nat avail mod W32 <? bits)%N then Ret (r, Error InvalidCode)
        else
          let n := if esc then lut_bits else N.to_nat bits in
          let! r' := skip_bits e r n in
          if esc then sp_read_loop fuel' e s syms r' idx' (N.to_nat bits)
          else let! y := index_at syms (N.to_nat idx') in Ret (r', Okay y)
  end.

Lemma same_read : forall (S : Type) e s (syms : list S) t n, same t s -> forall fuel r idx lut_bits x,
  sp_read_loop fuel e s syms r idx lut_bits = Ret x ->
  read_loop fuel e (mk_codebook t syms n) r idx lut_bits = Ret x.
Proof.
  intros S e s syms t n HS. induction fuel as [|fuel IH]; intros r idx lut_bits x E; cbn [sp_read_loop read_loop] in *; [discriminate|].
  destruct (peek_bits_32 e r lut_bits) as [[r0 v]| |]; try discriminate. cbn [obind] in *. cbn [cb_table cb_syms].
  destruct (sp_index s (v + idx)) as [y| |] eqn:Ey; try discriminate. cbn [obind] in E.
  rewrite (same_index t s _ y HS Ey). cbn [obind]. destruct (y =? TABLE_FILL_VALUE)%N; [exact E|].
  destruct (available r) as [a| |]; try discriminate. cbn [obind] in *.
  destruct (N.of_nat a mod W32 <? N.land y 127)%N; [exact E|].
  match type of E with obind ?m _ = _ => destruct m as [r1| |]; try discriminate end. cbn [obind] in *.
  destruct (negb (N.land y 128 =? 0)%N); [apply IH; exact E|exact E].
Qed.
