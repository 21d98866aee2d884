(** Concrete descriptions and streams used as examples and witnesses. *)
From Coq Require Import List Arith NArith ZArith Bool Lia Permutation.
From Coq Require Import ZifyBool ZifyNat ZifyN.
From Verif Require Import Base BitModel BitSpec BitProofs CodebookModel CodebookSpec CodebookProofs5.
Import ListNotations.
Local Open Scope nat_scope.

Definition demo_desc (m : mode) : list (desc nat) :=
  match m with
  | MSB => [mk_desc 0 1 10; mk_desc 2 2 20; mk_desc 3072 12 30; mk_desc 3073 12 31; mk_desc 5 0 99;
            mk_desc 29360128 25 40; mk_desc 4294967295 32 50]
  | LSB => [mk_desc 0 1 10; mk_desc 1 2 20; mk_desc 3 12 30; mk_desc 2051 12 31; mk_desc 5 0 99;
            mk_desc 7 25 40; mk_desc 4294967295 32 50]
  end.

(** Words 30, 50 and 10, a bit 1, word 40, one bit to skip, word 20. *)
Definition demo_bits : list bool :=
  [true; true] ++ repeat false 10 ++ repeat true 32 ++ [false] ++ [true] ++
  [true; true; true] ++ repeat false 22 ++ [true] ++ [true; false] ++ repeat true 17.
Definition demo_stream (m : mode) : list N := pack (reader_for m) 20 demo_bits.
Definition demo_steps (m : mode) : list (step nat) :=
  match m with
  | MSB => [Codeword (mk_desc 3072 12 30); Call OpConsumed; Codeword (mk_desc 4294967295 32 50);
            Codeword (mk_desc 0 1 10); Call OpGetBit; Codeword (mk_desc 29360128 25 40); Call (OpSkip 1);
            Codeword (mk_desc 2 2 20)]
  | LSB => [Codeword (mk_desc 3 12 30); Call OpConsumed; Codeword (mk_desc 4294967295 32 50);
            Codeword (mk_desc 0 1 10); Call OpGetBit; Codeword (mk_desc 7 25 40); Call (OpSkip 1);
            Codeword (mk_desc 1 2 20)]
  end.

(** Deciding validity. *)
Fixpoint is_prefixb (a b : list bool) : bool :=
  match a, b with
  | [], _ => true
  | _, [] => false
  | x :: a', y :: b' => Bool.eqb x y && is_prefixb a' b'
  end.
Lemma is_prefixb_complete : forall a b, is_prefix a b -> is_prefixb a b = true.
Proof.
  intros a b [c ->]. induction a as [|x a IH]; [reflexivity|]. cbn. rewrite Bool.eqb_reflx. exact IH.
Qed.

Definition pairs_okb {S : Type} (m : mode) (ds : list (desc S)) : bool :=
  forallb (fun i => forallb (fun j =>
    match nth_error ds i, nth_error ds j with
    | Some a, Some b =>
        (i =? j) || (d_bits a =? 0) || (d_bits b =? 0) || negb (is_prefixb (word m a) (word m b))
    | _, _ => true
    end) (seq 0 (length ds))) (seq 0 (length ds)).
Definition validb {S : Type} (m : mode) (ds : list (desc S)) : bool :=
  forallb (fun d => (d_bits d =? 0) || ((d_bits d <=? longest m) && (d_code d <? 2 ^ N.of_nat (d_bits d))%N && (d_code d <? 2 ^ 32)%N)) ds
  && pairs_okb m ds && (N.of_nat (length (words m ds)) <=? 2 ^ 24)%N
  && (table_entries (words m ds) <=? 2 ^ 24)%N.

Lemma validb_sound : forall (S : Type) m (ds : list (desc S)), validb m ds = true -> valid_description m ds.
Proof.
  intros S m ds H. unfold validb in H. apply andb_prop in H as [H H4]. apply andb_prop in H as [H H3].
  apply andb_prop in H as [H1 H2]. split; [|split; [|split]].
  - intros d Hd Hu. rewrite forallb_forall in H1. specialize (H1 d Hd). unfold used in Hu.
    apply orb_prop in H1 as [H1|H1]; [apply Nat.eqb_eq in H1; lia|]. apply andb_prop in H1 as [H1 C]. apply andb_prop in H1 as [A B].
    apply Nat.leb_le in A. apply N.ltb_lt in B. apply N.ltb_lt in C. split; [exact A|]. split; assumption.
  - intros i j a b Ha Hb Hij Hua Hub Hp. unfold pairs_okb in H2. rewrite forallb_forall in H2.
    assert (Li : i < length ds) by (apply nth_error_Some; congruence).
    assert (Lj : j < length ds) by (apply nth_error_Some; congruence).
    specialize (H2 i). rewrite forallb_forall in H2.
    specialize (H2 ltac:(apply in_seq; lia) j ltac:(apply in_seq; lia)). rewrite Ha, Hb in H2.
    unfold used in *. apply is_prefixb_complete in Hp. rewrite Hp in H2.
    destruct (Nat.eqb_spec i j); [lia|]. destruct (Nat.eqb_spec (d_bits a) 0); [lia|].
    destruct (Nat.eqb_spec (d_bits b) 0); [lia|]. discriminate.
  - apply N.leb_le. exact H3.
  - apply N.leb_le. exact H4.
Qed.

(** Words as long as they can be. *)
Definition long_words (m : mode) : list (desc nat) :=
  match m with
  | MSB => [mk_desc 1 1 1; mk_desc 4294967295 41 2; mk_desc 7 41 3; mk_desc 3 12 4]
  | LSB => [mk_desc 1 1 1; mk_desc 4294967294 255 2; mk_desc 2 255 3; mk_desc 4 12 4]
  end.
Lemma long_words_read : forall m, valid_description m (long_words m) /\
  (let! res := new_codebook (fun _ cc => cc) (long_words m) m in
   match res with
   | Error _ => Panic
   | Okay cb =>
       let! r0 := new (reader_for m) (encode m (long_words m)) in
       let! (r, out) := run_mixed (reader_for m) cb r0 (map Codeword (long_words m)) in
       let! n := consumed r in Ret (out, n)
   end) = Ret ([Sym (Okay 1); Sym (Okay 2); Sym (Okay 3); Sym (Okay 4)], match m with MSB => 95 | LSB => 523 end).
Proof.
  intros m. split; [apply validb_sound; destruct m; vm_compute; reflexivity|].
  destruct m; vm_compute; reflexivity.
Qed.

Lemma demo_valid : forall m, valid_description m (demo_desc m).
Proof. intros m. apply validb_sound. destruct m; vm_compute; reflexivity. Qed.

Lemma demo_history : forall m,
  valid_description m (demo_desc m) /\ bytes (demo_stream m) /\ 8 <= length (demo_stream m) /\
  (N.of_nat (8 * length (demo_stream m)) < 2 ^ 32)%N /\
  steps_within m (demo_desc m) (bits_of (reader_for m) (demo_stream m)) (8 * length (demo_stream m) - 64) 0
    (demo_steps m) /\
  snd (spec_steps m (bits_of (reader_for m) (demo_stream m)) 0 (demo_steps m)) =
    [Sym (Okay 30); Out (OutCount 12); Sym (Okay 50); Sym (Okay 10); Out (OutBit true);
     Sym (Okay 40); Out OutUnit; Sym (Okay 20)].
Proof.
  intros m. split; [apply demo_valid|]. split; [apply pack_bytes|].
  split; [apply Nat.leb_le; destruct m; vm_compute; reflexivity|].
  split; [destruct m; vm_compute; reflexivity|]. split.
  - replace (8 * length (demo_stream m) - 64) with 96 by (unfold demo_stream; rewrite pack_length; reflexivity).
    destruct m; cbn [demo_steps steps_within demo_desc reader_for];
      repeat match goal with
      | |- _ /\ _ => split
      | |- True => exact I
      | |- In _ _ => cbn; repeat (first [left; reflexivity|right]; idtac); fail
      | |- In _ _ => cbn; tauto
      | |- used _ => unfold used; apply Nat.ltb_lt; vm_compute; reflexivity
      | |- op_ok _ => vm_compute; auto; fail
      | |- _ <= _ => apply Nat.leb_le; vm_compute; reflexivity
      | |- _ = _ => vm_compute; reflexivity
      end.
  - destruct m; vm_compute; reflexivity.
Qed.

(** 10, then 11000000000 and a wrong last bit pattern for the words 30 and 31
    would need 12 zeros or 11 zeros and a one; here the word goes 1100000001. *)
Definition reject_stream : list N :=
  pack BE 16 ([true; false] ++ [true; true; false; false; false; false; false; false; false; true] ++ repeat false 60).
Lemma reject_history :
  steps_within MSB (demo_desc MSB) (bits_of BE reject_stream) (8 * length reject_stream - 64) 0 [Codeword (mk_desc 2 2 20)] /\
  (forall d, In d (demo_desc MSB) -> used d -> 2 + d_bits d + 64 <= 8 * length reject_stream) /\
  (forall d, In d (demo_desc MSB) -> used d -> ~ is_prefix (word MSB d) (skipn 2 (bits_of BE reject_stream))).
Proof.
  split; [|split].
  - cbn [steps_within]. split; [cbn; tauto|]. split; [unfold used; apply Nat.ltb_lt; reflexivity|].
    split; [apply Nat.leb_le; vm_compute; reflexivity|]. split; [vm_compute; reflexivity|exact I].
  - intros d Hd _. cbn [demo_desc In] in Hd. unfold reject_stream. rewrite pack_length.
    repeat (destruct Hd as [<-|Hd]; [apply Nat.leb_le; vm_compute; reflexivity|]). destruct Hd.
  - intros d Hd Hu Hp. apply is_prefixb_complete in Hp. cbn [demo_desc In] in Hd.
    repeat (destruct Hd as [<-|Hd]; [vm_compute in Hp; first [discriminate Hp|unfold used in Hu; cbn in Hu; lia]|]). destruct Hd.
Qed.

Lemma demo_table : forall m, exists cb, new_codebook (fun _ cc => cc) (demo_desc m) m = Ret (Okay cb) /\
  length (cb_table cb) = 1024 + 4 + 1024 + 32 + 1024 + 1024 + 4.
Proof.
  intros m. destruct (construction_total nat (fun _ cc => cc) m (demo_desc m)) as [H _].
  - intros path cc. apply Permutation_refl.
  - apply demo_valid.
  - destruct H as [cb Hcb].
    + exists (nth 0 (demo_desc m) (mk_desc 0 0 0)). destruct m; (split; [left; reflexivity|]); unfold used; apply Nat.ltb_lt; reflexivity.
    + exists cb. split; [exact Hcb|].
      assert (G : match new_codebook (fun _ cc => cc) (demo_desc m) m with
                  | Ret (Okay cb) => length (cb_table cb) =? 1024 + 4 + 1024 + 32 + 1024 + 1024 + 4 | _ => false end = true)
        by (destruct m; vm_compute; reflexivity).
      rewrite Hcb in G. apply Nat.eqb_eq in G. exact G.
Qed.

Lemma id_permuting : permuting (fun _ cc => cc).
Proof. intros path cc. apply Permutation_refl. Qed.

(** Two escapes at the first level, two below the first one. *)
Definition order_desc : list (desc nat) :=
  [mk_desc 0 11 1; mk_desc 2 11 2; mk_desc 12582912 24 3; mk_desc 12589056 24 4; mk_desc 1024 11 5].
Definition differ (a b : outcome (result (codebook nat) codebook_error)) : bool :=
  match a, b with
  | Ret (Okay cb1), Ret (Okay cb2) => if list_eq_dec N.eq_dec (cb_table cb1) (cb_table cb2) then false else true
  | _, _ => false
  end.
Lemma differ_sound : forall a b, differ a b = true ->
  exists cb1 cb2, a = Ret (Okay cb1) /\ b = Ret (Okay cb2) /\ cb_table cb1 <> cb_table cb2.
Proof.
  intros [[cb1|]| |] [[cb2|]| |] H; try discriminate H. exists cb1, cb2. split; [reflexivity|]. split; [reflexivity|].
  cbn [differ] in H. destruct (list_eq_dec N.eq_dec (cb_table cb1) (cb_table cb2)); [discriminate|assumption].
Qed.
Lemma orders_differ : permuting (fun _ cc => cc) /\ permuting (fun _ cc => rev cc) /\
  exists cb1 cb2, new_codebook (fun _ cc => cc) order_desc MSB = Ret (Okay cb1) /\
    new_codebook (fun _ cc => rev cc) order_desc MSB = Ret (Okay cb2) /\ cb_table cb1 <> cb_table cb2.
Proof.
  split; [exact id_permuting|]. split; [intros path cc; apply Permutation_rev|].
  apply differ_sound. vm_compute. reflexivity.
Qed.

Definition trunc_desc : list (desc nat) := [mk_desc 2641 12 7].
Definition trunc_buf : list N := [0; 0; 0; 0; 0; 0; 0; 165]%N.
Lemma truncated_witness : exists ord m (ds : list (desc nat)) cb buf r0 r outs r' s,
  permuting ord /\ valid_description m ds /\ new_codebook ord ds m = Ret (Okay cb) /\ bytes buf /\
  new (reader_for m) buf = Ret r0 /\ run_mixed (reader_for m) cb r0 [Call (OpGet64 56)] = Ret (r, outs) /\
  available r = Ret 8 /\ (forall d, In d ds -> used d -> 12 <= d_bits d) /\
  read_cb (reader_for m) cb r = Ret (r', Okay s).
Proof.
  exists (fun _ cc => cc), MSB, trunc_desc. eexists. exists trunc_buf. eexists _, _, _, _, _.
  split; [exact id_permuting|]. split; [apply validb_sound; vm_compute; reflexivity|].
  split; [vm_compute; reflexivity|]. split; [repeat (constructor; [reflexivity|]); constructor|].
  split; [vm_compute; reflexivity|]. split; [vm_compute; reflexivity|]. split; [vm_compute; reflexivity|].
  split; [intros d [<-|[]] _; apply Nat.leb_le; reflexivity|]. vm_compute. reflexivity.
Qed.

Lemma moved_witness : exists ord m (ds : list (desc nat)) cb buf r0 r',
  permuting ord /\ valid_description m ds /\ new_codebook ord ds m = Ret (Okay cb) /\ bytes buf /\
  new (reader_for m) buf = Ret r0 /\ read_cb (reader_for m) cb r0 = Ret (r', Error InvalidCode) /\
  consumed r0 = Ret 0 /\ consumed r' = Ret 10.
Proof.
  exists (fun _ cc => cc), MSB, trunc_desc. eexists. exists ([165; 15] ++ repeat 0 22)%N. eexists _, _.
  split; [exact id_permuting|]. split; [apply validb_sound; vm_compute; reflexivity|].
  split; [vm_compute; reflexivity|]. split; [repeat (constructor; [reflexivity|]); constructor|].
  split; [vm_compute; reflexivity|]. split; [vm_compute; reflexivity|]. split; vm_compute; reflexivity.
Qed.

(** Three words of 1, 2 and 3 bits, 111 stays free; two bits 11 do not suffice. *)
Definition short_desc : list (desc nat) := [mk_desc 0 1 1; mk_desc 2 2 2; mk_desc 6 3 3].
Lemma short_example : exists cb r, new_codebook (fun _ cc => cc) short_desc MSB = Ret (Okay cb) /\
  valid_description MSB short_desc /\ (forall d, In d short_desc -> d_bits d <= 10) /\
  new BE (repeat 255%N 8) = Ret r /\
  exists r1 outs, run_mixed BE cb r [Call (OpGet64 62)] = Ret (r1, outs) /\ available r1 = Ret 2 /\
    read_cb BE cb r1 = Ret (r1, Error InvalidCode).
Proof.
  eexists _, _. split; [vm_compute; reflexivity|]. split; [apply validb_sound; vm_compute; reflexivity|].
  split; [intros d Hd; cbn in Hd; repeat (destruct Hd as [<-|Hd]; [cbn; lia|]); destruct Hd|].
  split; [vm_compute; reflexivity|]. eexists _, _. split; [vm_compute; reflexivity|]. split; vm_compute; reflexivity.
Qed.

Lemma huge_buffer_witness : exists ord m (ds : list (desc nat)) cb buf r0 d,
  permuting ord /\ valid_description m ds /\ new_codebook ord ds m = Ret (Okay cb) /\ bytes buf /\
  new (reader_for m) buf = Ret r0 /\ In d ds /\ used d /\
  window (bits_of (reader_for m) buf) 0 (d_bits d) = word m d /\ d_bits d + 64 <= 8 * length buf /\
  read_cb (reader_for m) cb r0 = Ret (r0, Error InvalidCode).
Proof.
  assert (G : exists k, N.of_nat k = (2 ^ 29)%N /\ 9 <= k).
  { exists (N.to_nat (2 ^ 29)). rewrite Nnat.N2Nat.id. split; [reflexivity|].
    assert (N.of_nat 9 <= 2 ^ 29)%N by (apply N.leb_le; vm_compute; reflexivity).
    apply Nat.leb_le. rewrite <- (Nnat.Nat2N.id 9). apply Nat.leb_le.
    rewrite <- (Nnat.Nat2N.id 9) in H. lia. }
  destruct G as [k [Hk Hk9]].
  assert (Hb : bytes (repeat 0%N k)).
  { unfold bytes. apply Forall_forall. intros x Hx. apply repeat_spec in Hx. subst x. reflexivity. }
  destruct (huge_buffer BE (repeat 0%N k) Hb) as [r [E1 E2]]; [rewrite repeat_length; exact Hk|].
  exists (fun _ cc => cc), MSB, [mk_desc 0 1 0; mk_desc 1 1 1]. eexists. exists (repeat 0%N k), r, (mk_desc 0 1 0).
  split; [exact id_permuting|]. split; [apply validb_sound; vm_compute; reflexivity|].
  split; [vm_compute; reflexivity|]. split; [exact Hb|]. split; [exact E1|]. split; [left; reflexivity|].
  split; [unfold used; apply Nat.ltb_lt; reflexivity|]. cbn [d_bits].
  split.
  - clear - Hk9. destruct k as [|k]; [lia|]. reflexivity.
  - split; [rewrite repeat_length; lia|]. exact E2.
Qed.

Fixpoint mixed_okb {S : Type} (e : endian) (cb : codebook S) (r : reader) (steps : list (step S)) : bool :=
  match steps with
  | [] => true
  | Call op :: steps' =>
      (match op with
       | OpSkip n => match available r with Ret a => n <=? a | _ => false end
       | OpGet32 n | OpPeek32 n => n <=? 32
       | OpGet64 n | OpPeek64 n => n <=? 64
       | _ => true end) &&
      match run_op e r op with Ret (r', _) => mixed_okb e cb r' steps' | _ => true end
  | Codeword _ :: steps' =>
      match read_cb e cb r with Ret (r', _) => mixed_okb e cb r' steps' | _ => true end
  end.
Lemma mixed_okb_sound : forall (S : Type) e (cb : codebook S) steps r, mixed_okb e cb r steps = true -> mixed_ok e cb r steps.
Proof.
  intros S e cb. induction steps as [|[op|d] steps IH]; intros r H; cbn [mixed_ok mixed_okb] in *; [exact I| |].
  - apply andb_prop in H as [H1 H2]. split; [|split].
    + destruct op; cbn [op_ok]; try exact I; apply Nat.leb_le in H1; exact H1.
    + intros n a -> Ha. rewrite Ha in H1. apply Nat.leb_le. exact H1.
    + intros r' o E. rewrite E in H2. apply IH. exact H2.
  - intros r' s E. rewrite E in H. apply IH. exact H.
Qed.

Lemma never_panics_example : exists cb r0, new_codebook (fun _ cc => cc) (demo_desc LSB) LSB = Ret (Okay cb) /\
  new BE (repeat 0%N 8) = Ret r0 /\
  mixed_ok BE cb r0 [Call (OpGet32 32); Codeword (mk_desc 0 1 10); Call (OpSkip 29); Codeword (mk_desc 0 1 10);
                     Codeword (mk_desc 0 1 10); Codeword (mk_desc 0 1 10)].
Proof.
  destruct (demo_table LSB) as [cb [Hcb _]]. exists cb. eexists. split; [exact Hcb|]. split; [vm_compute; reflexivity|].
  apply mixed_okb_sound.
  assert (G : match new_codebook (fun _ cc => cc) (demo_desc LSB) LSB with
    | Ret (Okay cb) => match new BE (repeat 0%N 8) with Ret r0 => mixed_okb BE cb r0
        [Call (OpGet32 32); Codeword (mk_desc 0 1 10); Call (OpSkip 29); Codeword (mk_desc 0 1 10);
                     Codeword (mk_desc 0 1 10); Codeword (mk_desc 0 1 10)] | _ => false end
    | _ => false end = true) by (vm_compute; reflexivity).
  rewrite Hcb in G. exact G.
Qed.
