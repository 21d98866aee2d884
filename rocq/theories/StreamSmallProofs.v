(** Peeks wider than the buffer. *)
From Coq Require Import List Arith NArith ZArith Bool Lia.
From Verif Require Import Base ByteModel AccModel AccSpec AccProofs AccProofs2 FormatModel MuxModel MuxSpec StreamModel StreamSpec.

Lemma small_buffer : forall (V : Type) k (get : list N -> outcome V), peek_never k (fun R fl r => stream_peek k get fl r).
Proof.
  intros V k get R i src good tell cap r ops a outs n a' v Hs Hg Ht Hl E Hk.
  destruct (reached i src good tell Hs cap r ops a outs Hg Ht Hl E) as [p [X _]].
  pose proof (run_size i src good tell Hs ops _ _ _ _ (new_rep src good tell cap r Hg Ht) Hl E) as L.
  cbn [with_capacity abuf] in L. rewrite repeat_length in L. clear Hl E outs.
  revert a X L. induction n as [|n IH]; intros a X L H; cbn [peek_retry] in H; [discriminate H|].
  destruct (fill_rep i src good tell Hs a p X) as (a1 & res & Ef & X1 & L1 & D).
  assert (Hp : exists e, stream_peek k get (fill_buf i) a = Ret (a1, Error e)).
  { unfold stream_peek. rewrite Ef. cbn [obind]. destruct res as [d|e]; [|eexists; reflexivity].
    destruct D as [D _]. rewrite (data_rep _ _ _ _ _ X1) in D. injection D as <-.
    pose proof (data_length _ _ _ _ _ X1) as Ld. pose proof (rp_end _ _ _ _ _ X1). unfold buffered in *.
    destruct (Nat.ltb_spec (length (firstn (aend a1 - apos a1) (skipn p src))) k); [eexists; reflexivity|lia]. }
  destruct Hp as [e Hp]. rewrite Hp in H. cbn [obind] in H.
  assert (L2 : length (abuf a1) = cap + grown ops) by lia.
  destruct e; try discriminate H; exact (IH a1 X1 L2 H).
Qed.

Lemma peeks_never :
  peek_never 1 (@speek_u8) /\
  peek_never 1 (@speek_i8) /\
  peek_never 2 (@speek_u16l) /\
  peek_never 2 (@speek_i16l) /\
  peek_never 4 (@speek_u32l) /\
  peek_never 4 (@speek_i32l) /\
  peek_never 8 (@speek_u64l) /\
  peek_never 8 (@speek_i64l) /\
  peek_never 4 (@speek_f32l) /\
  peek_never 8 (@speek_f64l) /\
  peek_never 2 (@speek_u16b) /\
  peek_never 2 (@speek_i16b) /\
  peek_never 4 (@speek_u32b) /\
  peek_never 4 (@speek_i32b) /\
  peek_never 8 (@speek_u64b) /\
  peek_never 8 (@speek_i64b) /\
  peek_never 4 (@speek_f32b) /\
  peek_never 8 (@speek_f64b).
Proof. repeat (apply conj; [apply small_buffer|]). apply small_buffer. Qed.
