(** Stream getters and interruptions. *)
From Coq Require Import List Arith NArith ZArith Bool Lia.
From Verif Require Import Base ByteModel ByteSpec AccModel AccSpec FormatModel MuxModel MuxSpec StreamModel StreamSpec StreamProofs.
Import ListNotations.
Local Open Scope nat_scope.

Section Reader.
Context {R : Type}.
Variable rd : reader R.
Hypothesis Hm : modest rd.

Lemma uninterrupted : never_interrupts rd -> forall fuel r buf nread,
  get_buffer rd fuel r buf nread = std_read_exact rd fuel r buf nread.
Proof.
  intros H. induction fuel as [|fuel IH]; intros r buf nread; cbn [get_buffer std_read_exact]; [reflexivity|].
  destruct (nread <? length buf); [|reflexivity].
  destruct (slice buf nread (length buf)) as [tail| |]; cbn [obind]; [|reflexivity..].
  destruct (rd r tail) as [[[r' tail'] res]| |] eqn:E; cbn [obind]; [|reflexivity..].
  destruct res as [[|n]|e]; [reflexivity|rewrite (proj2 (Nat.leb_le _ _) (Hm _ _ _ _ _ E)); apply IH|].
  destruct e; try reflexivity. exfalso. exact (H r tail r' tail' E).
Qed.

Lemma interrupted : forall fuel r buf nread,
  get_buffer rd fuel r buf nread = std_read_exact rd fuel r buf nread \/
  exists r' buf', get_buffer rd fuel r buf nread = Ret (r', buf', Some (Error Interrupted)) /\
    forall src good tell p0, reader_ok rd src good tell -> good r -> nread <= length buf -> tell r = p0 + nread ->
      firstn nread buf = firstn nread (skipn p0 src) -> nread <= length src - p0 ->
      exists n fuel', good r' /\ n < length buf /\ n <= length src - p0 /\ tell r' = p0 + n /\ fuel' < fuel /\
        length buf' = length buf /\ firstn n buf' = firstn n (skipn p0 src) /\
        std_read_exact rd fuel r buf nread = std_read_exact rd fuel' r' buf' n.
Proof.
  induction fuel as [|fuel IH]; intros r buf nread; cbn [get_buffer std_read_exact]; [left; reflexivity|].
  destruct (Nat.ltb_spec nread (length buf)) as [Hlt|Hge]; [|left; reflexivity].
  destruct (slice buf nread (length buf)) as [tail| |] eqn:Es; cbn [obind]; [|left; reflexivity..].
  destruct (rd r tail) as [[[r' tail'] res]| |] eqn:E; cbn [obind]; [|left; reflexivity..].
  destruct res as [[|k]|e]; [left; reflexivity| |].
  - rewrite (proj2 (Nat.leb_le _ _) (Hm _ _ _ _ _ E)). destruct (IH r' (with_tail buf nread tail') (nread + S k)) as [HL|[r2 [buf2 [E2 H2]]]]; [left; exact HL|].
    right. exists r2, buf2. split; [exact E2|]. intros src good tell p0 Hrd Hg Hn Ht Hf Ha.
    destruct (fill_step rd src good tell Hrd r buf nread p0 Hg Hlt Ht Hf Ha) as [tl [q [tl' [rs [F1 [F2 [Hg' [Hl Hr]]]]]]]].
    assert (tl = tail) as -> by congruence. assert (q = r') as -> by congruence. assert (tl' = tail') as -> by congruence.
    assert (rs = Okay (S k)) as -> by congruence. destruct Hr as [K1 [K2 [K3 [K4 _]]]].
    destruct (H2 src good tell p0 Hrd Hg') as [n [fuel' [A1 [A2 [A3 [A4 [A5 [A6 [A7 A8]]]]]]]]]; [lia|exact K2|exact K4|exact K3|].
    exists n, fuel'. rewrite Hl in *. repeat (split; [assumption || lia|]). exact A8.
  - destruct e; try (left; reflexivity). right. eexists _, _. split; [reflexivity|].
    intros src good tell p0 Hrd Hg Hn Ht Hf Ha.
    destruct (fill_step rd src good tell Hrd r buf nread p0 Hg Hlt Ht Hf Ha) as [tl [q [tl' [rs [F1 [F2 [Hg' [Hl Hr]]]]]]]].
    assert (tl = tail) as -> by congruence. assert (q = r') as -> by congruence. assert (tl' = tail') as -> by congruence.
    assert (rs = Error Interrupted) as -> by congruence. destruct Hr as [K1 K2].
    exists nread, fuel. repeat (split; [assumption || lia|]). reflexivity.
Qed.
End Reader.

Lemma exact_of : forall (V : Type) k (get : list N -> outcome V), as_read_exact k get (fun R rd fuel r => stream_get k get rd fuel r).
Proof. intros V k get R rd H Hm fuel r. unfold stream_get, exact_then. rewrite (uninterrupted rd Hm H). reflexivity. Qed.

Lemma loses_of : forall (V : Type) k (get : list N -> outcome V), loses_bytes k get (fun R rd fuel r => stream_get k get rd fuel r).
Proof.
  intros V k get R rd Hm fuel r. unfold stream_get, exact_then.
  destruct (interrupted rd Hm fuel r (repeat 0%N k) 0) as [->|[r' [buf' [E H]]]]; [left; reflexivity|].
  right. exists r'. rewrite E. cbn [obind]. split; [reflexivity|]. intros src good tell Hrd Hg.
  destruct (H src good tell (tell r) Hrd Hg) as [n [fuel' [A1 [A2 [A3 [A4 [A5 [A6 [A7 A8]]]]]]]]]; [lia|lia|reflexivity|lia|].
  rewrite repeat_length in *. exists n, fuel', buf'. repeat (split; [assumption|]). exact A8.
Qed.

Lemma c68_exact :
  as_read_exact 1 get_u8 (@sget_u8) /\
  as_read_exact 1 get_i8 (@sget_i8) /\
  as_read_exact 2 get_u16l (@sget_u16l) /\
  as_read_exact 2 get_i16l (@sget_i16l) /\
  as_read_exact 4 get_u32l (@sget_u32l) /\
  as_read_exact 4 get_i32l (@sget_i32l) /\
  as_read_exact 8 get_u64l (@sget_u64l) /\
  as_read_exact 8 get_i64l (@sget_i64l) /\
  as_read_exact 4 get_f32l (@sget_f32l) /\
  as_read_exact 8 get_f64l (@sget_f64l) /\
  as_read_exact 2 get_u16b (@sget_u16b) /\
  as_read_exact 2 get_i16b (@sget_i16b) /\
  as_read_exact 4 get_u32b (@sget_u32b) /\
  as_read_exact 4 get_i32b (@sget_i32b) /\
  as_read_exact 8 get_u64b (@sget_u64b) /\
  as_read_exact 8 get_i64b (@sget_i64b) /\
  as_read_exact 4 get_f32b (@sget_f32b) /\
  as_read_exact 8 get_f64b (@sget_f64b).
Proof. split; [apply exact_of|]. repeat (split; [apply exact_of|]). apply exact_of. Qed.

Lemma c68_loses :
  loses_bytes 1 get_u8 (@sget_u8) /\
  loses_bytes 1 get_i8 (@sget_i8) /\
  loses_bytes 2 get_u16l (@sget_u16l) /\
  loses_bytes 2 get_i16l (@sget_i16l) /\
  loses_bytes 4 get_u32l (@sget_u32l) /\
  loses_bytes 4 get_i32l (@sget_i32l) /\
  loses_bytes 8 get_u64l (@sget_u64l) /\
  loses_bytes 8 get_i64l (@sget_i64l) /\
  loses_bytes 4 get_f32l (@sget_f32l) /\
  loses_bytes 8 get_f64l (@sget_f64l) /\
  loses_bytes 2 get_u16b (@sget_u16b) /\
  loses_bytes 2 get_i16b (@sget_i16b) /\
  loses_bytes 4 get_u32b (@sget_u32b) /\
  loses_bytes 4 get_i32b (@sget_i32b) /\
  loses_bytes 8 get_u64b (@sget_u64b) /\
  loses_bytes 8 get_i64b (@sget_i64b) /\
  loses_bytes 4 get_f32b (@sget_f32b) /\
  loses_bytes 8 get_f64b (@sget_f64b).
Proof. split; [apply loses_of|]. repeat (split; [apply loses_of|]). apply loses_of. Qed.

Lemma cursor_modest : modest (io_reader cursor_io).
Proof.
  intros c dst c' dst' n E. assert (E' : cursor_read c dst = (c', dst', Okay n)) by (unfold io_reader in E; cbn [io_read cursor_io] in E; congruence).
  unfold cursor_read in E'. destruct (cur_script c) as [|[limit|e] rest]; [| |discriminate E'];
    assert (n <= Nat.min (length dst) (length (skipn (cur_pos c) (cur_src c)))) by (injection E' as _ _ <-; lia); lia.
Qed.
