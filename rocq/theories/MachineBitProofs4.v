(** Counting bits on any width of [usize], and buffers too long to count on 32 bits. *)
From Coq Require Import List Arith NArith ZArith Bool Lia.
From Coq Require Import ZifyBool ZifyNat ZifyN.
From Verif Require Import Base ByteModel BitModel BitSpec BitProofs BitQueueSpec WordBitModel WordSpec WordBitProofs ReleaseModel ReleaseBitModel ReleaseBitSpec ReleaseBitProofs.
From Verif Require Import CodebookModel CodebookSpec CodebookExamples ReleaseCbModel ReleaseCbSpec ReleaseCbProofs2.
From Verif Require Import MachineModel MachineBitModel MachineBitSpec MachineBitProofs MachineBitProofs2 MachineBitProofs3.
Import ListNotations.
Local Open Scope N_scope.

Lemma mb_ops_app m e : forall ops ops' r, mb_run_ops m e r (ops ++ ops') =
  (let! (r1, o1) := mb_run_ops m e r ops in let! (r2, o2) := mb_run_ops m e r1 ops' in Ret (r2, o1 ++ o2)).
Proof.
  induction ops as [|op ops IH]; intros ops' r; cbn [mb_run_ops app obind].
  - destruct (mb_run_ops m e r ops') as [[r2 o2]| |]; reflexivity.
  - destruct (mb_run_op m e r op) as [[r1 o]| |]; cbn [obind]; [|reflexivity..]. rewrite IH.
    destruct (mb_run_ops m e r1 ops) as [[r2 os]| |]; cbn [obind]; [|reflexivity..].
    destruct (mb_run_ops m e r2 ops') as [[r3 o3]| |]; reflexivity.
Qed.
Lemma mb_from_app m e buf ops op r outs : mb_run_from_new m e buf ops = Ret (r, outs) ->
  mb_run_from_new m e buf (ops ++ [op]) = (let! (r', o) := mb_run_op m e r op in Ret (r', outs ++ [o])).
Proof.
  unfold mb_run_from_new. destruct (mb_new m e buf) as [r0| |]; cbn [obind]; try discriminate. intros E. rewrite mb_ops_app, E. cbn [obind mb_run_ops].
  destruct (mb_run_op m e r op) as [[r1 o]| |]; reflexivity.
Qed.

Lemma counts_any m e buf ops r outs : checked m = true -> 8 <= bits m ->
  N.of_nat (length buf) + total_skip ops / 8 + 64 < 2 ^ bits m -> Forall (arg_on m) ops -> Forall reads ops ->
  run_from_new e buf ops = Ret (r, outs) ->
  mb_run_from_new m e buf (ops ++ [OpConsumed]) =
    (if 8 * N.of_nat (index r) <? 2 ^ bits m then let! c := consumed r in Ret (word_reader r, outs ++ [OutCount c]) else Panic) /\
  mb_run_from_new m e buf (ops ++ [OpAvailable]) =
    (let! a := available r in if N.of_nat a <? 2 ^ bits m then Ret (word_reader r, outs ++ [OutCount a]) else Panic).
Proof.
  intros Hc Hb S A R E. pose proof (run_any m Hc Hb e buf ops S A (or_introl R)) as G. rewrite E in G. cbn [obind] in G.
  rewrite !(mb_from_app m e buf ops _ _ _ G). cbn [mb_run_op]. split.
  - unfold mb_consumed, consumed, mmul, ranged, modulus. cbn [w_index w_left word_reader]. rewrite (N.mul_comm (N.of_nat (index r))).
    destruct (8 * N.of_nat (index r) <? 2 ^ bits m); [|rewrite Hc; reflexivity]. cbn [obind].
    replace (8 * N.of_nat (index r)) with (N.of_nat (index r * 8)) by lia. rewrite (msub_csub m Hc Hb).
    destruct (csub (index r * 8) (left r)) as [c| |]; cbn [omap obind]; [|reflexivity..]. rewrite Nat2N.id. reflexivity.
  - unfold mb_available, available, mmul, madd, ranged, modulus, w_len. cbn [w_index w_left w_buffer word_reader]. rewrite (msub_csub m Hc Hb).
    destruct (csub (length (buffer r)) (index r)) as [d| |]; cbn [omap obind]; [|reflexivity..].
    replace (N.of_nat (d * 8 + left r)) with (N.of_nat d * 8 + N.of_nat (left r)) by lia. rewrite Hc.
    destruct (N.ltb_spec (N.of_nat d * 8) (2 ^ bits m)) as [L|L]; cbn [obind].
    + destruct (N.of_nat d * 8 + N.of_nat (left r) <? 2 ^ bits m); cbn [obind]; [|reflexivity]. do 4 f_equal. f_equal. lia.
    + destruct (N.ltb_spec (N.of_nat d * 8 + N.of_nat (left r)) (2 ^ bits m)) as [L2|L2]; [lia|reflexivity].
Qed.

(** Histories with documented arguments, without checks *)
Lemma queue_any m e buf ops : checked m = false -> 8 <= bits m -> bits m <= 64 -> bytes buf -> Forall op_ok ops -> Forall (arg_on m) ops ->
  N.of_nat (length buf) + total_skip ops / 8 + 64 < 2 ^ bits m -> 8 * N.of_nat (length buf) + total_skip ops < 2 ^ 64 ->
  exists r, mb_run_from_new m e buf ops = Ret (r, map (narrow m) (snd (rq_run e buf ops))) /\
    w_left r = N.of_nat (length (waiting (fst (rq_run e buf ops)))).
Proof.
  intros Hc Hb Hw Hbuf Hok A S S64. destruct (release_queue e buf ops Hbuf Hok S64) as [r [E [L _]]]. exists r. split; [|exact L].
  rewrite (run_off m Hc Hb Hw e buf ops S A), E. reflexivity.
Qed.

(** ** Long buffers *)
Section Long.
Variables long_buf rest : list N.
Hypothesis long_shape : long_buf = [0; 0; 0; 0; 0; 0; 0; 0] ++ rest.
Hypothesis long_length : N.of_nat (length long_buf) = 2 ^ 29.
Hypothesis long_bytes : bytes long_buf.

(** The reader on such a buffer *)
Definition long_reader : wreader := mk_wreader long_buf 8 0 64.
Lemma long_new m : bits m = 32 -> mb_new m BE long_buf = Ret long_reader.
Proof.
  intros Hb. pose proof long_shape as E. unfold mb_new, mb_refill64, mb_can_refill. cbn [w_index w_buffer].
  assert (M : forall a, a < 4294967296 -> madd m 0 a = Ret a).
  { intros a Ha. unfold madd, ranged, modulus. rewrite Hb. change (2 ^ 32) with 4294967296. rewrite N.add_0_l. destruct (N.ltb_spec a 4294967296); [reflexivity|lia]. }
  rewrite M by reflexivity. cbn [obind]. unfold w_len at 1. cbn [w_buffer]. rewrite long_length. change (8 <=? 2 ^ 29) with true. cbn [negb].
  unfold w_fill64, w_rest, w_len. cbn [w_index w_buffer]. change (N.to_nat 0) with O. cbn [skipn].
  destruct (N.leb_spec 0 (N.of_nat (length long_buf))) as [_|K]; [|lia]. cbn [obind]. unfold long_reader. rewrite E.
  unfold get_u64b. rewrite app_length. cbn [length]. destruct (Nat.ltb_spec 7 (8 + length rest)) as [_|K]; [|lia].
  unfold index_at. cbn [app nth_error obind w_index w_buffer]. reflexivity.
Qed.

Lemma long_get32 m n : bits m = 32 -> 0 < n -> n < 64 -> mb_get_bits_32 m BE long_reader n = Ret (w_skip_rem BE long_reader n, 0).
Proof.
  intros Hb H0 H. unfold mb_get_bits_32. destruct (N.eqb_spec n 0); [lia|]. cbn [w_left long_reader]. destruct (N.leb_spec 64 n); [lia|]. cbn [obind].
  unfold mb_get_val, mb_peek_val, w_as_u32. rewrite N.mod_small by (change W32 with 4294967296; lia).
  destruct (N.leb_spec n 64); [|lia]. cbn [obind w_cache long_reader]. unfold checked_shr0. destruct (64 - n <? 64); [rewrite N.shiftr_0_l|]; reflexivity.
Qed.
Lemma long_available m : bits m = 32 -> mb_available m long_reader = if checked m then Panic else Ret 0.
Proof.
  intros Hb. unfold mb_available. change (w_index long_reader) with 8. change (w_left long_reader) with 64.
  change (w_len long_reader) with (N.of_nat (length long_buf)). rewrite long_length. unfold msub, mmul, madd, ranged, modulus. rewrite Hb.
  change (8 <=? 2 ^ 29) with true. cbv match. cbn [obind]. change ((2 ^ 29 - 8) * 8 <? 2 ^ 32) with true. cbv match. cbn [obind].
  change ((2 ^ 29 - 8) * 8 + 64 <? 2 ^ 32) with false. cbv match. destruct (checked m); reflexivity.
Qed.

(** A stream of 2^29 bytes: 2^32 bits, none of them available *)
Lemma long_not_counted : exists e buf, bytes buf /\ N.of_nat (length buf) < 2 ^ 31 /\
  (exists r, run_from_new e buf [OpAvailable] = Ret (r, [OutCount (8 * length buf)])) /\
  mb_run_from_new wasm32 e buf [OpAvailable] = Panic /\
  (exists r, mb_run_from_new wasm32_release e buf [OpAvailable] = Ret (r, [OutCount 0])).
Proof.
  exists BE, long_buf. pose proof long_length as L. split; [exact long_bytes|]. split; [rewrite L; reflexivity|]. split; [|split].
  - unfold run_from_new, new, refill64, can_refill. cbn [index buffer]. destruct (Nat.leb_spec (0 + 8) (length long_buf)) as [_|K]; [|exfalso; lia]. cbn [negb].
    rewrite (fill64_spec BE (mk_reader long_buf 0 0 0) long_bytes) by (cbn [index buffer]; lia). cbn [obind run_ops run_op]. unfold available, csub. cbn [index buffer left]. destruct (Nat.leb_spec (0 + 8) (length long_buf)) as [_|K]; [|exfalso; lia].
    cbn [obind]. eexists. do 4 f_equal. lia.
  - unfold mb_run_from_new. rewrite long_new by reflexivity. cbn [obind mb_run_ops mb_run_op]. rewrite long_available by reflexivity. reflexivity.
  - unfold mb_run_from_new. rewrite long_new by reflexivity. cbn [obind mb_run_ops mb_run_op]. rewrite long_available by reflexivity.
    cbn [checked wasm32_release obind]. eexists. reflexivity.
Qed.


(** A codeword at the start of such a stream: the table says one bit, but the bits cannot be counted *)
Definition tiny : list (desc nat) := [mk_desc 0 1 7%nat; mk_desc 1 1 9%nat].
Definition tiny_book : codebook nat := mk_codebook [1; 257] [7%nat; 9%nat] 1.
Lemma tiny_built : new_codebook (fun _ cc => cc) tiny MSB = Ret (Okay tiny_book).
Proof. vm_compute. reflexivity. Qed.
Lemma tiny_read m : bits m = 32 -> mb_read_cb m BE tiny_book long_reader = if checked m then Panic else Ret (long_reader, Error InvalidCode).
Proof.
  intros Hb. unfold mb_read_cb. cbn [mb_read_loop]. change (N.of_nat (cb_lut_bits tiny_book)) with 1. rewrite (long_get32 m 1 Hb) by reflexivity. cbn [obind].
  unfold mcast, madd, ranged, modulus. rewrite Hb. change (0 mod 2 ^ 32 + 0 <? 2 ^ 32) with true. cbv match. cbn [obind].
  change (index_at (cb_table tiny_book) (N.to_nat (0 mod 2 ^ 32 + 0))) with (Ret 1). cbn [obind]. change (1 =? TABLE_FILL_VALUE) with false. cbv match.
  rewrite (long_available m Hb). destruct (checked m); reflexivity.
Qed.
Lemma long_codeword : exists ord (ds : list (desc nat)) cb buf d, permuting ord /\ valid_description MSB ds /\ new_codebook ord ds MSB = Ret (Okay cb) /\
  bytes buf /\ N.of_nat (length buf) < 2 ^ 31 /\ In d ds /\ window (bits_of BE buf) 0 (d_bits d) = word MSB d /\
  mb_mixed_from_new wasm32 BE cb buf [Codeword d] = Panic /\
  exists r, mb_mixed_from_new wasm32_release BE cb buf [Codeword d] = Ret (r, [Sym (Error InvalidCode)]).
Proof.
  exists (fun _ cc => cc), tiny, tiny_book, long_buf, (mk_desc 0 1 7%nat). pose proof long_shape as E.
  split; [intros l cc; apply Permutation.Permutation_refl|]. split; [apply validb_sound; vm_compute; reflexivity|]. split; [exact tiny_built|].
  split; [exact long_bytes|]. split; [rewrite long_length; reflexivity|]. split; [left; reflexivity|]. split; [rewrite E; reflexivity|].
  split.
  - unfold mb_mixed_from_new. rewrite long_new by reflexivity. cbn [obind mb_run_mixed]. rewrite tiny_read by reflexivity. reflexivity.
  - unfold mb_mixed_from_new. rewrite long_new by reflexivity. cbn [obind mb_run_mixed]. rewrite tiny_read by reflexivity. cbn [checked wasm32_release obind].
    eexists. reflexivity.
Qed.
End Long.

Lemma long_exists : exists buf rest, buf = [0; 0; 0; 0; 0; 0; 0; 0] ++ rest /\ N.of_nat (length buf) = 2 ^ 29 /\ bytes buf.
Proof.
  set (n := N.to_nat (2 ^ 29 - 8)). assert (En : N.of_nat n = 2 ^ 29 - 8) by apply N2Nat.id. clearbody n.
  exists ([0; 0; 0; 0; 0; 0; 0; 0] ++ repeat 0 n), (repeat 0 n). split; [reflexivity|]. split.
  - rewrite app_length, repeat_length, Nat2N.inj_add, En. reflexivity.
  - apply Forall_app. split; [repeat constructor|]. apply Forall_forall. intros x Hx. apply repeat_spec in Hx. subst x. reflexivity.
Qed.
Lemma available_refuted : exists e buf, bytes buf /\ N.of_nat (length buf) < 2 ^ 31 /\
  (exists r, run_from_new e buf [OpAvailable] = Ret (r, [OutCount (8 * length buf)])) /\
  mb_run_from_new wasm32 e buf [OpAvailable] = Panic /\
  (exists r, mb_run_from_new wasm32_release e buf [OpAvailable] = Ret (r, [OutCount 0])).
Proof. destruct long_exists as [buf [rest [H1 [H2 H3]]]]. exact (long_not_counted buf rest H1 H2 H3). Qed.
Lemma codeword_refuted : exists ord (ds : list (desc nat)) cb buf d, permuting ord /\ valid_description MSB ds /\ new_codebook ord ds MSB = Ret (Okay cb) /\
  bytes buf /\ N.of_nat (length buf) < 2 ^ 31 /\ In d ds /\ window (bits_of BE buf) 0 (d_bits d) = word MSB d /\
  mb_mixed_from_new wasm32 BE cb buf [Codeword d] = Panic /\
  exists r, mb_mixed_from_new wasm32_release BE cb buf [Codeword d] = Ret (r, [Sym (Error InvalidCode)]).
Proof. destruct long_exists as [buf [rest [H1 [H2 H3]]]]. exact (long_codeword buf rest H1 H2 H3). Qed.
