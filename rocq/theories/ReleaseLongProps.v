(** C189: what becomes of MSB codewords of 42 bits and more in a build without overflow checks. *)
From Coq Require Import List Arith NArith ZArith Bool.
From Verif Require Import Base BitModel BitSpec BitQueueSpec WordBitModel WordSpec ReleaseBitModel ReleaseBitSpec CodebookModel CodebookSpec
  CbQueueSpec ReleaseCbModel ReleaseCbSpec ReleaseLongSpec ReleaseLongProofs2 ReleaseLongProofs3.
Import ListNotations.
Local Open Scope N_scope.

(** Every code is found under the bits [as_seen]: construction succeeds, and the codebook
    decodes, in any history with documented arguments, exactly those words. *)
Theorem C189_long_codes_exact : forall (S : Type) ord (ds : list (desc S)), permuting ord -> seen_fit ds ->
  prefix_free MSB (map as_seen ds) -> small_enough MSB (map as_seen ds) -> (exists d, In d ds /\ used d) ->
  exists cb, rc_new_codebook ord ds MSB = Ret (Okay cb) /\
  forall e buf steps, bytes buf -> Forall step_ok steps -> 8 * N.of_nat (length buf) + steps_skip steps < 2 ^ 64 ->
  exists r, rc_mixed_from_new e cb buf steps = Ret (r, snd (rq_mixed e MSB (map as_seen ds) buf steps)) /\
    w_left r = N.of_nat (length (waiting (fst (rq_mixed e MSB (map as_seen ds) buf steps)))) /\
    rb_consumed r = N.of_nat (fetched (fst (rq_mixed e MSB (map as_seen ds) buf steps)) -
                              length (waiting (fst (rq_mixed e MSB (map as_seen ds) buf steps)))).
Proof. exact seen_exact. Qed.
Print Assumptions C189_long_codes_exact.

(** So a message encoded with these words is read back. *)
Theorem C189_long_messages : forall (S : Type) ord (ds msg : list (desc S)), permuting ord -> seen_fit ds ->
  prefix_free MSB (map as_seen ds) -> small_enough MSB (map as_seen ds) -> (exists d, In d ds /\ used d) ->
  Forall (fun d => In d ds /\ used d) msg -> N.of_nat (8 * length (encode MSB (map as_seen msg))) < 2 ^ 32 ->
  exists cb r, rc_new_codebook ord ds MSB = Ret (Okay cb) /\
    rc_mixed_from_new BE cb (encode MSB (map as_seen msg)) (map Codeword (map as_seen msg)) = Ret (r, map (fun d => Sym (Okay (d_sym d))) msg) /\
    rb_consumed r = N.of_nat (length (message_bits MSB (map as_seen msg))).
Proof. exact seen_messages. Qed.
Print Assumptions C189_long_messages.

(** Up to 41 bits that is the codeword itself. *)
Theorem C189_short_codes : forall (S : Type) (d : desc S), (d_bits d <= 41)%nat -> word MSB (as_seen d) = word MSB d.
Proof. exact seen_short. Qed.
Print Assumptions C189_short_codes.

(** From 42 to 73 bits a codeword begins with 32 zeros (a code has 32 bits); the codebook
    expects them behind the last full group of ten of the remaining bits. *)
Theorem C189_moved_zeros : forall (S : Type) (d : desc S), (42 <= d_bits d <= 73)%nat -> d_code d < 2 ^ N.of_nat (d_bits d - 32) ->
  let w := codeword MSB (d_code d) (d_bits d - 32) in
  let n := (10 * ((d_bits d - 32) / 10))%nat in
  word MSB d = repeat false 32 ++ w /\ word MSB (as_seen d) = firstn n w ++ repeat false 32 ++ skipn n w.
Proof. exact moved_zeros. Qed.
Print Assumptions C189_moved_zeros.

(** A code whose first ten bits, so taken, do not make a number below 1024 panics, if it is
    the first of more than ten bits. *)
Theorem C189_too_large_panics : forall (S : Type) ord (pre : list (desc S)) d post, (forall d', In d' pre -> (d_bits d' <= 10)%nat) ->
  (11 <= d_bits d <= 255)%nat -> 2 ^ N.of_nat (cut_at (d_bits d) + 10) <= d_code d -> rc_new_codebook ord (pre ++ d :: post) MSB = Panic.
Proof. exact too_large. Qed.
Print Assumptions C189_too_large_panics.

Definition C189_codes : list (desc nat) := [mk_desc 1 1 1%nat; mk_desc 5 42 42%nat; mk_desc 91 45 45%nat; mk_desc 0 0 0%nat].

(** 5 in 42 bits is found under 0000000101 and 32 zeros, 91 in 45 bits under 0000001011, 32
    zeros and 011; the codewords themselves are not found. *)
Example C189_example : seen_fit C189_codes /\ prefix_free MSB (map as_seen C189_codes) /\ small_enough MSB (map as_seen C189_codes) /\
  word MSB (as_seen (mk_desc 91 45 0%nat)) =
    [false; false; false; false; false; false; true; false; true; true] ++ repeat false 32 ++ [false; true; true] /\
  exists cb r r2, rc_new_codebook (fun _ cc => cc) C189_codes MSB = Ret (Okay cb) /\
  rc_mixed_from_new BE cb (encode MSB (map as_seen [mk_desc 91 45 45%nat; mk_desc 1 1 1%nat; mk_desc 5 42 42%nat]))
    [Codeword (mk_desc 0 0 0%nat); Codeword (mk_desc 0 0 0%nat); Codeword (mk_desc 0 0 0%nat)]
    = Ret (r, [Sym (Okay 45%nat); Sym (Okay 1%nat); Sym (Okay 42%nat)]) /\ rb_consumed r = 88 /\
  rc_mixed_from_new BE cb (encode MSB [mk_desc 91 45 45%nat]) [Codeword (mk_desc 0 0 0%nat)] = Ret (r2, [Sym (Error InvalidCode)]).
Proof.
  split. { intros d Hd _. cbn [C189_codes In] in Hd. destruct Hd as [<-|[<-|[<-|[<-|[]]]]]; cbn [d_bits d_code]; (split; [apply Nat.leb_le; reflexivity|]); split; reflexivity. }
  split. { apply pairs_sound. vm_compute. reflexivity. }
  split. { vm_compute. split; discriminate. }
  split. { vm_compute. reflexivity. }
  eexists _, _, _. split; [vm_compute; reflexivity|]. split; [vm_compute; reflexivity|]. split; vm_compute; reflexivity.
Qed.

(** 2^20 in 42 bits: ten bits are cut off by a shift of 0 places. *)
Example C189_example_panic : rc_new_codebook (fun _ cc => cc) [mk_desc 1 1 1%nat; mk_desc 1048576 42 42%nat] MSB = Panic /\
  prefix_free MSB [mk_desc 1 1 1%nat; mk_desc 1048576 42 42%nat].
Proof. split; [vm_compute; reflexivity|]. apply pairs_sound. vm_compute. reflexivity. Qed.
