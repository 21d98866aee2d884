(** Properties C05-C14: the bit reader. *)
From Coq Require Import List Arith NArith Bool.
From Verif Require Import Base BitModel BitSpec BitProofs BitProofs2 BitMain.
Import ListNotations.

(** C05: any sequence of in-range calls that stays 8 bytes away from the end of
    the buffer behaves like reading a list of bits at a position; in particular
    no call panics. *)
Theorem C05_bit_reads_exact : forall e buf ops, bytes buf -> 8 <= length buf ->
  ops_within e (bits_of e buf) (8 * length buf - 64) 0 ops ->
  exists r, run_from_new e buf ops = Ret (r, snd (spec_ops e (bits_of e buf) 0 ops)) /\
    consumed r = Ret (fst (spec_ops e (bits_of e buf) 0 ops)).
Proof. exact bit_ops_exact. Qed.
Print Assumptions C05_bit_reads_exact.

(** A history mixing both refill paths, skips of both kinds, peeks and
    alignment, on 40 bytes. *)

Example C05_example : forall e,
  bytes demo_buf /\ 8 <= length demo_buf /\
  ops_within e (bits_of e demo_buf) (8 * length demo_buf - 64) 0 demo_ops.
Proof.
  intros e. split; [repeat (constructor; [reflexivity|]); constructor|].
  split; [apply Nat.leb_le; reflexivity|].
  destruct e; vm_compute; repeat split; repeat constructor.
Qed.

Example C05_example_values :
  snd (spec_ops BE (bits_of BE demo_buf) 0 [OpGet32 4; OpGet32 8; OpSkip 12; OpGet64 16])
  = [OutWord 2; OutWord 84; OutUnit; OutWord 38073].
Proof. vm_compute. reflexivity. Qed.

(** C06: peeking leaves the reader alone and predicts the next read. *)
Theorem C06_peek_predicts_get : forall e r n,
  peek_bits_64 e r n = match get_bits_64 e r n with Ret (_, v) => Ret (r, v) | Panic => Panic | UB => UB end /\
  peek_bits_32 e r n = match get_bits_32 e r n with Ret (_, v) => Ret (r, v) | Panic => Panic | UB => UB end /\
  peek_bit e r = match get_bit e r with Ret (_, b) => Ret (r, b) | Panic => Panic | UB => UB end.
Proof. exact peek_like_get. Qed.
Print Assumptions C06_peek_predicts_get.

Example C06_example :
  exists r, new LE demo_buf = Ret r /\ peek_bits_32 LE r 13 = Ret (r, 2597%N) /\ peek_bits_64 LE r 13 = Ret (r, 2597%N).
Proof. eexists. split; [vm_compute; reflexivity|]. split; vm_compute; reflexivity. Qed.

(** C07: consumed and available always add up to the buffer size, and the
    position never goes back; no call of the sequence panics.  [ops1] and
    [ops1 ++ ops2] are two points of the same history. *)
Theorem C07_consumed_plus_available : forall e buf ops1 ops2 r0, bytes buf -> new e buf = Ret r0 ->
  calls_ok e r0 (ops1 ++ ops2) ->
  exists r1 o1 r2 o2 c1 c2 a1 a2,
    run_ops e r0 ops1 = Ret (r1, o1) /\ run_ops e r0 (ops1 ++ ops2) = Ret (r2, o2) /\
    consumed r0 = Ret 0 /\
    consumed r1 = Ret c1 /\ available r1 = Ret a1 /\ c1 + a1 = 8 * length buf /\
    consumed r2 = Ret c2 /\ available r2 = Ret a2 /\ c2 + a2 = 8 * length buf /\ c1 <= c2.
Proof. exact consumed_plus_available. Qed.
Print Assumptions C07_consumed_plus_available.

(** A history that runs off the end of a 9-byte buffer with reads. *)
Example C07_example :
  exists r0, new BE (firstn 9 demo_buf) = Ret r0 /\
    calls_ok BE r0 ([OpGet32 20; OpSkip 40] ++ [OpGet64 50; OpGetBit]).
Proof.
  eexists. split; [vm_compute; reflexivity|].
  apply calls_okb_sound. vm_compute. reflexivity.
Qed.

(** C08: skipping [n] bits equals reading them in any pieces and discarding. *)
Theorem C08_skip_is_read_and_discard : forall e buf pre ns post, bytes buf -> 8 <= length buf ->
  Forall (fun n => n <= 64) ns ->
  ops_within e (bits_of e buf) (8 * length buf - 64) 0 (pre ++ OpSkip (sum ns) :: post) ->
  exists r1 r2 opre omid opost,
    run_from_new e buf (pre ++ OpSkip (sum ns) :: post) = Ret (r1, opre ++ OutUnit :: opost) /\
    run_from_new e buf (pre ++ map OpGet64 ns ++ post) = Ret (r2, opre ++ omid ++ opost) /\
    length opre = length pre /\ length omid = length ns /\ consumed r1 = consumed r2.
Proof. exact skip_is_read_discard. Qed.
Print Assumptions C08_skip_is_read_and_discard.

Example C08_example : forall e,
  Forall (fun n => n <= 64) [64; 13; 40] /\
  ops_within e (bits_of e demo_buf) (8 * length demo_buf - 64) 0
    ([OpGet32 9] ++ OpSkip (sum [64; 13; 40]) :: [OpGet32 30; OpGetBit]).
Proof. intros e. split; [repeat constructor|]. destruct e; vm_compute; repeat split; repeat constructor. Qed.

(** C09: alignment.  [align8 c] is the first multiple of 8 at or after [c]. *)
Theorem C09_align_to_byte_boundary : forall e buf ops r0 r outs, bytes buf -> new e buf = Ret r0 ->
  calls_ok e r0 ops -> run_ops e r0 ops = Ret (r, outs) ->
  exists c r', consumed r = Ret c /\ align_bits e r = Ret r' /\
    consumed r' = Ret (align8 c) /\ align_bits e r' = Ret r'.
Proof. exact align_moves_to_boundary. Qed.
Print Assumptions C09_align_to_byte_boundary.

Theorem C09_align8_is_next_boundary : forall p, align8 p mod 8 = 0 /\ p <= align8 p < p + 8.
Proof. exact align8_spec. Qed.
Print Assumptions C09_align8_is_next_boundary.

Example C09_example :
  exists r0 r outs, new LE demo_buf = Ret r0 /\ calls_ok LE r0 [OpGet32 13] /\
    run_ops LE r0 [OpGet32 13] = Ret (r, outs) /\ consumed r = Ret 13 /\ align8 13 = 16.
Proof.
  eexists _, _, _. split; [vm_compute; reflexivity|]. split.
  { apply calls_okb_sound. vm_compute. reflexivity. }
  split; [vm_compute; reflexivity|]. split; vm_compute; reflexivity.
Qed.

(** C10: overreading. *)
Theorem C10_overread_zero_fill : forall e buf ops, bytes buf -> Forall is_read ops ->
  exists r outs, run_from_new e buf ops = Ret (r, outs) /\
    zero_fill_trace e (bits_of e buf) 0 false ops outs.
Proof. exact overread_zero_fill. Qed.
Print Assumptions C10_overread_zero_fill.

Example C10_example :
  Forall is_read [OpGet64 60; OpGet32 9; OpGetBit] /\
  exists r, run_from_new LE [255; 255; 255; 255; 255; 255; 255; 255; 255]%N [OpGet64 60; OpGet32 9; OpGetBit]
    = Ret (r, [OutWord 1152921504606846975; OutWord 15; OutBit false]).
Proof. split; [repeat constructor|]. eexists. vm_compute. reflexivity. Qed.

(** C11: splitting a read. *)
Theorem C11_split_read : forall e buf pre a b, bytes buf -> 8 <= length buf -> a + b <= 64 ->
  ops_within e (bits_of e buf) (8 * length buf - 64) 0 (pre ++ [OpGet64 (a + b)]) ->
  exists r1 r2 opre va vb,
    run_from_new e buf (pre ++ [OpGet64 (a + b)]) = Ret (r1, opre ++ [OutWord (join_values e a b va vb)]) /\
    run_from_new e buf (pre ++ [OpGet64 a; OpGet64 b]) = Ret (r2, opre ++ [OutWord va; OutWord vb]) /\
    consumed r1 = consumed r2.
Proof. exact split_read. Qed.
Print Assumptions C11_split_read.

Example C11_example : forall e,
  33 + 31 <= 64 /\
  ops_within e (bits_of e demo_buf) (8 * length demo_buf - 64) 0 ([OpGet32 30; OpSkip 77] ++ [OpGet64 (33 + 31)]).
Proof. intros e. split; [repeat constructor|]. destruct e; vm_compute; repeat split; repeat constructor. Qed.

(** C12: with 64-bit refills only (skips of at most 64 bits), a buffer whose
    length is a multiple of 8 is read exactly up to its last bit. *)
Theorem C12_exact_to_the_end_64 : forall e buf ops, bytes buf -> length buf mod 8 = 0 -> Forall path64 ops ->
  ops_within e (bits_of e buf) (8 * length buf) 0 ops ->
  exists r, run_from_new e buf ops = Ret (r, snd (spec_ops e (bits_of e buf) 0 ops)) /\
    consumed r = Ret (fst (spec_ops e (bits_of e buf) 0 ops)).
Proof. exact exact_to_the_end_64. Qed.
Print Assumptions C12_exact_to_the_end_64.

Example C12_example : forall e,
  length (firstn 16 demo_buf) mod 8 = 0 /\ Forall path64 [OpGet64 50; OpSkip 60; OpGetBit; OpGet64 17] /\
  ops_within e (bits_of e (firstn 16 demo_buf)) (8 * 16) 0 [OpGet64 50; OpSkip 60; OpGetBit; OpGet64 17].
Proof.
  intros e. split; [reflexivity|]. split; [repeat constructor|].
  destruct e; vm_compute; repeat split; repeat constructor.
Qed.

(** C13 as stated (every available bit is readable) is false: after three
    32-bit reads of a 16-byte buffer 32 bits are reported available, but
    reading them returns 0 instead of the last four bytes. *)
Theorem C13_available_bits_readable_refuted :
  exists e buf ops n r outs a c r' v,
    bytes buf /\ Forall is_read ops /\ run_from_new e buf ops = Ret (r, outs) /\
    available r = Ret a /\ n <= a /\ n <= 32 /\ consumed r = Ret c /\
    get_bits_32 e r n = Ret (r', v) /\ v <> value e (window (bits_of e buf) c n).
Proof. exact c13_available_bits_readable_refuted. Qed.
Print Assumptions C13_available_bits_readable_refuted.

(** What holds instead: bits at least 8 bytes before the end are readable. *)
Theorem C13_available_bits_readable_partial : forall e buf ops n r outs a,
  bytes buf -> 8 <= length buf -> n <= 64 ->
  ops_within e (bits_of e buf) (8 * length buf - 64) 0 ops ->
  run_from_new e buf ops = Ret (r, outs) -> available r = Ret a -> n + 64 <= a ->
  exists c r', consumed r = Ret c /\ get_bits_64 e r n = Ret (r', value e (window (bits_of e buf) c n)).
Proof. exact available_bits_readable. Qed.
Print Assumptions C13_available_bits_readable_partial.

Example C13_example :
  exists r outs a, run_from_new BE demo_buf demo_ops = Ret (r, outs) /\ available r = Ret a /\ 20 + 64 <= 104.
Proof.
  eexists _, _, _. split; [vm_compute; reflexivity|]. split; [vm_compute; reflexivity|].
  apply Nat.leb_le. reflexivity.
Qed.

(** C14 as stated is false: skipping exactly everything that is available in a
    24-byte buffer leaves 64 (stale) bits available, which later reads return;
    and skipping further makes [available] itself panic. *)
Theorem C14_skip_past_end_refuted :
  exists e buf r a r' b r'' v,
    bytes buf /\ new e buf = Ret r /\ available r = Ret a /\
    skip_bits e r a = Ret r' /\ available r' = Ret b /\ b <> 0 /\
    get_bits_32 e r' 8 = Ret (r'', v) /\ v <> 0%N.
Proof. exact c14_skip_past_end_refuted. Qed.
Print Assumptions C14_skip_past_end_refuted.

Theorem C14_available_panics_refuted :
  exists e buf r n r', bytes buf /\ new e buf = Ret r /\ skip_bits e r n = Ret r' /\ available r' = Panic.
Proof. exact c14_available_panics_refuted. Qed.
Print Assumptions C14_available_panics_refuted.

(** The part that holds: once the whole buffer is in the cache, skipping at
    least twice what is left (and at most 64 bits more) empties the reader. *)
Theorem C14_skip_past_end_partial : forall e buf ops n r outs, bytes buf -> Forall is_read ops ->
  run_from_new e buf ops = Ret (r, outs) -> can_refill r = false -> index r = length buf ->
  2 * left r <= n <= left r + 64 ->
  exists r', skip_bits e r n = Ret r' /\ available r' = Ret 0.
Proof. exact skip_past_end_exhausts. Qed.
Print Assumptions C14_skip_past_end_partial.

Example C14_example :
  exists r outs, run_from_new LE (map N.of_nat (seq 1 8)) [OpGet64 50] = Ret (r, outs) /\
    can_refill r = false /\ index r = 8 /\ left r = 14.
Proof. eexists _, _. split; [vm_compute; reflexivity|]. repeat split; vm_compute; reflexivity. Qed.
