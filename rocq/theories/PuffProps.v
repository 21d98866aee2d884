(** C192. *)
From Coq Require Import List Arith NArith Bool.
From Verif Require Import Base BitModel BitSpec CodebookModel CodebookSpec CanonSpec PuffSpec PuffProofs.
Import ListNotations.
Local Open Scope nat_scope.

(** C192: with a codebook made from the lengths, after any history as in C15 and on any bytes, a
    codeword read gives the symbol of the bit-by-bit decoder, uses as many bits, and fails when that
    one finds nothing. *)
Theorem C192_reads_as_puff : forall ord m ls cb buf steps r0 r outs p,
  permuting ord -> Forall (fun l => l <= 32) ls -> room_for ls -> (N.of_nat (length ls) <= 2 ^ 24)%N ->
  (N.of_nat (length ls * ((list_max ls - 1) / 10)) < 2 ^ 14)%N -> new_codebook ord (canonical m ls) m = Ret (Okay cb) ->
  bytes buf -> 8 <= length buf -> (N.of_nat (8 * length buf) < 2 ^ 32)%N ->
  steps_within m (canonical m ls) (bits_of (reader_for m) buf) (8 * length buf - 64) 0 steps ->
  new (reader_for m) buf = Ret r0 -> run_mixed (reader_for m) cb r0 steps = Ret (r, outs) ->
  p = fst (spec_steps m (bits_of (reader_for m) buf) 0 steps) -> p + list_max ls + 64 <= 8 * length buf ->
  match puff ls (skipn p (bits_of (reader_for m) buf)) with
  | Some (i, l) => exists r', read_cb (reader_for m) cb r = Ret (r', Okay i) /\ consumed r' = Ret (p + l)
  | None => exists r', read_cb (reader_for m) cb r = Ret (r', Error InvalidCode)
  end.
Proof. exact puff_reads. Qed.
Print Assumptions C192_reads_as_puff.

(** The bit-by-bit decoder finds exactly the canonical codewords. *)
Theorem C192_puff_exact : forall ls bits i l, room_for ls ->
  (puff ls bits = Some (i, l) <-> 0 < l /\ nth i ls 0 = l /\ is_prefix (codeword MSB (canonical_code ls i) l) bits).
Proof. exact puff_exact. Qed.
Print Assumptions C192_puff_exact.

(** The lengths 3, 3, none, 12 and 12: 000 and 001 are found, 0100 0000 0001 is the last symbol,
    0100 0000 001 is not a code. *)
Example C192_example : let ls := [3; 3; 0; 12; 12] in let bits n := codeword MSB n 16 in
  puff ls (bits 0%N) = Some (0, 3) /\ puff ls (bits 12345%N) = Some (1, 3) /\ puff ls (bits 16415%N) = Some (4, 12) /\ puff ls (bits 16421%N) = None /\
  exists cb r0 r1 r2 r3, new_codebook (fun _ cc => cc) (canonical MSB ls) MSB = Ret (Okay cb) /\
    new BE ([64; 31; 64; 37] ++ repeat 0 12)%N = Ret r0 /\ read_cb BE cb r0 = Ret (r1, Okay 4) /\ consumed r1 = Ret 12 /\
    skip_bits BE r1 4 = Ret r2 /\ read_cb BE cb r2 = Ret (r3, Error InvalidCode).
Proof.
  split; [vm_compute; reflexivity|]. split; [vm_compute; reflexivity|]. split; [vm_compute; reflexivity|]. split; [vm_compute; reflexivity|].
  eexists. eexists. eexists. eexists. eexists.
  split; [vm_compute; reflexivity|]. split; [vm_compute; reflexivity|]. split; [vm_compute; reflexivity|]. split; [vm_compute; reflexivity|].
  split; [vm_compute; reflexivity|]. vm_compute. reflexivity.
Qed.
