(** C191. *)
From Coq Require Import List Arith NArith Bool.
From Verif Require Import Base BitModel BitSpec CodebookModel CodebookSpec CompleteSpec CanonSpec CanonProofs.
Import ListNotations.
Local Open Scope nat_scope.

(** C191: lengths with a Kraft sum of at most 1 give a description that is valid as in C14 and C15. *)
Theorem C191_canonical_valid : forall m ls, Forall (fun l => l <= 32) ls -> room_for ls -> (N.of_nat (length ls) <= 2 ^ 24)%N ->
  (N.of_nat (length ls * ((list_max ls - 1) / 10)) < 2 ^ 14)%N -> valid_description m (canonical m ls).
Proof. exact canonical_valid. Qed.
Print Assumptions C191_canonical_valid.

(** Every message, written with the codewords of its symbols, is read back. *)
Theorem C191_canonical_messages : forall ord m ls (msg : list nat), permuting ord -> Forall (fun l => l <= 32) ls -> room_for ls ->
  (N.of_nat (length ls) <= 2 ^ 24)%N -> (N.of_nat (length ls * ((list_max ls - 1) / 10)) < 2 ^ 14)%N ->
  (exists i, 0 < nth i ls 0) -> Forall (fun s => 0 < nth s ls 0) msg ->
  let coded := map (fun s => nth s (canonical m ls) (mk_desc 0 0 0)) msg in
  (N.of_nat (8 * length (encode m coded)) < 2 ^ 32)%N ->
  exists cb r0 r, new_codebook ord (canonical m ls) m = Ret (Okay cb) /\ new (reader_for m) (encode m coded) = Ret r0 /\
    run_mixed (reader_for m) cb r0 (map Codeword coded) = Ret (r, map (fun s => Sym (Okay s)) msg) /\
    consumed r = Ret (length (message_bits m coded)).
Proof. exact canonical_messages. Qed.
Print Assumptions C191_canonical_messages.

(** No other lengths have a prefix code. *)
Theorem C191_lengths_possible : forall m ls, Forall (fun l => l <= 32) ls ->
  (room_for ls <-> exists ds : list (desc nat), map d_bits ds = ls /\ codes_fit m ds /\ prefix_free m ds).
Proof. exact lengths_possible. Qed.
Print Assumptions C191_lengths_possible.

(** If the sum is 1 the code is complete as in C188. *)
Theorem C191_canonical_complete : forall m ls, kraft_of ls = (2 ^ N.of_nat (list_max ls))%N -> complete (canonical m ls).
Proof. exact canonical_complete. Qed.
Print Assumptions C191_canonical_complete.

(** The lengths of RFC 1951, section 3.2.2, and the words given there. *)
Example C191_rfc : let ls := [3; 3; 3; 3; 3; 2; 4; 4] in
  let words := [[false; true; false]; [false; true; true]; [true; false; false]; [true; false; true]; [true; true; false];
                [false; false]; [true; true; true; false]; [true; true; true; true]] in
  map (word MSB) (canonical MSB ls) = words /\ map (word LSB) (canonical LSB ls) = words /\
  kraft_of ls = (2 ^ N.of_nat (list_max ls))%N.
Proof. split; [vm_compute; reflexivity|]. split; [vm_compute; reflexivity|]. vm_compute. reflexivity. Qed.

(** A code with words above and below ten bits and an unused symbol. *)
Example C191_long : forall m, let ls := [12; 1; 0; 2; 12; 4; 11; 10] in let msg := [0; 7; 1; 4; 3; 6; 5; 0; 4] in
  exists cb r0 r, new_codebook (fun _ cc => cc) (canonical m ls) m = Ret (Okay cb) /\
    new (reader_for m) (encode m (map (fun s => nth s (canonical m ls) (mk_desc 0 0 0)) msg)) = Ret r0 /\
    run_mixed (reader_for m) cb r0 (map (fun s => Codeword (nth s (canonical m ls) (mk_desc 0 0 0))) msg) =
      Ret (r, map (fun s => Sym (Okay s)) msg) /\ consumed r = Ret 76.
Proof.
  intros m. assert (P : permuting (fun _ cc => cc)).
  { intros k cc. apply Permutation.Permutation_refl. }
  destruct (C191_canonical_messages (fun _ cc => cc) m [12; 1; 0; 2; 12; 4; 11; 10] [0; 7; 1; 4; 3; 6; 5; 0; 4] P) as [cb [r0 [r [A [B [C D]]]]]].
  - repeat (apply Forall_cons; [apply Nat.leb_le; reflexivity|]). apply Forall_nil.
  - intros H. vm_compute in H. discriminate H.
  - intros H. vm_compute in H. discriminate H.
  - reflexivity.
  - exists 0. apply Nat.ltb_lt. reflexivity.
  - repeat (apply Forall_cons; [apply Nat.ltb_lt; reflexivity|]). apply Forall_nil.
  - destruct m; vm_compute; reflexivity.
  - exists cb, r0, r. split; [exact A|]. split; [exact B|]. split; [exact C|]. rewrite D. destruct m; vm_compute; reflexivity.
Qed.

(** Three words of one bit are too many. *)
Example C191_no_room : forall m, ~ exists ds : list (desc nat), map d_bits ds = [1; 1; 1] /\ codes_fit m ds /\ prefix_free m ds.
Proof.
  intros m H. apply (C191_lengths_possible m [1; 1; 1]) in H; [|repeat (apply Forall_cons; [apply Nat.leb_le; reflexivity|]); apply Forall_nil].
  vm_compute in H. apply H. reflexivity.
Qed.
