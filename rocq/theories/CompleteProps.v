(** C188. *)
From Coq Require Import List Arith NArith Bool.
From Verif Require Import Base BitModel BitSpec CodebookModel CodebookSpec CodebookExamples CompleteSpec CompleteProofs.
Import ListNotations.
Local Open Scope nat_scope.

(** C188: with a complete code, after any history as in C15, a codeword read succeeds as long as
    the longest codeword would fit (8 bytes away from the end). *)
Theorem C188_complete_reads : forall (S : Type) ord m (ds : list (desc S)) cb buf steps r0 r outs p,
  permuting ord -> valid_description m ds -> complete ds -> new_codebook ord ds m = Ret (Okay cb) ->
  bytes buf -> 8 <= length buf -> (N.of_nat (8 * length buf) < 2 ^ 32)%N ->
  steps_within m ds (bits_of (reader_for m) buf) (8 * length buf - 64) 0 steps ->
  new (reader_for m) buf = Ret r0 -> run_mixed (reader_for m) cb r0 steps = Ret (r, outs) ->
  p = fst (spec_steps m (bits_of (reader_for m) buf) 0 steps) ->
  p + longest_word ds + 64 <= 8 * length buf ->
  exists d r', In d ds /\ used d /\ window (bits_of (reader_for m) buf) p (d_bits d) = word m d /\
    read_cb (reader_for m) cb r = Ret (r', Okay (d_sym d)) /\ consumed r' = Ret (p + d_bits d).
Proof. exact complete_reads. Qed.
Print Assumptions C188_complete_reads.

(** Any bytes at all are a message: its codewords, one after the other, are the bits of the buffer. *)
Theorem C188_complete_decodes : forall (S : Type) ord m (ds : list (desc S)) cb buf n,
  permuting ord -> valid_description m ds -> complete ds -> new_codebook ord ds m = Ret (Okay cb) ->
  bytes buf -> (N.of_nat (8 * length buf) < 2 ^ 32)%N -> n * longest_word ds + 64 <= 8 * length buf ->
  exists msg r0 r, length msg = n /\ Forall (fun d => In d ds /\ used d) msg /\
    message_bits m msg = firstn (length (message_bits m msg)) (bits_of (reader_for m) buf) /\
    new (reader_for m) buf = Ret r0 /\
    run_mixed (reader_for m) cb r0 (map Codeword msg) = Ret (r, map (fun d => Sym (Okay (d_sym d))) msg) /\
    consumed r = Ret (length (message_bits m msg)).
Proof. exact complete_decodes. Qed.
Print Assumptions C188_complete_decodes.

(** With a code that is not complete there is a buffer, no longer than the longest codeword and
    the 8 bytes need, on which the first read fails. *)
Theorem C188_incomplete_rejects : forall (S : Type) ord m (ds : list (desc S)) cb,
  permuting ord -> valid_description m ds -> ~ complete ds -> new_codebook ord ds m = Ret (Okay cb) ->
  exists buf r0 r', bytes buf /\ longest_word ds + 64 <= 8 * length buf /\ length buf <= longest_word ds + 8 /\
    new (reader_for m) buf = Ret r0 /\ read_cb (reader_for m) cb r0 = Ret (r', Error InvalidCode).
Proof. exact incomplete_rejects. Qed.
Print Assumptions C188_incomplete_rejects.

(** The sum is never more than that of a complete code. *)
Theorem C188_kraft_inequality : forall (S : Type) m (ds : list (desc S)), prefix_free m ds ->
  (kraft_sum ds <= 2 ^ N.of_nat (longest_word ds))%N.
Proof. exact kraft_bound. Qed.
Print Assumptions C188_kraft_inequality.

(** The words 0, 10, 110, ... up to 12 bits, an unused entry in between, and a buffer of
    arbitrary bytes. *)
Definition C188_code : list (desc nat) :=
  [mk_desc 4095 12 12; mk_desc 0 1 0; mk_desc 2 2 1; mk_desc 6 3 2; mk_desc 14 4 3; mk_desc 30 5 4; mk_desc 62 6 5; mk_desc 9 0 99;
   mk_desc 126 7 6; mk_desc 254 8 7; mk_desc 510 9 8; mk_desc 1022 10 9; mk_desc 2046 11 10; mk_desc 4094 12 11].
Example C188_example : valid_description MSB C188_code /\ complete C188_code /\
  exists cb r0 r, new_codebook (fun _ cc => cc) C188_code MSB = Ret (Okay cb) /\
    new BE ([200; 255; 187; 255; 255; 255; 0; 37] ++ repeat 0 16)%N = Ret r0 /\
    run_mixed BE cb r0 (map (fun _ => Codeword (mk_desc 0 0 0)) (seq 0 10)) =
      Ret (r, [Sym (Okay 2); Sym (Okay 0); Sym (Okay 1); Sym (Okay 0); Sym (Okay 0); Sym (Okay 9); Sym (Okay 3);
              Sym (Okay 12); Sym (Okay 12); Sym (Okay 2)]) /\ consumed r = Ret 49.
Proof.
  split; [apply validb_sound; vm_compute; reflexivity|]. split; [vm_compute; reflexivity|].
  eexists _, _, _. split; [vm_compute; reflexivity|]. split; [vm_compute; reflexivity|]. split; vm_compute; reflexivity.
Qed.

(** One entry less: the words of 12 bits begin as before, and one of them is refused. *)
Example C188_example_incomplete : valid_description MSB (tl C188_code) /\ ~ complete (tl C188_code) /\
  kraft_sum (tl C188_code) = 4095%N /\ longest_word (tl C188_code) = 12 /\
  exists cb r0 r', new_codebook (fun _ cc => cc) (tl C188_code) MSB = Ret (Okay cb) /\
    new BE ([255; 240] ++ repeat 0 8)%N = Ret r0 /\ read_cb BE cb r0 = Ret (r', Error InvalidCode).
Proof.
  split; [apply validb_sound; vm_compute; reflexivity|]. split; [vm_compute; discriminate|].
  split; [vm_compute; reflexivity|]. split; [vm_compute; reflexivity|].
  eexists _, _, _. split; [vm_compute; reflexivity|]. split; vm_compute; reflexivity.
Qed.
