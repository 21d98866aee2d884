(** Properties C80 and C81: codebook descriptions without symbols. *)
From Coq Require Import List Arith NArith Bool.
From Verif Require Import Base BitModel BitSpec CodebookModel CodebookSpec DescModel DescSpec DescProofs DescMain.
Import ListNotations.
Local Open Scope nat_scope.

(** C80: a codebook can be built from any object whose methods describe a list of
    entries, and only the entries matter. *)
Theorem C80_any_description_reader : forall (S : Type) ord (rd : desc_reader S) ds m, describes rd ds ->
  new_codebook_from ord rd m = new_codebook ord ds m.
Proof. exact new_from_list. Qed.
Print Assumptions C80_any_description_reader.

Example C80_example : forall (S : Type) (v : list (desc S)), describes (full_reader v) v.
Proof. exact full_describes. Qed.

(** C80: with a description without symbols the symbol of an entry is its position
    in the description, unused entries included. *)
Theorem C80_short_positions : forall ord m v, permuting ord -> (N.of_nat (length v) <= 2 ^ 32)%N ->
  valid_description m (numbered 0 v) ->
  ((exists i, used_position v i) -> exists cb, new_codebook_from ord (short_reader v) m = Ret (Okay cb)) /\
  (forall msg cb, new_codebook_from ord (short_reader v) m = Ret (Okay cb) -> Forall (used_position v) msg ->
     (N.of_nat (8 * length (encode m (map (entry v) msg))) < 2 ^ 32)%N ->
     exists r0 r, new (reader_for m) (encode m (map (entry v) msg)) = Ret r0 /\
       read_symbols (reader_for m) cb r0 (length msg) = Ret (r, map (fun i => Okay (N.of_nat i)) msg) /\
       consumed r = Ret (length (message_bits m (map (entry v) msg)))).
Proof. exact short_positions. Qed.
Print Assumptions C80_short_positions.

Example C80_short_example :
  valid_description MSB (numbered 0 demo_short) /\ Forall (used_position demo_short) [3; 0; 2; 0].
Proof.
  split; [exact demo_short_valid|].
  repeat (constructor; [eexists; split; [reflexivity|apply Nat.ltb_lt; reflexivity]|]). constructor.
Qed.

(** C80, C81: a description says that it is empty exactly when its length is zero. *)
Theorem C80_empty_descriptions :
  (forall (S : Type) (v : list (desc S)), dr_is_empty (full_reader v) = true <-> dr_len (full_reader v) = 0) /\
  (forall v, dr_is_empty (short_reader v) = true <-> dr_len (short_reader v) = 0) /\
  (forall w t, dr_is_empty (table_reader w t) = true <-> dr_len (table_reader w t) = 0).
Proof. exact readers_empty. Qed.
Print Assumptions C80_empty_descriptions.

Example C80_empty_example : dr_is_empty (short_reader []) = true /\ dr_is_empty (short_reader demo_short) = false /\ dr_len (table_reader 8 (mk_table_desc [] [5%N])) = 0.
Proof. repeat split. Qed.

(** C81: the same with separate tables of lengths and codewords, if the symbol type
    ([w] bits) can hold all positions and no codeword is missing. *)
Theorem C81_table_positions_partial : forall w ord m bits codes, permuting ord ->
  length bits <= length codes -> (N.of_nat (length bits) <= 2 ^ w)%N ->
  valid_description m (numbered 0 (side_by_side bits codes)) ->
  ((exists i, used_position (side_by_side bits codes) i) ->
     exists cb, new_codebook_from ord (table_reader w (mk_table_desc bits codes)) m = Ret (Okay cb)) /\
  (forall msg cb, new_codebook_from ord (table_reader w (mk_table_desc bits codes)) m = Ret (Okay cb) ->
     Forall (used_position (side_by_side bits codes)) msg ->
     (N.of_nat (8 * length (encode m (map (entry (side_by_side bits codes)) msg))) < 2 ^ 32)%N ->
     exists r0 r, new (reader_for m) (encode m (map (entry (side_by_side bits codes)) msg)) = Ret r0 /\
       read_symbols (reader_for m) cb r0 (length msg) = Ret (r, map (fun i => Okay (N.of_nat i)) msg) /\
       consumed r = Ret (length (message_bits m (map (entry (side_by_side bits codes)) msg)))).
Proof. exact table_positions. Qed.
Print Assumptions C81_table_positions_partial.

Example C81_example :
  (N.of_nat (length wide_bits) <= 2 ^ 16)%N /\ length wide_bits <= length wide_codes /\
  valid_description MSB (numbered 0 (side_by_side wide_bits wide_codes)).
Proof. split; [discriminate|]. split; [apply Nat.leb_le; vm_compute; reflexivity|exact wide_valid]. Qed.

(** C81 in general is false: with 257 entries and symbols of 8 bits two different
    codewords decode to the same symbol. *)
Theorem C81_narrow_symbols_refuted : exists w ord m bits codes cb i j r0 r,
  permuting ord /\ length bits <= length codes /\ valid_description m (numbered 0 (side_by_side bits codes)) /\
  new_codebook_from ord (table_reader w (mk_table_desc bits codes)) m = Ret (Okay cb) /\
  used_position (side_by_side bits codes) i /\ used_position (side_by_side bits codes) j /\ i <> j /\
  new (reader_for m) (encode m [entry (side_by_side bits codes) i; entry (side_by_side bits codes) j]) = Ret r0 /\
  read_symbols (reader_for m) cb r0 2 = Ret (r, [Okay 0%N; Okay 0%N]).
Proof. exact narrow_symbols_refuted. Qed.
Print Assumptions C81_narrow_symbols_refuted.

(** With fewer codewords than lengths the construction never returns (it panics),
    unless no entry is used. *)
Theorem C81_missing_codes : forall w ord m bits codes, length codes < length bits ->
  (exists i b, nth_error bits i = Some b /\ 0 < b) ->
  forall x, new_codebook_from ord (table_reader w (mk_table_desc bits codes)) m <> Ret x.
Proof. exact table_too_short. Qed.
Print Assumptions C81_missing_codes.

Example C81_missing_example :
  new_codebook_from (fun _ cc => cc) (table_reader 8 (mk_table_desc [1; 2; 0] [0; 2]%N)) MSB = Panic /\
  new_codebook_from (fun _ cc => cc) (table_reader 8 (mk_table_desc [0; 0] [])) MSB = Ret (Error InvalidCodebook).
Proof. split; vm_compute; reflexivity. Qed.
