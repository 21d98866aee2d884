(** An auxiliary construction for C189: that of [CodebookModel] with codewords of any size in place of
    [u32]s.  It is no transcription of anything; C189 shows that a build without overflow checks
    constructs the same tables from other codewords. *)
From Coq Require Import List Arith NArith Bool.
From Verif Require Import Base BitModel CodebookModel.
Import ListNotations.
Local Open Scope nat_scope.

(** as [extract_lut_part], codebook.rs:188-193 *)
Definition w_extract_lut_part (code : N) (bits lut_bits : nat) (m : mode) : outcome N :=
  match m with
  | MSB => Ret (N.shiftr code (N.of_nat (bits - lut_bits)))
  | LSB => Ret (code mod 2 ^ N.of_nat lut_bits)%N
  end.
(** as [extract_esc_part], codebook.rs:195-200 *)
Definition w_extract_esc_part (code : N) (bits lut_bits : nat) (m : mode) : outcome N :=
  match m with
  | MSB => Ret (code mod 2 ^ N.of_nat (bits - lut_bits))%N
  | LSB => Ret (N.shiftr code (N.of_nat lut_bits))
  end.

(** as [add_long_code], codebook.rs:259-263 and 306-311 *)
Definition w_add_long_code (cc : escape_codes) (m : mode) (c : code) : outcome escape_codes :=
  let! ckey := w_extract_lut_part (c_code c) (c_bits c) MAX_LUT_BITS m in
  let! cval := w_extract_esc_part (c_code c) (c_bits c) MAX_LUT_BITS m in
  let! rest := csub (c_bits c) MAX_LUT_BITS in
  Ret (add_esc_code cc ckey (mk_code cval rest (c_idx c))).

(** as [esc_pass1], codebook.rs:246-264 *)
Fixpoint w_esc_pass1 (table : list N) (m : mode) (off maxlen : nat) (codes : list code)
    (cc : escape_codes) : outcome (list N * escape_codes) :=
  match codes with
  | [] => Ret (table, cc)
  | c :: codes' =>
      if c_bits c <=? MAX_LUT_BITS then
        let! table' := fill_lut table m off (c_code c) (c_bits c) maxlen
                         (N.of_nat (c_idx c) mod W32) false in
        w_esc_pass1 table' m off maxlen codes' cc
      else
        let! cc' := w_add_long_code cc m c in
        w_esc_pass1 table m off maxlen codes' cc'
  end.

(** as [build_esc_lut], codebook.rs:238-289 *)
Fixpoint w_build_esc_lut (fuel : nat) (ord : order) (path : list N) (table : list N) (m : mode)
    (b : bucket) : outcome (list N) :=
  match fuel with
  | O => Panic
  | S fuel' =>
      let maxlen := Nat.min (b_maxlen b) MAX_LUT_BITS in
      let! (table1, cc) := w_esc_pass1 table m (b_offset b) maxlen (b_codes b) [] in
      let! (table2, cc2) := esc_pass2 table1 m (b_offset b) (ord path cc) in
      build_all (fun t key b' => w_build_esc_lut fuel' ord (key :: path) t m b') table2 cc2
  end.

(** as [new_pass1], codebook.rs:295-315 *)
Fixpoint w_new_pass1 {S : Type} (m : mode) (ds : list (desc S)) (maxbits symidx : nat)
    (cc : escape_codes) : outcome (nat * escape_codes) :=
  match ds with
  | [] => Ret (maxbits, cc)
  | d :: ds' =>
      let bits := d_bits d in
      let maxbits' := Nat.max bits maxbits in
      let! cc' := if MAX_LUT_BITS <? bits
                  then w_add_long_code cc m (mk_code (d_code d) bits symidx) else Ret cc in
      w_new_pass1 m ds' maxbits' (if 0 <? bits then symidx + 1 else symidx) cc'
  end.

(** as [new_pass2], codebook.rs:329-360 *)
Fixpoint w_new_pass2 {S : Type} (table : list N) (m : mode) (maxbits : nat) (ds : list (desc S))
    (symidx : N) (cc : escape_codes) : outcome (list N * escape_codes) :=
  match ds with
  | [] => Ret (table, cc)
  | d :: ds' =>
      let bits := d_bits d in
      if bits =? 0 then w_new_pass2 table m maxbits ds' symidx cc
      else
        let! (table', cc') :=
          if bits <=? MAX_LUT_BITS then
            let! t := fill_lut table m 0 (d_code d) bits maxbits symidx false in Ret (t, cc)
          else
            let! ckey := w_extract_lut_part (d_code d) bits MAX_LUT_BITS m in
            let! x := index_at table (N.to_nat ckey) in
            if (x =? TABLE_FILL_VALUE)%N then
              match find_bucket cc ckey with
              | Some b =>
                  let! (t, b') := alloc_bucket table m 0 ckey b in
                  Ret (t, set_bucket cc ckey b')
              | None => Ret (table, cc)
              end
            else Ret (table, cc) in
        let! symidx' := add32 symidx 1 in
        w_new_pass2 table' m maxbits ds' symidx' cc'
  end.

(** as [new_codebook], codebook.rs:294-377 *)
Definition w_new_codebook {S : Type} (ord : order) (ds : list (desc S)) (m : mode)
    : outcome (result (codebook S) codebook_error) :=
  let! (maxbits0, cc) := w_new_pass1 m ds 0 0 [] in
  if maxbits0 =? 0 then Ret (Error InvalidCodebook)
  else
    let maxbits := if MAX_LUT_BITS <? maxbits0 then MAX_LUT_BITS else maxbits0 in
    let! tab_len := shl32 1 maxbits in
    let! (table, cc') :=
      w_new_pass2 (repeat TABLE_FILL_VALUE (N.to_nat tab_len)) m maxbits ds 0 cc in
    let! table' :=
      build_all (fun t key b => w_build_esc_lut 26 ord [key] t m b) table (ord [] cc') in
    Ret (Okay (mk_codebook table' (used_syms ds) maxbits)).
