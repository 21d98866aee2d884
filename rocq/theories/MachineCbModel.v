(** Construction of codebooks (codebook.rs:112-377) for any width of [usize], with and without
    overflow checks, and with an allocator that may refuse.  Arithmetic on [u32] and [u8] is
    that of [CodebookModel] or of [ReleaseCbModel]; the operators on [usize] are parameters
    here and those of a machine at the end of the file.  The structure is that of
    [CodebookModel]. *)
From Coq Require Import List Arith NArith Bool.
From Verif Require Import Base CodebookModel ReleaseCbModel MachineModel.
Import ListNotations.
Local Open Scope N_scope.

Section Construction.
(** Overflow checks; [a + b], [a << b] and [as usize] on [usize] *)
Variable chk : bool.
Variable plus : N -> N -> outcome N.
Variable shl : N -> N -> outcome N.
Variable cast : N -> N.
(** Whether a table of so many entries and so many symbols can be allocated *)
Variables grants sym_grants : N -> bool.

(** [<<], [>>], [+], [-] on [u32] and [-] on [u8] *)
Definition k_shl32 (a : N) (n : nat) : outcome N := if chk then shl32 a n else Ret (rshl32 a n).
Definition k_shr32 (a : N) (n : nat) : outcome N := if chk then shr32 a n else Ret (rshr32 a n).
Definition k_add32 (a b : N) : outcome N := if chk then add32 a b else Ret (radd32 a b).
Definition k_sub32 (a b : N) : outcome N := if chk then sub32 a b else Ret (rsub32 a b).
Definition k_sub8 (a b : nat) : outcome nat := if chk then csub a b else Ret (rsub8 a b).

(** [table[idx as usize + off] = v] *)
Definition k_store (table : list N) (idx : N) (off : nat) (v : N) : outcome (list N) :=
  let! p := plus (cast idx) (N.of_nat off) in
  store table (N.to_nat p) v.

(** codebook.rs:128-131 and 152-155 *)
Fixpoint k_fill_loop (table : list N) (off : nat) (idx : N -> outcome N) (v j : N) (n : nat) : outcome (list N) :=
  match n with
  | O => Ret table
  | S n' =>
      let! i := idx j in
      let! table' := k_store table i off v in
      k_fill_loop table' off idx v (j + 1) n'
  end.

(** codebook.rs:114-136 *)
Definition k_fill_lut_msb (table : list N) (off : nat) (code : N) (bits lut_bits : nat)
    (symidx : N) (esc : bool) : outcome (list N) :=
  if negb esc then
    let! fill_len := k_sub8 lut_bits bits in
    let! fill_size := k_shl32 1 fill_len in
    let! fill_code := k_shl32 code fill_len in
    k_fill_loop table off (fun j => k_add32 fill_code j) (lut_entry symidx bits) 0 (N.to_nat fill_size)
  else
    k_store table code off (esc_entry symidx bits).

(** codebook.rs:138-160 *)
Definition k_fill_lut_lsb (table : list N) (off : nat) (code : N) (bits lut_bits : nat)
    (symidx : N) (esc : bool) : outcome (list N) :=
  if negb esc then
    let! fill_len := k_sub8 lut_bits bits in
    let! fill_size := k_shl32 1 fill_len in
    let fill_code := code in
    let! step := k_sub8 lut_bits fill_len in
    k_fill_loop table off (fun j => let! s := k_shl32 j step in k_add32 fill_code s)
      (lut_entry symidx bits) 0 (N.to_nat fill_size)
  else
    k_store table code off (esc_entry symidx bits).

(** codebook.rs:162-177 *)
Definition k_fill_lut (table : list N) (m : mode) (off : nat) (code : N) (bits lut_bits : nat)
    (symidx : N) (esc : bool) : outcome (list N) :=
  match m with
  | MSB => k_fill_lut_msb table off code bits lut_bits symidx esc
  | LSB => k_fill_lut_lsb table off code bits lut_bits symidx esc
  end.

(** codebook.rs:179-186; [reserve] panics if the table cannot grow *)
Definition k_resize_table (table : list N) (bits : nat) : outcome (list N * N) :=
  let! add_size := k_shl32 1 bits in
  let! new_size := plus (N.of_nat (length table)) (cast add_size) in
  if grants new_size then
    Ret (table ++ repeat TABLE_FILL_VALUE (N.to_nat (cast add_size)), N.of_nat (length table) mod W32)
  else Panic.

(** codebook.rs:188-193 *)
Definition k_lut_part (code : N) (bits lut_bits : nat) (m : mode) : outcome N :=
  match m with
  | MSB => let! d := k_sub8 bits lut_bits in k_shr32 code d
  | LSB => let! one := k_shl32 1 lut_bits in let! mask := k_sub32 one 1 in Ret (N.land code mask)
  end.

(** codebook.rs:195-200 *)
Definition k_esc_part (code : N) (bits lut_bits : nat) (m : mode) : outcome N :=
  match m with
  | MSB =>
      let! d := k_sub8 bits lut_bits in
      let! one := k_shl32 1 d in
      let! mask := k_sub32 one 1 in
      Ret (N.land code mask)
  | LSB => k_shr32 code lut_bits
  end.

(** codebook.rs:259-263 and 306-311 *)
Definition k_add_long_code (cc : escape_codes) (m : mode) (c : code) : outcome escape_codes :=
  let! ckey := k_lut_part (c_code c) (c_bits c) MAX_LUT_BITS m in
  let! cval := k_esc_part (c_code c) (c_bits c) MAX_LUT_BITS m in
  let! rest := k_sub8 (c_bits c) MAX_LUT_BITS in
  Ret (add_esc_code cc ckey (mk_code cval rest (c_idx c))).

(** codebook.rs:246-264 *)
Fixpoint k_esc_pass1 (table : list N) (m : mode) (off maxlen : nat) (codes : list code)
    (cc : escape_codes) : outcome (list N * escape_codes) :=
  match codes with
  | [] => Ret (table, cc)
  | c :: codes' =>
      if (c_bits c <=? MAX_LUT_BITS)%nat then
        let! table' := k_fill_lut table m off (c_code c) (c_bits c) maxlen (N.of_nat (c_idx c) mod W32) false in
        k_esc_pass1 table' m off maxlen codes' cc
      else
        let! cc' := k_add_long_code cc m c in
        k_esc_pass1 table m off maxlen codes' cc'
  end.

(** codebook.rs:268-281 and 343-355 *)
Definition k_alloc_bucket (table : list N) (m : mode) (cur_offset : nat) (key : N) (b : bucket)
    : outcome (list N * bucket) :=
  let maxlen := Nat.min (b_maxlen b) MAX_LUT_BITS in
  let! (table1, new_off) := k_resize_table table maxlen in
  let! table2 := k_fill_lut table1 m cur_offset key maxlen MAX_LUT_BITS new_off true in
  Ret (table2, mk_bucket (b_maxlen b) (N.to_nat (cast new_off)) (b_codes b)).

(** codebook.rs:266-282 *)
Fixpoint k_esc_pass2 (table : list N) (m : mode) (cur_offset : nat) (cc : escape_codes)
    : outcome (list N * escape_codes) :=
  match cc with
  | [] => Ret (table, [])
  | (key, b) :: cc' =>
      let! (table1, b') := k_alloc_bucket table m cur_offset key b in
      let! (table2, cc'') := k_esc_pass2 table1 m cur_offset cc' in
      Ret (table2, (key, b') :: cc'')
  end.

(** codebook.rs:238-289 *)
Fixpoint k_build_esc_lut (fuel : nat) (ord : order) (path : list N) (table : list N) (m : mode)
    (b : bucket) : outcome (list N) :=
  match fuel with
  | O => Panic
  | S fuel' =>
      let maxlen := Nat.min (b_maxlen b) MAX_LUT_BITS in
      let! (table1, cc) := k_esc_pass1 table m (b_offset b) maxlen (b_codes b) [] in
      let! (table2, cc2) := k_esc_pass2 table1 m (b_offset b) (ord path cc) in
      build_all (fun t key b' => k_build_esc_lut fuel' ord (key :: path) t m b') table2 cc2
  end.

(** codebook.rs:295-315; [nnz] and [symidx] count on [usize] *)
Fixpoint k_new_pass1 {S : Type} (m : mode) (ds : list (desc S)) (maxbits : nat) (nnz symidx : N)
    (cc : escape_codes) : outcome (nat * N * escape_codes) :=
  match ds with
  | [] => Ret (maxbits, nnz, cc)
  | d :: ds' =>
      let bits := d_bits d in
      let! nnz' := if (0 <? bits)%nat then plus nnz 1 else Ret nnz in
      let! cc' := if (MAX_LUT_BITS <? bits)%nat
                  then k_add_long_code cc m (mk_code (d_code d) bits (N.to_nat symidx)) else Ret cc in
      let! symidx' := if (0 <? bits)%nat then plus symidx 1 else Ret symidx in
      k_new_pass1 m ds' (Nat.max bits maxbits) nnz' symidx' cc'
  end.

(** codebook.rs:329-360 *)
Fixpoint k_new_pass2 {S : Type} (table : list N) (m : mode) (maxbits : nat) (ds : list (desc S))
    (symidx : N) (cc : escape_codes) : outcome (list N * escape_codes) :=
  match ds with
  | [] => Ret (table, cc)
  | d :: ds' =>
      let bits := d_bits d in
      if (bits =? 0)%nat then k_new_pass2 table m maxbits ds' symidx cc
      else
        let! (table', cc') :=
          if (bits <=? MAX_LUT_BITS)%nat then
            let! t := k_fill_lut table m 0 (d_code d) bits maxbits symidx false in Ret (t, cc)
          else
            let! ckey := k_lut_part (d_code d) bits MAX_LUT_BITS m in
            let! x := index_at table (N.to_nat (cast ckey)) in
            if (x =? TABLE_FILL_VALUE)%N then
              let key := cast ckey mod W32 in
              match find_bucket cc key with
              | Some b =>
                  let! (t, b') := k_alloc_bucket table m 0 key b in
                  Ret (t, set_bucket cc key b')
              | None => Ret (table, cc)
              end
            else Ret (table, cc) in
        let! symidx' := k_add32 symidx 1 in
        k_new_pass2 table' m maxbits ds' symidx' cc'
  end.

(** codebook.rs:294-377 *)
Definition k_new_codebook {S : Type} (ord : order) (ds : list (desc S)) (m : mode)
    : outcome (result (codebook S) codebook_error) :=
  let! (maxbits0, nnz, cc) := k_new_pass1 m ds 0 0 0 [] in
  if (maxbits0 =? 0)%nat then Ret (Error InvalidCodebook)
  else
    let maxbits := if (MAX_LUT_BITS <? maxbits0)%nat then MAX_LUT_BITS else maxbits0 in
    let! tab_len := shl 1 (N.of_nat maxbits) in
    if grants tab_len then
      if sym_grants nnz then
        let! (table, cc') := k_new_pass2 (repeat TABLE_FILL_VALUE (N.to_nat tab_len)) m maxbits ds 0 cc in
        let! table' := build_all (fun t key b => k_build_esc_lut 26 ord [key] t m b) table (ord [] cc') in
        Ret (Okay (mk_codebook table' (used_syms ds) maxbits))
      else Panic
    else Panic.
End Construction.

(** On a machine *)
Definition mk_new_codebook {S : Type} (mc : machine) (grants sym_grants : N -> bool) (ord : order) (ds : list (desc S)) (m : mode)
    : outcome (result (codebook S) codebook_error) :=
  k_new_codebook (checked mc) (madd mc) (mshl mc) (mcast mc) grants sym_grants ord ds m.
