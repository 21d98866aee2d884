(** Codebooks (bitstream/src/codebook.rs) in a build without overflow checks: arithmetic on
    [u32], [u8] and [usize] wraps around and shift amounts are taken modulo 32.  Indices into
    the tables are checked as ever.  The reader is that of [ReleaseBitModel]; everything else
    is as in [CodebookModel]. *)
From Coq Require Import List Arith NArith Bool.
From Verif Require Import Base BitModel WordBitModel ReleaseModel ReleaseBitModel CodebookModel.
Import ListNotations.
Local Open Scope nat_scope.

(** [a << n], [a >> n], [a + b] and [a - b] on [u32], [a - b] on [u8] *)
Definition rshl32 (a : N) (n : nat) : N := (N.shiftl a (N.of_nat n mod 32) mod W32)%N.
Definition rshr32 (a : N) (n : nat) : N := N.shiftr a (N.of_nat n mod 32)%N.
Definition radd32 (a b : N) : N := ((a + b) mod W32)%N.
Definition rsub32 (a b : N) : N := ((a + (W32 - b mod W32)) mod W32)%N.
Definition rsub8 (a b : nat) : nat := (a + (256 - b mod 256)) mod 256.

(** codebook.rs:128-131 and 152-155 *)
Fixpoint rc_fill_loop (table : list N) (off : nat) (idx : N -> N) (v : N) (j : N) (n : nat) : outcome (list N) :=
  match n with
  | O => Ret table
  | S n' =>
      let! table' := store table (N.to_nat (idx j) + off) v in
      rc_fill_loop table' off idx v (j + 1)%N n'
  end.

(** codebook.rs:114-136 *)
Definition rc_fill_lut_msb (table : list N) (off : nat) (code : N) (bits lut_bits : nat)
    (symidx : N) (esc : bool) : outcome (list N) :=
  if negb esc then
    let fill_len := rsub8 lut_bits bits in
    let fill_size := rshl32 1 fill_len in
    let fill_code := rshl32 code fill_len in
    rc_fill_loop table off (fun j => radd32 fill_code j) (lut_entry symidx bits) 0 (N.to_nat fill_size)
  else
    store table (N.to_nat code + off) (esc_entry symidx bits).

(** codebook.rs:138-160 *)
Definition rc_fill_lut_lsb (table : list N) (off : nat) (code : N) (bits lut_bits : nat)
    (symidx : N) (esc : bool) : outcome (list N) :=
  if negb esc then
    let fill_len := rsub8 lut_bits bits in
    let fill_size := rshl32 1 fill_len in
    let fill_code := code in
    let step := rsub8 lut_bits fill_len in
    rc_fill_loop table off (fun j => radd32 fill_code (rshl32 j step)) (lut_entry symidx bits) 0 (N.to_nat fill_size)
  else
    store table (N.to_nat code + off) (esc_entry symidx bits).

(** codebook.rs:162-177 *)
Definition rc_fill_lut (table : list N) (m : mode) (off : nat) (code : N) (bits lut_bits : nat)
    (symidx : N) (esc : bool) : outcome (list N) :=
  match m with
  | MSB => rc_fill_lut_msb table off code bits lut_bits symidx esc
  | LSB => rc_fill_lut_lsb table off code bits lut_bits symidx esc
  end.

(** codebook.rs:179-186 *)
Definition rc_resize_table (table : list N) (bits : nat) : list N * N :=
  (table ++ repeat TABLE_FILL_VALUE (N.to_nat (rshl32 1 bits)), (N.of_nat (length table) mod W32)%N).

(** codebook.rs:188-193 *)
Definition rc_lut_part (code : N) (bits lut_bits : nat) (m : mode) : N :=
  match m with
  | MSB => rshr32 code (rsub8 bits lut_bits)
  | LSB => N.land code (rsub32 (rshl32 1 lut_bits) 1)
  end.

(** codebook.rs:195-200 *)
Definition rc_esc_part (code : N) (bits lut_bits : nat) (m : mode) : N :=
  match m with
  | MSB => N.land code (rsub32 (rshl32 1 (rsub8 bits lut_bits)) 1)
  | LSB => rshr32 code lut_bits
  end.

(** codebook.rs:259-263 and 306-311 *)
Definition rc_add_long_code (cc : escape_codes) (m : mode) (c : code) : escape_codes :=
  add_esc_code cc (rc_lut_part (c_code c) (c_bits c) MAX_LUT_BITS m)
    (mk_code (rc_esc_part (c_code c) (c_bits c) MAX_LUT_BITS m) (rsub8 (c_bits c) MAX_LUT_BITS) (c_idx c)).

(** codebook.rs:246-264 *)
Fixpoint rc_esc_pass1 (table : list N) (m : mode) (off maxlen : nat) (codes : list code)
    (cc : escape_codes) : outcome (list N * escape_codes) :=
  match codes with
  | [] => Ret (table, cc)
  | c :: codes' =>
      if c_bits c <=? MAX_LUT_BITS then
        let! table' := rc_fill_lut table m off (c_code c) (c_bits c) maxlen (N.of_nat (c_idx c) mod W32) false in
        rc_esc_pass1 table' m off maxlen codes' cc
      else rc_esc_pass1 table m off maxlen codes' (rc_add_long_code cc m c)
  end.

(** codebook.rs:268-281 and 343-355 *)
Definition rc_alloc_bucket (table : list N) (m : mode) (cur_offset : nat) (key : N) (b : bucket)
    : outcome (list N * bucket) :=
  let maxlen := Nat.min (b_maxlen b) MAX_LUT_BITS in
  let '(table1, new_off) := rc_resize_table table maxlen in
  let! table2 := rc_fill_lut table1 m cur_offset key maxlen MAX_LUT_BITS new_off true in
  Ret (table2, mk_bucket (b_maxlen b) (N.to_nat new_off) (b_codes b)).

(** codebook.rs:266-282 *)
Fixpoint rc_esc_pass2 (table : list N) (m : mode) (cur_offset : nat) (cc : escape_codes)
    : outcome (list N * escape_codes) :=
  match cc with
  | [] => Ret (table, [])
  | (key, b) :: cc' =>
      let! (table1, b') := rc_alloc_bucket table m cur_offset key b in
      let! (table2, cc'') := rc_esc_pass2 table1 m cur_offset cc' in
      Ret (table2, (key, b') :: cc'')
  end.

(** codebook.rs:238-289 *)
Fixpoint rc_build_esc_lut (fuel : nat) (ord : order) (path : list N) (table : list N) (m : mode)
    (b : bucket) : outcome (list N) :=
  match fuel with
  | O => Panic
  | S fuel' =>
      let maxlen := Nat.min (b_maxlen b) MAX_LUT_BITS in
      let! (table1, cc) := rc_esc_pass1 table m (b_offset b) maxlen (b_codes b) [] in
      let! (table2, cc2) := rc_esc_pass2 table1 m (b_offset b) (ord path cc) in
      build_all (fun t key b' => rc_build_esc_lut fuel' ord (key :: path) t m b') table2 cc2
  end.

(** codebook.rs:295-315 *)
Fixpoint rc_new_pass1 {S : Type} (m : mode) (ds : list (desc S)) (maxbits symidx : nat)
    (cc : escape_codes) : nat * escape_codes :=
  match ds with
  | [] => (maxbits, cc)
  | d :: ds' =>
      let bits := d_bits d in
      rc_new_pass1 m ds' (Nat.max bits maxbits) (if 0 <? bits then symidx + 1 else symidx)
        (if MAX_LUT_BITS <? bits then rc_add_long_code cc m (mk_code (d_code d) bits symidx) else cc)
  end.

(** codebook.rs:329-360 *)
Fixpoint rc_new_pass2 {S : Type} (table : list N) (m : mode) (maxbits : nat) (ds : list (desc S))
    (symidx : N) (cc : escape_codes) : outcome (list N * escape_codes) :=
  match ds with
  | [] => Ret (table, cc)
  | d :: ds' =>
      let bits := d_bits d in
      if bits =? 0 then rc_new_pass2 table m maxbits ds' symidx cc
      else
        let! (table', cc') :=
          if bits <=? MAX_LUT_BITS then
            let! t := rc_fill_lut table m 0 (d_code d) bits maxbits symidx false in Ret (t, cc)
          else
            let ckey := rc_lut_part (d_code d) bits MAX_LUT_BITS m in
            let! x := index_at table (N.to_nat ckey) in
            if (x =? TABLE_FILL_VALUE)%N then
              match find_bucket cc ckey with
              | Some b =>
                  let! (t, b') := rc_alloc_bucket table m 0 ckey b in
                  Ret (t, set_bucket cc ckey b')
              | None => Ret (table, cc)
              end
            else Ret (table, cc) in
        rc_new_pass2 table' m maxbits ds' (radd32 symidx 1) cc'
  end.

(** codebook.rs:294-377 *)
Definition rc_new_codebook {S : Type} (ord : order) (ds : list (desc S)) (m : mode)
    : outcome (result (codebook S) codebook_error) :=
  let '(maxbits0, cc) := rc_new_pass1 m ds 0 0 [] in
  if maxbits0 =? 0 then Ret (Error InvalidCodebook)
  else
    let maxbits := if MAX_LUT_BITS <? maxbits0 then MAX_LUT_BITS else maxbits0 in
    let! (table, cc') :=
      rc_new_pass2 (repeat TABLE_FILL_VALUE (N.to_nat (rshl32 1 maxbits))) m maxbits ds 0 cc in
    let! table' :=
      build_all (fun t key b => rc_build_esc_lut 26 ord [key] t m b) table (ord [] cc') in
    Ret (Okay (mk_codebook table' (used_syms ds) maxbits)).

(** codebook.rs:385-404 *)
Fixpoint rc_read_loop {S : Type} (fuel : nat) (e : endian) (cb : codebook S) (r : wreader)
    (idx : N) (lut_bits : nat) : outcome (wreader * result S codebook_error) :=
  match fuel with
  | O => Panic
  | S fuel' =>
      let! (_, v) := rb_get_bits_32 e r (N.of_nat lut_bits) in
      let! x := index_at (cb_table cb) (N.to_nat (radd v idx)) in
      if (x =? TABLE_FILL_VALUE)%N then Ret (r, Error InvalidCode)
      else
        let bits := N.land x 127 in
        let esc := negb (N.land x 128 =? 0)%N in
        let idx' := N.shiftr x 8 in
        if (rb_available r mod W32 <? bits)%N then Ret (r, Error InvalidCode)
        else
          let! r' := rb_skip_bits e r (if esc then N.of_nat lut_bits else bits) in
          if esc then rc_read_loop fuel' e cb r' idx' (N.to_nat bits)
          else let! s := index_at (cb_syms cb) (N.to_nat idx') in Ret (r', Okay s)
  end.

(** codebook.rs:381-405 *)
Definition rc_read_cb {S : Type} (e : endian) (cb : codebook S) (r : wreader)
    : outcome (wreader * result S codebook_error) :=
  rc_read_loop 27 e cb r 0 (cb_lut_bits cb).
