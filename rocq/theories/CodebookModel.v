(** Transcription of bitstream/src/codebook.rs.

    Code lengths ([u8]) and table offsets ([usize]) are [nat], codewords and table
    entries ([u32]) are [N].  A description ([CodebookDescReader], codebook.rs:67-79)
    is the list of its (code, bits, sym) triplets, which is what the
    implementations for slices, vectors and static tables
    (codebook.rs:408-509) provide. *)
From Coq Require Import List Arith NArith Bool.
From Verif Require Import Base BitModel.
Import ListNotations.
Local Open Scope nat_scope.

(** codebook.rs:16-21 *)
Inductive codebook_error : Type := InvalidCodebook | InvalidCode.

(** codebook.rs:39-44 *)
Inductive mode : Type := MSB | LSB.

(** codebook.rs:47-54 *)
Record desc (S : Type) : Type := mk_desc { d_code : N; d_bits : nat; d_sym : S }.
Arguments mk_desc {S}.
Arguments d_code {S}.
Arguments d_bits {S}.
Arguments d_sym {S}.

(** codebook.rs:83-87 *)
Record codebook (S : Type) : Type := mk_codebook {
  cb_table : list N;
  cb_syms : list S;
  cb_lut_bits : nat
}.
Arguments mk_codebook {S}.
Arguments cb_table {S}.
Arguments cb_syms {S}.
Arguments cb_lut_bits {S}.

(** codebook.rs:97-100 *)
Definition rev_tab : list N := [0; 8; 4; 12; 2; 10; 6; 14; 1; 9; 5; 13; 3; 11; 7; 15]%N.

(** codebook.rs:102-108: the loop body, [k] iterations to go.  [ret << 4]
    drops high bits. *)
Fixpoint reverse_loop (k : nat) (ret val : N) : outcome N :=
  match k with
  | O => Ret ret
  | S k' =>
      let! x := index_at rev_tab (N.to_nat (N.land val 15)) in
      reverse_loop k' (N.lor (N.shiftl ret 4 mod W32) x) (N.shiftr val 4)
  end.

(** codebook.rs:96-109 *)
Definition reverse_bits (inval : N) : outcome N := reverse_loop 8 0 inval.

(** codebook.rs:111-112 *)
Definition TABLE_FILL_VALUE : N := 127.
Definition MAX_LUT_BITS : nat := 10.

(** [a << n], [a >> n] and [a + b] on [u32] with overflow checks. *)
Definition shl32 (a : N) (n : nat) : outcome N :=
  if n <? 32 then Ret (N.shiftl a (N.of_nat n) mod W32)%N else Panic.
Definition shr32 (a : N) (n : nat) : outcome N :=
  if n <? 32 then Ret (N.shiftr a (N.of_nat n)) else Panic.
Definition add32 (a b : N) : outcome N :=
  if (a + b <? W32)%N then Ret (a + b)%N else Panic.
Definition sub32 (a b : N) : outcome N :=
  if (b <=? a)%N then Ret (a - b)%N else Panic.

(** The table entry [(symidx << 8) | bits], codebook.rs:127 and 154, and
    [(symidx << 8) | 0x80 | bits], codebook.rs:134 and 158. *)
Definition lut_entry (symidx : N) (bits : nat) : N :=
  N.lor (N.shiftl symidx 8 mod W32) (N.of_nat bits).
Definition esc_entry (symidx : N) (bits : nat) : N :=
  N.lor (N.lor (N.shiftl symidx 8 mod W32) 128) (N.of_nat bits).

(** The loops [for j in 0..fill_size], codebook.rs:128-131 and 152-155: the
    entries at [idx j + off] for [j], [j+1], ..., [n] of them, become [v]. *)
Fixpoint fill_loop (table : list N) (off : nat) (idx : N -> outcome N) (v : N) (j : N) (n : nat)
    : outcome (list N) :=
  match n with
  | O => Ret table
  | S n' =>
      let! i := idx j in
      let! table' := store table (N.to_nat i + off) v in
      fill_loop table' off idx v (j + 1)%N n'
  end.

(** codebook.rs:114-136 *)
Definition fill_lut_msb (table : list N) (off : nat) (code : N) (bits lut_bits : nat)
    (symidx : N) (esc : bool) : outcome (list N) :=
  if negb esc then
    let! fill_len := csub lut_bits bits in
    let! fill_size := shl32 1 fill_len in
    let! fill_code := shl32 code fill_len in
    fill_loop table off (fun j => add32 fill_code j) (lut_entry symidx bits) 0 (N.to_nat fill_size)
  else
    store table (N.to_nat code + off) (esc_entry symidx bits).

(** codebook.rs:138-160 *)
Definition fill_lut_lsb (table : list N) (off : nat) (code : N) (bits lut_bits : nat)
    (symidx : N) (esc : bool) : outcome (list N) :=
  if negb esc then
    let! fill_len := csub lut_bits bits in
    let! fill_size := shl32 1 fill_len in
    let fill_code := code in
    let! step := csub lut_bits fill_len in
    fill_loop table off (fun j => let! s := shl32 j step in add32 fill_code s)
      (lut_entry symidx bits) 0 (N.to_nat fill_size)
  else
    store table (N.to_nat code + off) (esc_entry symidx bits).

(** codebook.rs:162-177 (the returned flag is not used by any caller) *)
Definition fill_lut (table : list N) (m : mode) (off : nat) (code : N) (bits lut_bits : nat)
    (symidx : N) (esc : bool) : outcome (list N) :=
  match m with
  | MSB => fill_lut_msb table off code bits lut_bits symidx esc
  | LSB => fill_lut_lsb table off code bits lut_bits symidx esc
  end.

(** codebook.rs:179-186: the new table and the old length [as u32].  [1 << bits]
    is computed on [i32]; the callers pass at most 10. *)
Definition resize_table (table : list N) (bits : nat) : outcome (list N * N) :=
  let! add_size := shl32 1 bits in
  let cur_off := (N.of_nat (length table) mod W32)%N in
  Ret (table ++ repeat TABLE_FILL_VALUE (N.to_nat add_size), cur_off).

(** codebook.rs:188-193 *)
Definition extract_lut_part (code : N) (bits lut_bits : nat) (m : mode) : outcome N :=
  match m with
  | MSB => let! d := csub bits lut_bits in shr32 code d
  | LSB => let! one := shl32 1 lut_bits in let! mask := sub32 one 1 in Ret (N.land code mask)
  end.

(** codebook.rs:195-200 *)
Definition extract_esc_part (code : N) (bits lut_bits : nat) (m : mode) : outcome N :=
  match m with
  | MSB =>
      let! d := csub bits lut_bits in
      let! one := shl32 1 d in
      let! mask := sub32 one 1 in
      Ret (N.land code mask)
  | LSB => shr32 code lut_bits
  end.

(** codebook.rs:203-207 *)
Record code : Type := mk_code { c_code : N; c_bits : nat; c_idx : nat }.

(** codebook.rs:209-213 *)
Record bucket : Type := mk_bucket { b_maxlen : nat; b_offset : nat; b_codes : list code }.

(** codebook.rs:216-222 *)
Definition new_bucket : bucket := mk_bucket 0 0 [].

(** codebook.rs:223-228 *)
Definition add_code (b : bucket) (c : code) : bucket :=
  mk_bucket (if b_maxlen b <? c_bits c then c_bits c else b_maxlen b) (b_offset b)
    (b_codes b ++ [c]).

(** codebook.rs:231: [HashMap<u32, CodeBucket>] as an association list; the
    iteration order is supplied separately, see [order]. *)
Definition escape_codes : Type := list (N * bucket).

(** codebook.rs:233-236 *)
Fixpoint add_esc_code (cc : escape_codes) (key : N) (c : code) : escape_codes :=
  match cc with
  | [] => [(key, add_code new_bucket c)]
  | (k, b) :: cc' =>
      if (k =? key)%N then (k, add_code b c) :: cc' else (k, b) :: add_esc_code cc' key c
  end.

(** Iteration order of the hash maps.  Each map instance has its own random
    hasher, so its order is arbitrary; an instance is identified by the keys
    that lead to it. *)
Definition order : Type := list N -> escape_codes -> escape_codes.

(** codebook.rs:259-263 and 306-311: split a long code and file it. *)
Definition add_long_code (cc : escape_codes) (m : mode) (c : code) : outcome escape_codes :=
  let! ckey := extract_lut_part (c_code c) (c_bits c) MAX_LUT_BITS m in
  let! cval := extract_esc_part (c_code c) (c_bits c) MAX_LUT_BITS m in
  let! rest := csub (c_bits c) MAX_LUT_BITS in
  Ret (add_esc_code cc ckey (mk_code cval rest (c_idx c))).

(** codebook.rs:246-264 *)
Fixpoint esc_pass1 (table : list N) (m : mode) (off maxlen : nat) (codes : list code)
    (cc : escape_codes) : outcome (list N * escape_codes) :=
  match codes with
  | [] => Ret (table, cc)
  | c :: codes' =>
      if c_bits c <=? MAX_LUT_BITS then
        let! table' := fill_lut table m off (c_code c) (c_bits c) maxlen
                         (N.of_nat (c_idx c) mod W32) false in
        esc_pass1 table' m off maxlen codes' cc
      else
        let! cc' := add_long_code cc m c in
        esc_pass1 table m off maxlen codes' cc'
  end.

(** codebook.rs:268-281, the body of the loop over the escape list (also
    codebook.rs:343-355): allocate the table of a bucket, write the escape entry at
    [cur_offset + key] and record the offset in the bucket. *)
Definition alloc_bucket (table : list N) (m : mode) (cur_offset : nat) (key : N) (b : bucket)
    : outcome (list N * bucket) :=
  let maxlen := Nat.min (b_maxlen b) MAX_LUT_BITS in
  let! (table1, new_off) := resize_table table maxlen in
  let! table2 := fill_lut table1 m cur_offset key maxlen MAX_LUT_BITS new_off true in
  Ret (table2, mk_bucket (b_maxlen b) (N.to_nat new_off) (b_codes b)).

(** codebook.rs:266-282 *)
Fixpoint esc_pass2 (table : list N) (m : mode) (cur_offset : nat) (cc : escape_codes)
    : outcome (list N * escape_codes) :=
  match cc with
  | [] => Ret (table, [])
  | (key, b) :: cc' =>
      let! (table1, b') := alloc_bucket table m cur_offset key b in
      let! (table2, cc'') := esc_pass2 table1 m cur_offset cc' in
      Ret (table2, (key, b') :: cc'')
  end.

(** codebook.rs:284-286 and 362-364 *)
Fixpoint build_all (build : list N -> N -> bucket -> outcome (list N)) (table : list N)
    (cc : escape_codes) : outcome (list N) :=
  match cc with
  | [] => Ret table
  | (key, b) :: cc' =>
      let! table' := build table key b in
      build_all build table' cc'
  end.

(** codebook.rs:238-289.  The Rust function always returns [Ok(())].  Each level of
    recursion shortens the codes by 10 bits, so [fuel] = 26 is enough for [u8]
    lengths (running out of it counts as a panic, which the theorems exclude). *)
Fixpoint build_esc_lut (fuel : nat) (ord : order) (path : list N) (table : list N) (m : mode)
    (b : bucket) : outcome (list N) :=
  match fuel with
  | O => Panic
  | S fuel' =>
      let maxlen := Nat.min (b_maxlen b) MAX_LUT_BITS in
      let! (table1, cc) := esc_pass1 table m (b_offset b) maxlen (b_codes b) [] in
      let! (table2, cc2) := esc_pass2 table1 m (b_offset b) (ord path cc) in
      build_all (fun t key b' => build_esc_lut fuel' ord (key :: path) t m b') table2 cc2
  end.

(** codebook.rs:295-315: the first pass over the description. *)
Fixpoint new_pass1 {S : Type} (m : mode) (ds : list (desc S)) (maxbits symidx : nat)
    (cc : escape_codes) : outcome (nat * escape_codes) :=
  match ds with
  | [] => Ret (maxbits, cc)
  | d :: ds' =>
      let bits := d_bits d in
      let maxbits' := Nat.max bits maxbits in
      let! cc' := if MAX_LUT_BITS <? bits
                  then add_long_code cc m (mk_code (d_code d) bits symidx) else Ret cc in
      new_pass1 m ds' maxbits' (if 0 <? bits then symidx + 1 else symidx) cc'
  end.

(** [escape_list.get_mut(&key)] (standard library) followed by an assignment. *)
Fixpoint find_bucket (cc : escape_codes) (key : N) : option bucket :=
  match cc with
  | [] => None
  | (k, b) :: cc' => if (k =? key)%N then Some b else find_bucket cc' key
  end.
Fixpoint set_bucket (cc : escape_codes) (key : N) (b : bucket) : escape_codes :=
  match cc with
  | [] => []
  | (k, b0) :: cc' => if (k =? key)%N then (k, b) :: cc' else (k, b0) :: set_bucket cc' key b
  end.

(** codebook.rs:329-360: the second pass over the description. *)
Fixpoint new_pass2 {S : Type} (table : list N) (m : mode) (maxbits : nat) (ds : list (desc S))
    (symidx : N) (cc : escape_codes) : outcome (list N * escape_codes) :=
  match ds with
  | [] => Ret (table, cc)
  | d :: ds' =>
      let bits := d_bits d in
      if bits =? 0 then new_pass2 table m maxbits ds' symidx cc
      else
        let! (table', cc') :=
          if bits <=? MAX_LUT_BITS then
            let! t := fill_lut table m 0 (d_code d) bits maxbits symidx false in Ret (t, cc)
          else
            let! ckey := extract_lut_part (d_code d) bits MAX_LUT_BITS m in
            let! x := index_at table (N.to_nat ckey) in
            if (x =? TABLE_FILL_VALUE)%N then
              match find_bucket cc ckey with
              | Some b =>
                  let! (t, b') := alloc_bucket table m 0 ckey b in
                  Ret (t, set_bucket cc ckey b')
              | None => Ret (table, cc)
              end
            else Ret (table, cc) in
        let! symidx' := add32 symidx 1 in
        new_pass2 table' m maxbits ds' symidx' cc'
  end.

(** codebook.rs:366-370 *)
Definition used_syms {S : Type} (ds : list (desc S)) : list S :=
  map d_sym (filter (fun d => 0 <? d_bits d) ds).

(** codebook.rs:294-377 *)
Definition new_codebook {S : Type} (ord : order) (ds : list (desc S)) (m : mode)
    : outcome (result (codebook S) codebook_error) :=
  let! (maxbits0, cc) := new_pass1 m ds 0 0 [] in
  if maxbits0 =? 0 then Ret (Error InvalidCodebook)
  else
    let maxbits := if MAX_LUT_BITS <? maxbits0 then MAX_LUT_BITS else maxbits0 in
    let! tab_len := shl32 1 maxbits in
    let! (table, cc') :=
      new_pass2 (repeat TABLE_FILL_VALUE (N.to_nat tab_len)) m maxbits ds 0 cc in
    let! table' :=
      build_all (fun t key b => build_esc_lut 26 ord [key] t m b) table (ord [] cc') in
    Ret (Okay (mk_codebook table' (used_syms ds) maxbits)).

(** codebook.rs:385-404: the loop and the final lookup; [fuel] iterations at most.
    [self.available() as u32] truncates. *)
Fixpoint read_loop {S : Type} (fuel : nat) (e : endian) (cb : codebook S) (r : reader)
    (idx : N) (lut_bits : nat) : outcome (reader * result S codebook_error) :=
  match fuel with
  | O => Panic
  | S fuel' =>
      let! (_, v) := peek_bits_32 e r lut_bits in
      let lut_idx := N.to_nat (v + idx)%N in
      let! x := index_at (cb_table cb) lut_idx in
      if (x =? TABLE_FILL_VALUE)%N then Ret (r, Error InvalidCode)
      else
        let bits := N.land x 127 in
        let esc := negb (N.land x 128 =? 0)%N in
        let idx' := N.shiftr x 8 in
        let! avail := available r in
        if (N.of_nat avail mod W32 <? bits)%N then Ret (r, Error InvalidCode)
        else
          let n := if esc then lut_bits else N.to_nat bits in
          let! r' := skip_bits e r n in
          if esc then read_loop fuel' e cb r' idx' (N.to_nat bits)
          else let! s := index_at (cb_syms cb) (N.to_nat idx') in Ret (r', Okay s)
  end.

(** codebook.rs:381-405.  A table of at most 2^24 entries built by [new_codebook] from
    codewords that fit their lengths has escape chains of at most 26 levels.  With
    others the loop may go round more often, which counts as a panic here; theorems
    about such tables either find a result in 27 rounds or speak of any number of rounds
    ([read_loop]). *)
Definition read_cb {S : Type} (e : endian) (cb : codebook S) (r : reader)
    : outcome (reader * result S codebook_error) :=
  read_loop 27 e cb r 0 (cb_lut_bits cb).
