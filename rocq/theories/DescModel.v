(** Transcription of [CodebookDescReader] and its implementations
    (bitstream/src/codebook.rs:47-79 and 408-509), and of [Codebook::new]
    (codebook.rs:294-377) over an arbitrary implementation.

    A description reader is given by its methods; they take [&self] and are
    modelled as functions of the index alone, which may panic.  [len] is a [nat]. *)
From Coq Require Import List Arith NArith Bool.
From Verif Require Import Base BitModel CodebookModel.
Import ListNotations.
Local Open Scope nat_scope.

(** codebook.rs:67-79 ([is_empty] is used by nobody in the crate; the
    implementations return [len() == 0]). *)
Record desc_reader (S : Type) : Type := mk_desc_reader {
  dr_bits : nat -> outcome nat;
  dr_code : nat -> outcome N;
  dr_sym : nat -> outcome S;
  dr_len : nat;
  dr_is_empty : bool
}.
Arguments mk_desc_reader {S}.
Arguments dr_bits {S}.
Arguments dr_code {S}.
Arguments dr_sym {S}.
Arguments dr_len {S}.
Arguments dr_is_empty {S}.

Definition is_nil {A : Type} (l : list A) : bool := match l with [] => true | _ => false end.

(** [Vec<FullCodebookDesc<S>>] and [&[FullCodebookDesc<S>]], codebook.rs:408-424
    and 444-460. *)
Definition full_reader {S : Type} (v : list (desc S)) : desc_reader S :=
  mk_desc_reader
    (fun idx => let! d := index_at v idx in Ret (d_bits d))
    (fun idx => let! d := index_at v idx in Ret (d_code d))
    (fun idx => let! d := index_at v idx in Ret (d_sym d))
    (length v) (is_nil v).

(** [ShortCodebookDesc], codebook.rs:58-63. *)
Record short_desc : Type := mk_short { sh_code : N; sh_bits : nat }.

(** [Vec<ShortCodebookDesc>] and [&[ShortCodebookDesc]], codebook.rs:426-442 and
    462-478: [idx as u32]. *)
Definition short_reader (v : list short_desc) : desc_reader N :=
  mk_desc_reader
    (fun idx => let! d := index_at v idx in Ret (sh_bits d))
    (fun idx => let! d := index_at v idx in Ret (sh_code d))
    (fun idx => Ret (N.of_nat idx mod W32)%N)
    (length v) (is_nil v).

(** [TableCodebookDescReader], codebook.rs:482-509.  The symbol type is an
    unsigned integer of [w] bits ([AsPrimitive] is [as]); [CodeType: Into<u32>]
    converts losslessly.  The fields are private and nothing in the crate
    constructs the type. *)
Record table_desc : Type := mk_table_desc { td_bits : list nat; td_codes : list N }.
Definition table_reader (w : N) (t : table_desc) : desc_reader N :=
  mk_desc_reader
    (fun idx => index_at (td_bits t) idx)
    (fun idx => index_at (td_codes t) idx)
    (fun idx => Ret (N.of_nat idx mod 2 ^ w)%N)
    (length (td_bits t)) (is_nil (td_bits t)).

(** codebook.rs:299-315, the indices still to visit being [is]. *)
Fixpoint from_pass1 {S : Type} (rd : desc_reader S) (m : mode) (is : list nat) (maxbits symidx : nat)
    (cc : escape_codes) : outcome (nat * escape_codes) :=
  match is with
  | [] => Ret (maxbits, cc)
  | i :: is' =>
      let! bits := dr_bits rd i in
      let maxbits' := Nat.max bits maxbits in
      let! cc' := if MAX_LUT_BITS <? bits
                  then let! c := dr_code rd i in add_long_code cc m (mk_code c bits symidx)
                  else Ret cc in
      from_pass1 rd m is' maxbits' (if 0 <? bits then symidx + 1 else symidx) cc'
  end.

(** codebook.rs:329-360 *)
Fixpoint from_pass2 {S : Type} (rd : desc_reader S) (table : list N) (m : mode) (maxbits : nat)
    (is : list nat) (symidx : N) (cc : escape_codes) : outcome (list N * escape_codes) :=
  match is with
  | [] => Ret (table, cc)
  | i :: is' =>
      let! bits := dr_bits rd i in
      let! c := dr_code rd i in
      if bits =? 0 then from_pass2 rd table m maxbits is' symidx cc
      else
        let! (table', cc') :=
          if bits <=? MAX_LUT_BITS then
            let! t := fill_lut table m 0 c bits maxbits symidx false in Ret (t, cc)
          else
            let! ckey := extract_lut_part c bits MAX_LUT_BITS m in
            let! x := index_at table (N.to_nat ckey) in
            if (x =? TABLE_FILL_VALUE)%N then
              match find_bucket cc ckey with
              | Some b =>
                  let! (t, b') := alloc_bucket table m 0 ckey b in
                  Ret (t, set_bucket cc ckey b')
              | None => Ret (table, cc)
              end
            else Ret (table, cc) in
        let! symidx' := add32 symidx 1 in
        from_pass2 rd table' m maxbits is' symidx' cc'
  end.

(** codebook.rs:366-370 *)
Fixpoint from_syms {S : Type} (rd : desc_reader S) (is : list nat) : outcome (list S) :=
  match is with
  | [] => Ret []
  | i :: is' =>
      let! bits := dr_bits rd i in
      if 0 <? bits then
        let! s := dr_sym rd i in
        let! ss := from_syms rd is' in
        Ret (s :: ss)
      else from_syms rd is'
  end.

(** codebook.rs:294-377 *)
Definition new_codebook_from {S : Type} (ord : order) (rd : desc_reader S) (m : mode)
    : outcome (result (codebook S) codebook_error) :=
  let is := seq 0 (dr_len rd) in
  let! (maxbits0, cc) := from_pass1 rd m is 0 0 [] in
  if maxbits0 =? 0 then Ret (Error InvalidCodebook)
  else
    let maxbits := if MAX_LUT_BITS <? maxbits0 then MAX_LUT_BITS else maxbits0 in
    let! tab_len := shl32 1 maxbits in
    let! (table, cc') :=
      from_pass2 rd (repeat TABLE_FILL_VALUE (N.to_nat tab_len)) m maxbits is 0 cc in
    let! table' :=
      build_all (fun t key b => build_esc_lut 26 ord [key] t m b) table (ord [] cc') in
    let! syms := from_syms rd is in
    Ret (Okay (mk_codebook table' syms maxbits)).
