(** Histories of reader calls and codeword reads in which a codeword read may follow any
    number of tables.  [read_cb] stops after 27 tables; here the number is a parameter. *)
From Coq Require Import List Arith NArith Bool.
From Verif Require Import Base BitModel BitSpec CodebookModel CodebookSpec.
Import ListNotations.
Local Open Scope nat_scope.

(** codebook.rs:381-405, going round the loop at most [rounds] times *)
Definition read_in {S : Type} (rounds : nat) (e : endian) (cb : codebook S) (r : reader)
    : outcome (reader * result S codebook_error) :=
  read_loop rounds e cb r 0 (cb_lut_bits cb).

Fixpoint run_in {S : Type} (rounds : nat) (e : endian) (cb : codebook S) (r : reader) (steps : list (step S))
    : outcome (reader * list (step_out S)) :=
  match steps with
  | [] => Ret (r, [])
  | Call op :: steps' =>
      let! (r1, o) := run_op e r op in
      let! (r2, os) := run_in rounds e cb r1 steps' in
      Ret (r2, Out o :: os)
  | Codeword _ :: steps' =>
      let! (r1, s) := read_in rounds e cb r in
      let! (r2, os) := run_in rounds e cb r1 steps' in
      Ret (r2, Sym s :: os)
  end.

(** Arguments respect the documented ranges and no skip goes beyond what [available]
    reports at that moment. *)
Fixpoint ok_in {S : Type} (rounds : nat) (e : endian) (cb : codebook S) (r : reader) (steps : list (step S)) : Prop :=
  match steps with
  | [] => True
  | Call op :: steps' =>
      op_ok op /\
      (forall n a, op = OpSkip n -> available r = Ret a -> n <= a) /\
      (forall r' o, run_op e r op = Ret (r', o) -> ok_in rounds e cb r' steps')
  | Codeword _ :: steps' =>
      forall r' s, read_in rounds e cb r = Ret (r', s) -> ok_in rounds e cb r' steps'
  end.

(** A description of codewords that do not fit: words of 11 bits with the values 1, 2049,
    2053, 2057, ... *)
Fixpoint chain (n : nat) (k : N) : list (desc N) :=
  match n with
  | O => []
  | S n' => mk_desc (2049 + 4 * k)%N 11 (k + 1)%N :: chain n' (k + 1)%N
  end.
Definition chained (n : nat) : list (desc N) := mk_desc 1%N 11 0%N :: chain n 0.

(** codebook.rs:294-377 with a bound on the depth of [build_esc_lut]; [new_codebook] has 26. *)
Definition new_in {S : Type} (depth : nat) (ord : order) (ds : list (desc S)) (m : mode)
    : outcome (result (codebook S) codebook_error) :=
  let! (maxbits0, cc) := new_pass1 m ds 0 0 [] in
  if maxbits0 =? 0 then Ret (Error InvalidCodebook)
  else
    let maxbits := if MAX_LUT_BITS <? maxbits0 then MAX_LUT_BITS else maxbits0 in
    let! tab_len := shl32 1 maxbits in
    let! (table, cc') :=
      new_pass2 (repeat TABLE_FILL_VALUE (N.to_nat tab_len)) m maxbits ds 0 cc in
    let! table' :=
      build_all (fun t key b => build_esc_lut depth ord [key] t m b) table (ord [] cc') in
    Ret (Okay (mk_codebook table' (used_syms ds) maxbits)).
