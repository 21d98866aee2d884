(** Histories of calls and codeword reads in a build without overflow checks. *)
From Coq Require Import List Arith NArith ZArith Bool.
From Verif Require Import Base BitModel BitSpec BitQueueSpec WordBitModel WordSpec ReleaseBitModel ReleaseBitSpec CodebookModel CodebookSpec
  CbQueueSpec ReleaseCbModel.
Import ListNotations.
Local Open Scope nat_scope.

(** Running the history of [CodebookSpec.run_mixed] on the unchecked reader. *)
Fixpoint rc_run_mixed {S : Type} (e : endian) (cb : codebook S) (r : wreader) (steps : list (step S))
    : outcome (wreader * list (step_out S)) :=
  match steps with
  | [] => Ret (r, [])
  | Call op :: steps' =>
      let! (r1, o) := rb_run_op e r op in
      let! (r2, os) := rc_run_mixed e cb r1 steps' in
      Ret (r2, Out o :: os)
  | Codeword _ :: steps' =>
      let! (r1, s) := rc_read_cb e cb r in
      let! (r2, os) := rc_run_mixed e cb r1 steps' in
      Ret (r2, Sym s :: os)
  end.
Definition rc_mixed_from_new {S : Type} (e : endian) (cb : codebook S) (buf : list N) (steps : list (step S))
    : outcome (wreader * list (step_out S)) :=
  let! r := rb_new e buf in rc_run_mixed e cb r steps.
Definition mixed_from_new {S : Type} (e : endian) (cb : codebook S) (buf : list N) (steps : list (step S))
    : outcome (reader * list (step_out S)) :=
  let! r := new e buf in run_mixed e cb r steps.

(** The bits that are skipped: a codeword read skips fewer than 256 bits at most 27 times. *)
Fixpoint steps_skip {S : Type} (steps : list (step S)) : N :=
  match steps with
  | [] => 0
  | Call (OpSkip n) :: steps' => N.of_nat n + steps_skip steps'
  | Call _ :: steps' => steps_skip steps'
  | Codeword _ :: steps' => 6912 + steps_skip steps'
  end.

(** Arguments are [usize]. *)
Definition step_arg_fits {S : Type} (st : step S) : Prop :=
  match st with Call op => arg_fits op | Codeword _ => True end.

(** The length of codes is an [u8], the table is a vector and so shorter than 2^64. *)
Definition lengths_u8 {S : Type} (ds : list (desc S)) : Prop := Forall (fun d => d_bits d < 256) ds.
Definition typed_codebook {S : Type} (cb : codebook S) : Prop :=
  cb_lut_bits cb < 256 /\ (N.of_nat (length (cb_table cb)) < 2 ^ 64)%N.

(** ** The bit queue of [CbQueueSpec] without panics *)

(** Are there [n] more bits?  The count wraps at 2^32, also below zero. *)
Definition renough (l : list bool) (q : queue) (n : nat) : bool :=
  (Z.of_nat n <=? bits_left l q mod 2 ^ 32)%Z.

Fixpoint rq_decode {S : Type} (rounds : nat) (e : endian) (m : mode) (l : list bool) (q : queue) (codes : pending S)
    : queue * option S :=
  match rounds with
  | O => (q, None)
  | Datatypes.S rounds' =>
      let n := look_ahead codes in
      let u := as_written e m (snd (q_get32 l q n)) in
      match complete u codes with
      | (w, s) :: _ => if renough l q (length w) then (q_skip l q (length w), Some s) else (q, None)
      | [] =>
          match longer u codes with
          | [] => (q, None)
          | rest => if renough l q (look_ahead rest) then rq_decode rounds' e m l (q_skip l q n) rest else (q, None)
          end
      end
  end.

(** Codewords have at most 255 bits: 26 rounds. *)
Definition rq_step {S : Type} (e : endian) (m : mode) (ds : list (desc S)) (l : list bool) (q : queue) (st : step S)
    : queue * step_out S :=
  match st with
  | Call op => let '(q', o) := rq_op e l q op in (q', Out o)
  | Codeword _ =>
      let '(q', o) := rq_decode 26 e m l q (all_codes m ds) in
      (q', Sym match o with Some s => Okay s | None => Error InvalidCode end)
  end.

Fixpoint rq_steps {S : Type} (e : endian) (m : mode) (ds : list (desc S)) (l : list bool) (q : queue) (steps : list (step S))
    : queue * list (step_out S) :=
  match steps with
  | [] => (q, [])
  | st :: steps' =>
      let '(q1, o) := rq_step e m ds l q st in
      let '(q2, os) := rq_steps e m ds l q1 steps' in
      (q2, o :: os)
  end.

Definition rq_mixed {S : Type} (e : endian) (m : mode) (ds : list (desc S)) (buf : list N) (steps : list (step S))
    : queue * list (step_out S) :=
  rq_steps e m ds (bits_of e buf) (fetch64 (bits_of e buf) (mk_queue [] 0)) steps.
