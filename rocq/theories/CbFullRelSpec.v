(** Specification of codeword reads with any description in a build without overflow checks. *)
From Coq Require Import List Arith NArith ZArith Bool.
From Verif Require Import Base BitModel BitSpec BitQueueSpec WordBitModel WordSpec ReleaseBitModel ReleaseBitSpec CodebookModel CodebookSpec
  CbQueueSpec ReleaseCbModel ReleaseCbSpec CbShadowSpec CbFullSpec.
Import ListNotations.
Local Open Scope nat_scope.

(** The search of [CbFullSpec] after the first ten bits; the count of available bits wraps around. *)
Fixpoint rq_decode_any {S : Type} (rounds : nat) (e : endian) (m : mode) (l : list bool) (q : queue) (codes : pending S)
    : queue * option S :=
  match rounds with
  | O => (q, None)
  | Datatypes.S rounds' =>
      let n := look_ahead codes in
      match in_table codes (as_written e m (snd (q_get32 l q n))) with
      | Nothing => (q, None)
      | Word k s => if renough l q k then (q_skip l q k, Some s) else (q, None)
      | GoOn rest => if renough l q (look_ahead rest) then rq_decode_any rounds' e m l (q_skip l q n) rest else (q, None)
      end
  end.

(** And in the first ten bits. *)
Definition rq_decode_full {S : Type} (ks : list (list bool)) (e : endian) (m : mode) (l : list bool) (q : queue) (codes : pending S)
    : queue * option S :=
  let n := look_ahead codes in
  match in_full m ks codes (as_written e m (snd (q_get32 l q n))) with
  | Nothing => (q, None)
  | Word k s => if renough l q k then (q_skip l q k, Some s) else (q, None)
  | GoOn rest => if renough l q (look_ahead rest) then rq_decode_any 25 e m l (q_skip l q n) rest else (q, None)
  end.

Definition rq_step_full {S : Type} (ks : list (list bool)) (e : endian) (m : mode) (ds : list (desc S)) (l : list bool) (q : queue)
    (st : step S) : queue * step_out S :=
  match st with
  | Call op => let '(q', o) := rq_op e l q op in (q', Out o)
  | Codeword _ =>
      let '(q', o) := rq_decode_full ks e m l q (all_codes m ds) in
      (q', Sym match o with Some s => Okay s | None => Error InvalidCode end)
  end.

Fixpoint rq_steps_full {S : Type} (ks : list (list bool)) (e : endian) (m : mode) (ds : list (desc S)) (l : list bool) (q : queue)
    (steps : list (step S)) : queue * list (step_out S) :=
  match steps with
  | [] => (q, [])
  | st :: steps' =>
      let '(q1, o) := rq_step_full ks e m ds l q st in
      let '(q2, os) := rq_steps_full ks e m ds l q1 steps' in
      (q2, o :: os)
  end.

Definition rq_mixed_full {S : Type} (ks : list (list bool)) (e : endian) (m : mode) (ds : list (desc S)) (buf : list N)
    (steps : list (step S)) : queue * list (step_out S) :=
  rq_steps_full ks e m ds (bits_of e buf) (fetch64 (bits_of e buf) (mk_queue [] 0)) steps.

(** The codebook [cb] decodes like that in any history of calls with documented arguments and codeword
    reads, on any buffer, with either reader, behind the end of the buffer included. *)
Definition release_reads_like {S : Type} (m : mode) (ds : list (desc S)) (ks : list (list bool)) (cb : codebook S) : Prop :=
  forall e buf steps, bytes buf -> Forall step_ok steps -> (8 * N.of_nat (length buf) + steps_skip steps < 2 ^ 64)%N ->
  exists r, rc_mixed_from_new e cb buf steps = Ret (r, snd (rq_mixed_full ks e m ds buf steps)) /\
    w_left r = N.of_nat (length (waiting (fst (rq_mixed_full ks e m ds buf steps)))) /\
    rb_consumed r = N.of_nat (fetched (fst (rq_mixed_full ks e m ds buf steps)) - length (waiting (fst (rq_mixed_full ks e m ds buf steps)))).
