(** Specification of codeword reads with descriptions in which a codeword may be a prefix of
    another one that ends in the same ten bits. *)
From Coq Require Import List Arith NArith Bool.
From Verif Require Import Base BitModel BitSpec BitQueueSpec CodebookModel CodebookSpec CbQueueSpec CbMalformedSpec.
Import ListNotations.
Local Open Scope nat_scope.
(* From [CodebookModel] only the types of modes, descriptions and errors are used. *)

(** Codewords are read ten bits at a time.  A codeword is a prefix of (or equal to) another one only
    if both end in the same ten bits: bits 1 to 10, 11 to 20, and so on. *)
Definition same_level {S : Type} (m : mode) (ds : list (desc S)) : Prop :=
  forall d d', In d ds -> In d' ds -> used d -> used d' -> is_prefix (word m d) (word m d') ->
    (d_bits d - 1) / 10 = (d_bits d' - 1) / 10.

(** Where a codeword of at most ten bits is a prefix of a longer one, one of the longer ones with these
    first ten bits comes before it in the description. *)
Definition unblocked {S : Type} (m : mode) (ds : list (desc S)) : Prop :=
  forall i j a b, nth_error ds i = Some a -> nth_error ds j = Some b -> used a -> d_bits a <= 10 -> 10 < d_bits b ->
    is_prefix (word m a) (word m b) ->
    exists k c, k < i /\ nth_error ds k = Some c /\ 10 < d_bits c /\ firstn 10 (word m c) = firstn 10 (word m b).

(** The reads of [q_decode], where of several complete codewords the last one counts. *)
Fixpoint q_decode_last {S : Type} (rounds : nat) (e : endian) (m : mode) (l : list bool) (q : queue) (codes : pending S)
    : option (queue * option S) :=
  match rounds with
  | O => None
  | Datatypes.S rounds' =>
      let n := look_ahead codes in
      let u := as_written e m (snd (q_get32 l q n)) in
      match rev (complete u codes) with
      | (w, s) :: _ =>
          match enough l q (length w) with
          | Some true => Some (q_skip l q (length w), Some s)
          | Some false => Some (q, None)
          | None => None
          end
      | [] =>
          match longer u codes with
          | [] => Some (q, None)
          | rest =>
              match enough l q (look_ahead rest) with
              | Some true => q_decode_last rounds' e m l (q_skip l q n) rest
              | Some false => Some (q, None)
              | None => None
              end
          end
      end
  end.

Definition q_step_last {S : Type} (e : endian) (m : mode) (ds : list (desc S)) (l : list bool) (q : queue) (st : step S)
    : option (queue * step_out S) :=
  match st with
  | Call op => match q_op e l q op with Some (q', o) => Some (q', Out o) | None => None end
  | Codeword _ =>
      match q_decode_last 26 e m l q (all_codes m ds) with
      | Some (q', Some s) => Some (q', Sym (Okay s))
      | Some (q', None) => Some (q', Sym (Error InvalidCode))
      | None => None
      end
  end.

Fixpoint q_steps_last {S : Type} (e : endian) (m : mode) (ds : list (desc S)) (l : list bool) (q : queue) (steps : list (step S))
    : option (queue * list (step_out S)) :=
  match steps with
  | [] => Some (q, [])
  | st :: steps' =>
      match q_step_last e m ds l q st with
      | None => None
      | Some (q1, o) =>
          match q_steps_last e m ds l q1 steps' with
          | None => None
          | Some (q2, os) => Some (q2, o :: os)
          end
      end
  end.

Definition q_mixed_last {S : Type} (e : endian) (m : mode) (ds : list (desc S)) (buf : list N) (steps : list (step S))
    : option (queue * list (step_out S)) :=
  q_steps_last e m ds (bits_of e buf) (fetch64 (bits_of e buf) (mk_queue [] 0)) steps.

(** Histories as in [steps_within], where at each codeword read the recorded entry is the last
    one whose codeword comes next. *)
Fixpoint steps_last {S : Type} (m : mode) (ds : list (desc S)) (l : list bool) (limit p : nat)
    (steps : list (step S)) : Prop :=
  match steps with
  | [] => True
  | Call op :: steps' =>
      op_ok op /\ p + op_bits p op <= limit /\
      steps_last m ds l limit (fst (spec_op (reader_for m) l p op)) steps'
  | Codeword d :: steps' =>
      p + d_bits d <= limit /\ last_match m ds (skipn p l) = Some d /\
      steps_last m ds l limit (p + d_bits d) steps'
  end.

(** The words 0, 01, 10000000001 (11 bits) and 100000000010 (12 bits): those that clash end in
    the same ten bits.  The 12-bit word is never read when it comes before the 11-bit word. *)
Definition clash (first : bool) : list (desc nat) :=
  if first then [mk_desc 0%N 1 10; mk_desc 1%N 2 20; mk_desc 1025%N 11 30; mk_desc 2050%N 12 40]
  else [mk_desc 1%N 2 20; mk_desc 0%N 1 10; mk_desc 2050%N 12 40; mk_desc 1025%N 11 30].
