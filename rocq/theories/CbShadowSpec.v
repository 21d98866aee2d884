(** Specification of codeword reads with descriptions in which a codeword may be a prefix of any
    other one, where none of at most ten bits keeps a longer one from its table. *)
From Coq Require Import List Arith NArith Bool.
From Verif Require Import Base BitModel BitSpec BitQueueSpec CodebookModel CodebookSpec CbQueueSpec.
Import ListNotations.
Local Open Scope nat_scope.
(* From [CodebookModel] only the types of modes, descriptions and errors are used. *)

(** The reads of [q_decode], with any codewords.  Of several complete codewords the last one counts.
    If there are longer ones as well, the complete one counts in the first ten bits ([first]) and the
    longer ones do in all others, even if the bits that follow are those of none of them. *)
Fixpoint q_decode_any {S : Type} (rounds : nat) (first : bool) (e : endian) (m : mode) (l : list bool) (q : queue)
    (codes : pending S) : option (queue * option S) :=
  match rounds with
  | O => None
  | Datatypes.S rounds' =>
      let n := look_ahead codes in
      let u := as_written e m (snd (q_get32 l q n)) in
      match rev (complete u codes), longer u codes, first with
      | [], [], _ => Some (q, None)
      | (w, s) :: _, _, true | (w, s) :: _, [], _ =>
          match enough l q (length w) with
          | Some true => Some (q_skip l q (length w), Some s)
          | Some false => Some (q, None)
          | None => None
          end
      | _, rest, _ =>
          match enough l q (look_ahead rest) with
          | Some true => q_decode_any rounds' false e m l (q_skip l q n) rest
          | Some false => Some (q, None)
          | None => None
          end
      end
  end.

Definition q_step_any {S : Type} (e : endian) (m : mode) (ds : list (desc S)) (l : list bool) (q : queue) (st : step S)
    : option (queue * step_out S) :=
  match st with
  | Call op => match q_op e l q op with Some (q', o) => Some (q', Out o) | None => None end
  | Codeword _ =>
      match q_decode_any 26 true e m l q (all_codes m ds) with
      | Some (q', Some s) => Some (q', Sym (Okay s))
      | Some (q', None) => Some (q', Sym (Error InvalidCode))
      | None => None
      end
  end.

Fixpoint q_steps_any {S : Type} (e : endian) (m : mode) (ds : list (desc S)) (l : list bool) (q : queue) (steps : list (step S))
    : option (queue * list (step_out S)) :=
  match steps with
  | [] => Some (q, [])
  | st :: steps' =>
      match q_step_any e m ds l q st with
      | None => None
      | Some (q1, o) =>
          match q_steps_any e m ds l q1 steps' with
          | None => None
          | Some (q2, os) => Some (q2, o :: os)
          end
      end
  end.

Definition q_mixed_any {S : Type} (e : endian) (m : mode) (ds : list (desc S)) (buf : list N) (steps : list (step S))
    : option (queue * list (step_out S)) :=
  q_steps_any e m ds (bits_of e buf) (fetch64 (bits_of e buf) (mk_queue [] 0)) steps.

(** No codeword of more than ten bits comes after one of at most ten. *)
Definition long_first {S : Type} (ds : list (desc S)) : Prop :=
  forall i j a b, nth_error ds i = Some a -> nth_error ds j = Some b -> used a -> d_bits a <= 10 -> 10 < d_bits b -> j < i.

(** The words 1111111111111111111111 (22 bits), 000000000011 (12), 00000 (5) and 111111111111111 (15). *)
Definition nested : list (desc nat) :=
  [mk_desc 4194303%N 22 1; mk_desc 3%N 12 2; mk_desc 0%N 5 3; mk_desc 32767%N 15 4].

(** A codeword read. *)
Definition word_step : step nat := Codeword (mk_desc 0%N 0 0).
