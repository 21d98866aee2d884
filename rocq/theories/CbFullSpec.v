(** Specification of codeword reads with any description: codewords may be prefixes of any others. *)
From Coq Require Import List Arith NArith Bool.
From Verif Require Import Base BitModel BitSpec BitQueueSpec CodebookModel CodebookSpec CbQueueSpec CbShadowSpec.
Import ListNotations.
Local Open Scope nat_scope.
(* From [CodebookModel] only the types of modes, descriptions and errors are used, except in
   [reads_like], which compares the model to what is specified before it. *)

(** A codeword matches [u], a string of ten bits, as far as both go. *)
Definition meets {S : Type} (m : mode) (u : list bool) (d : desc S) : bool :=
  (0 <? d_bits d) && same_bits (firstn (d_bits d) u) (firstn 10 (word m d)).

(** The first ten bits of the codewords with more than ten bits, each once. *)
Definition long_keys {S : Type} (m : mode) (ds : list (desc S)) : list (list bool) :=
  nodup (list_eq_dec bool_dec) (map (fun d => firstn 10 (word m d)) (filter (fun d => 10 <? d_bits d) ds)).

(** Those where a codeword of at most ten bits is the first one to match. *)
Definition blocked_keys {S : Type} (m : mode) (ds : list (desc S)) : list (list bool) :=
  filter (fun u => match find (meets m u) ds with Some d => d_bits d <=? 10 | None => false end) (long_keys m ds).

(** What is found for the next ten bits (or less, if there are no longer codewords): nothing, a
    codeword and its length, or codewords that go on. *)
Inductive found (S : Type) : Type :=
| Nothing
| Word (bits : nat) (s : S)
| GoOn (rest : pending S).
Arguments Nothing {S}.
Arguments Word {S} bits s.
Arguments GoOn {S} rest.

(** In the first ten bits complete codewords count before longer ones ... *)
Definition in_main {S : Type} (codes : pending S) (u : list bool) : found S :=
  match rev (complete u codes), longer u codes with
  | (w, s) :: _, _ => Word (length w) s
  | [], [] => Nothing
  | [], rest => GoOn rest
  end.

(** ... and after that longer ones. *)
Definition in_table {S : Type} (codes : pending S) (u : list bool) : found S :=
  match longer u codes, rev (complete u codes) with
  | [], [] => Nothing
  | [], (w, s) :: _ => Word (length w) s
  | rest, _ => GoOn rest
  end.

(** Where the ten bits [u], taken as a number, are those of a number of [n] bits. *)
Definition at_start (m : mode) (n : nat) (u : list bool) : option (list bool) :=
  match m with
  | MSB => if forallb negb (firstn (10 - n) u) then Some (skipn (10 - n) u) else None
  | LSB => if forallb negb (skipn n u) then Some (firstn n u) else None
  end.

(** The rest of the codewords that begin with a blocked string is found in the wrong place: where the
    first ten bits, as a number, are the next bits, as a number. *)
Definition misplaced {S : Type} (m : mode) (codes : pending S) (u : list bool) : found S :=
  match at_start m (look_ahead codes) u with
  | Some v => in_table codes v
  | None => Nothing
  end.

(** The first of the blocked strings [ks] with which something is found there counts. *)
Fixpoint in_full {S : Type} (m : mode) (ks : list (list bool)) (codes : pending S) (u : list bool) : found S :=
  match ks with
  | [] => in_main codes u
  | k :: ks' =>
      match misplaced m (longer k codes) u with
      | Nothing => in_full m ks' codes u
      | f => f
      end
  end.

Definition q_decode_full {S : Type} (ks : list (list bool)) (e : endian) (m : mode) (l : list bool) (q : queue) (codes : pending S)
    : option (queue * option S) :=
  let n := look_ahead codes in
  let u := as_written e m (snd (q_get32 l q n)) in
  match in_full m ks codes u with
  | Nothing => Some (q, None)
  | Word k s =>
      match enough l q k with
      | Some true => Some (q_skip l q k, Some s)
      | Some false => Some (q, None)
      | None => None
      end
  | GoOn rest =>
      match enough l q (look_ahead rest) with
      | Some true => q_decode_any 25 false e m l (q_skip l q n) rest
      | Some false => Some (q, None)
      | None => None
      end
  end.

Definition q_step_full {S : Type} (ks : list (list bool)) (e : endian) (m : mode) (ds : list (desc S)) (l : list bool) (q : queue)
    (st : step S) : option (queue * step_out S) :=
  match st with
  | Call op => match q_op e l q op with Some (q', o) => Some (q', Out o) | None => None end
  | Codeword _ =>
      match q_decode_full ks e m l q (all_codes m ds) with
      | Some (q', Some s) => Some (q', Sym (Okay s))
      | Some (q', None) => Some (q', Sym (Error InvalidCode))
      | None => None
      end
  end.

Fixpoint q_steps_full {S : Type} (ks : list (list bool)) (e : endian) (m : mode) (ds : list (desc S)) (l : list bool) (q : queue)
    (steps : list (step S)) : option (queue * list (step_out S)) :=
  match steps with
  | [] => Some (q, [])
  | st :: steps' =>
      match q_step_full ks e m ds l q st with
      | None => None
      | Some (q1, o) =>
          match q_steps_full ks e m ds l q1 steps' with
          | None => None
          | Some (q2, os) => Some (q2, o :: os)
          end
      end
  end.

Definition q_mixed_full {S : Type} (ks : list (list bool)) (e : endian) (m : mode) (ds : list (desc S)) (buf : list N)
    (steps : list (step S)) : option (queue * list (step_out S)) :=
  q_steps_full ks e m ds (bits_of e buf) (fetch64 (bits_of e buf) (mk_queue [] 0)) steps.

(** The codebook [cb] decodes like that in any history of calls with documented arguments and codeword
    reads, on any buffer, with either reader, and panics exactly when that does. *)
Definition reads_like {S : Type} (m : mode) (ds : list (desc S)) (ks : list (list bool)) (cb : codebook S) : Prop :=
  forall e buf steps, bytes buf -> Forall step_ok steps ->
  exists r0, new e buf = Ret r0 /\
  match q_mixed_full ks e m ds buf steps with
  | Some (q, outs) => exists r, run_mixed e cb r0 steps = Ret (r, outs) /\
      left r = length (waiting q) /\ consumed r = Ret (fetched q - length (waiting q))
  | None => run_mixed e cb r0 steps = Panic
  end.

(** The words 1, 10000000001, 11000000001 and 00. *)
Definition crossed : list (desc nat) := [mk_desc 1%N 1 10; mk_desc 1025%N 11 20; mk_desc 1537%N 11 30; mk_desc 0%N 2 40].
