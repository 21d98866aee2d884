(** Demuxers that read by themselves, run on the bytes of the source. *)
From Coq Require Import List Arith NArith ZArith Bool.
From Verif Require Import Base AccModel AccSpec FormatModel DemuxModel DemuxSpec.
Import ListNotations.
Local Open Scope nat_scope.
(* From [AccModel] and [DemuxModel] the types are used, and [read_exact] and [seek] for running a
   demuxer on [AccReader]. *)

(** What a method of a demuxer does with its reader: it reads exactly so many bytes, goes to a
    position or asks for it, and goes on with the answer. *)
Inductive reading (A : Type) : Type :=
| Finish (a : A)
| ReadExact (n : nat) (next : result (list N) io_error -> reading A)
| GoTo (q : nat) (next : reading A)
| AskWhere (next : nat -> reading A).
Arguments Finish {A}.
Arguments ReadExact {A}.
Arguments GoTo {A}.
Arguments AskWhere {A}.

(** Where the context is to go on: at a position, or further ahead. *)
Inductive landing : Type := At (q : nat) | Ahead (n : nat).
Definition landing_seek (l : landing) : seek_from := match l with At q => Start q | Ahead n => Current (Z.of_nat n) end.

Record self_reader (P D : Type) : Type := mk_self_reader {
  sr_headers : D -> global_info P -> reading (D * global_info P * result landing error);
  sr_event : D -> reading (D * result (landing * event P) error)
}.
Arguments mk_self_reader {P D}.
Arguments sr_headers {P D}.
Arguments sr_event {P D}.

(** The demuxer these methods make; the calls needed by [read_exact] are at most the bytes asked
    for, so that it returns. *)
Fixpoint on_reader {S A : Type} (i : io S) (a : acc S) (t : reading A) : outcome (acc S * A) :=
  match t with
  | Finish x => Ret (a, x)
  | ReadExact n next =>
      let! (a', res) := read_exact i n a n in
      match res with
      | Some r => on_reader i a' (next r)
      | None => UB
      end
  | GoTo q next => let! (a', _) := seek i a (Start q) in on_reader i a' next
  | AskWhere next =>
      let! (a', res) := seek i a (Current 0) in
      match res with
      | Okay q => on_reader i a' (next q)
      | Error _ => UB
      end
  end.
Definition self_demuxer {P D S : Type} (sr : self_reader P D) (i : io S) : demuxer_fns P D (acc S) := mk_demuxer
  (fun d a info =>
     let! (a', x) := on_reader i a (sr_headers sr d info) in
     let '(d', info', res) := x in
     Ret (d', a', info', match res with Okay l => Okay (landing_seek l) | Error e => Error e end))
  (fun d a =>
     let! (a', x) := on_reader i a (sr_event sr d) in
     let '(d', res) := x in
     Ret (d', a', match res with Okay (l, ev) => Okay (landing_seek l, ev) | Error e => Error e end)).

(** The same on the bytes themselves, from position [p]. *)
Fixpoint on_bytes {A : Type} (src : list N) (p : nat) (t : reading A) : nat * A :=
  match t with
  | Finish x => (p, x)
  | ReadExact n next =>
      if n <=? length src - p then on_bytes src (p + n) (next (Okay (firstn n (skipn p src))))
      else on_bytes src (Nat.max p (length src)) (next (Error UnexpectedEof))
  | GoTo q next => on_bytes src q next
  | AskWhere next => on_bytes src p (next p)
  end.
Definition land (p : nat) (l : landing) : nat := match l with At q => q | Ahead n => p + n end.

Section Bare.
Context {P D : Type}.
Variable sr : self_reader P D.
Variable src : list N.

Definition bare_headers (d : D) (p : nat) (info : global_info P) : D * nat * global_info P * result unit error :=
  let '(p', (d', info', res)) := on_bytes src p (sr_headers sr d info) in
  match res with
  | Okay l => (d', land p' l, info', Okay tt)
  | Error e => (d', p', info', Error e)
  end.

Definition bare_event (d : D) (p : nat) (info : global_info P) : D * nat * global_info P * result (event P) error :=
  let '(p', (d', res)) := on_bytes src p (sr_event sr d) in
  match res with
  | Okay (l, ev) => (d', land p' l, register info ev, Okay (stamped (register info ev) ev))
  | Error e => (d', p', info, Error e)
  end.

Fixpoint bare_events (calls : nat) (d : D) (p : nat) (info : global_info P) : D * nat * global_info P * list (result (event P) error) :=
  match calls with
  | O => (d, p, info, [])
  | S calls' =>
      let '(d1, p1, info1, r) := bare_event d p info in
      let '(d2, p2, info2, rs) := bare_events calls' d1 p1 info1 in
      (d2, p2, info2, r :: rs)
  end.

(** The demuxer reads for itself and never asks the context for more data. *)
Definition never_asks : Prop :=
  (forall d p info n, snd (snd (on_bytes src p (sr_headers sr d info))) <> Error (MoreDataNeeded n)) /\
  (forall d p n, snd (snd (on_bytes src p (sr_event sr d))) <> Error (MoreDataNeeded n)) /\
  (forall d p l n, snd (snd (on_bytes src p (sr_event sr d))) <> Okay (l, MoreData n)).
End Bare.

(** A demuxer of chunks: two bytes say that it is such a file and where the chunks begin; a chunk is a
    length, as many bytes and one byte of padding; a chunk without bytes is a stream. *)
Definition chunk_reader : self_reader unit nat := mk_self_reader
  (fun d info => ReadExact 2 (fun r =>
     match r with
     | Okay [99%N; q] => Finish (d, info, Okay (At (N.to_nat q)))
     | Okay _ => Finish (d, info, Error InvalidData)
     | Error e => Finish (d, info, Error (Io e))
     end))
  (fun d => ReadExact 1 (fun r =>
     match r with
     | Okay [0%N] => Finish (d, Okay (Ahead 1, NewStream (mk_stream 0 0 tt None None (1%Z, 25%Z) None)))
     | Okay [n] => AskWhere (fun p => ReadExact (N.to_nat n) (fun r' =>
         match r' with
         | Okay l => Finish (d + 1, Okay (Ahead 1, NewPacket (mk_packet l (Some (N.of_nat p)) 0 default_time false false)))
         | Error e => GoTo p (Finish (d, Error (Io e)))
         end))
     | _ => Finish (d, Okay (Ahead 0, Eof))
     end)).
