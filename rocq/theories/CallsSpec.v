(** Which calls of its inner reader [AccReader] makes. *)
From Coq Require Import List Arith NArith ZArith Bool.
From Verif Require Import Base AccModel AccSpec.
Import ListNotations.
Local Open Scope nat_scope.
(* From [AccModel] only the interface types are used, and [acc] in [logged]. *)

(** A call of the inner reader: [read] with the number of bytes asked for, or [seek], and its result. *)
Inductive inner_call : Type :=
| CRead (asked : nat) (res : result nat io_error)
| CSeek (s : seek_from) (res : result nat io_error).

(** An inner reader that notes down the calls. *)
Definition traced {R : Type} (i : io R) : io (R * list inner_call) := mk_io
  (fun r dst => let '(r', dst', res) := io_read i (fst r) dst in ((r', snd r ++ [CRead (length dst) res]), dst', res))
  (fun r s => let '(r', res) := io_seek i (fst r) s in ((r', snd r ++ [CSeek s res]), res)).

(** The same reader over it, after the calls [log]. *)
Definition logged {R : Type} (a : acc R) (log : list inner_call) : acc (R * list inner_call) :=
  mk_acc (inner a, log) (abuf a) (apos a) (aend a) (aindex a).

(** How many bytes one call asks the inner reader for, with a buffer of [cap] bytes of which [held] are waiting. *)
Definition asks (op : acc_op) (cap held : nat) : nat :=
  match op with
  | ARead dst =>
      if length dst <? held then 0 else if cap <? length dst then length dst - held else cap - held
  | AFill => cap - held
  | ASeek _ => cap
  | _ => 0
  end.
Definition one_read (n : nat) (calls : list inner_call) : Prop :=
  match n with O => calls = [] | S _ => exists res, calls = [CRead n res] end.

(** A seek inside what is waiting moves nothing; others are passed on, relative ones from where the inner reader is. *)
Definition inside (s : seek_from) (index held : nat) : bool :=
  match s with
  | Start n => (index <=? n) && (n <? index + held)
  | End _ => false
  | Current z => (0 <=? z)%Z && (z <=? Z.of_nat held)%Z
  end.
Definition passed_on (s : seek_from) (held : nat) : seek_from :=
  match s with
  | Current z => if (0 <=? z)%Z then Current (z - Z.of_nat held) else s
  | _ => s
  end.

(** The calls that one call of [AccReader] makes. *)
Definition makes (op : acc_op) (cap held index : nat) (calls : list inner_call) : Prop :=
  match op with
  | ASeek s =>
      if inside s index held then calls = []
      else (exists e, calls = [CSeek (passed_on s held) (Error e)]) \/
        exists q rest, calls = CSeek (passed_on s held) (Okay q) :: rest /\ one_read cap rest
  | _ => one_read (asks op cap held) calls
  end.

(** In short: at most one [read], which asks for at least one byte; only [seek] seeks, at most once. *)
Definition some_read (calls : list inner_call) : Prop :=
  calls = [] \/ exists n res, 0 < n /\ calls = [CRead n res].
Definition allowed (op : acc_op) (calls : list inner_call) : Prop :=
  match op with
  | ARead _ | AFill => some_read calls
  | ASeek _ =>
      calls = [] \/ (exists s e, calls = [CSeek s (Error e)]) \/
      exists s q rest, calls = CSeek s (Okay q) :: rest /\ some_read rest
  | AConsume _ | AGrow _ | AReset | AData | ACapacity => calls = []
  end.

(** The same for all calls of a history. *)
Fixpoint allowed_all (ops : list acc_op) (calls : list (list inner_call)) : Prop :=
  match ops, calls with
  | [], [] => True
  | op :: ops', c :: calls' => allowed op c /\ allowed_all ops' calls'
  | _, _ => False
  end.

(** An inner reader gets a slice of a fixed length: it cannot change that length. *)
Definition slices_kept {R : Type} (i : io R) : Prop :=
  forall r dst r' dst' res, io_read i r dst = (r', dst', res) -> length dst' = length dst.

(** The calls that may read. *)
Definition may_read (op : acc_op) : bool := match op with ARead _ | AFill | ASeek _ => true | _ => false end.
Definition may_seek (op : acc_op) : bool := match op with ASeek _ => true | _ => false end.

(** The number of [read]s and of [seek]s. *)
Definition is_read (c : inner_call) : bool := match c with CRead _ _ => true | CSeek _ _ => false end.
Definition count_reads (calls : list inner_call) : nat := length (filter is_read calls).
Definition count_seeks (calls : list inner_call) : nat := length (filter (fun c => negb (is_read c)) calls).

(** A source that fills the slice as far as it goes, as files and cursors usually do. *)
Definition fills {R : Type} (i : io R) (src : list N) (good : R -> Prop) (tell : R -> nat) : Prop :=
  forall r dst r' dst' res, good r -> io_read i r dst = (r', dst', res) -> res = Okay (Nat.min (length dst) (length src - tell r)).

(** What reading byte by byte answers. *)
Definition byte_outs (l : list N) : list acc_out := map (fun b => ORead [b] (Okay 1)) l.

(** [k] divided by [n], rounded up. *)
Definition over (k n : nat) : nat := (k + (n - 1)) / n.
