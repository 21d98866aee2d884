(** [AccReader] over [AccReader]: the inner reader is itself buffered.

    A buffered reader implements [Read] and [Seek] and may therefore be the inner reader of
    another one.  [None] stands for an inner reader whose call has panicked; it stays
    [None] from then on. *)
From Coq Require Import List Arith NArith ZArith Bool.
From Verif Require Import Base AccModel AccSpec.
Import ListNotations.
Local Open Scope nat_scope.

(** accreader.rs:97-139 and 166-205, as what an outer reader calls *)
Definition acc_io {R : Type} (i : io R) : io (option (acc R)) := mk_io
  (fun o dst => match o with
    | Some a => match read i a dst with
                | Ret (a', dst', res) => (Some a', dst', res)
                | _ => (None, dst, Error (OtherError 0))
                end
    | None => (None, dst, Error (OtherError 0))
    end)
  (fun o s => match o with
    | Some a => match seek i a s with
                | Ret (a', res) => (Some a', res)
                | _ => (None, Error (OtherError 0))
                end
    | None => (None, Error (OtherError 0))
    end).

(** [n] buffered readers, each over the next, and a reader [R] below them all. *)
Fixpoint tower (R : Type) (n : nat) : Type :=
  match n with O => R | S n' => option (acc (tower R n')) end.

Fixpoint tower_io {R : Type} (i : io R) (n : nat) : io (tower R n) :=
  match n with O => i | S n' => acc_io (tower_io i n') end.

(** New ones, with these capacities. *)
Fixpoint tower_new {R : Type} (caps : list nat) (r : R) : tower R (length caps) :=
  match caps with [] => r | c :: caps' => Some (with_capacity c (tower_new caps' r)) end.

(** No call of any of them has panicked. *)
Fixpoint intact {R : Type} (n : nat) : tower R n -> Prop :=
  match n with
  | O => fun _ => True
  | S n' => fun o => match o with Some a => intact n' (inner a) | None => False end
  end.

Definition seekless (op : acc_op) : Prop := match op with ASeek _ => False | _ => True end.

(** A source whose read at position [bad] fails once: its state is the position and whether
    the failure is still to come. *)
Definition trap_read (src : list N) (bad : nat) (c : nat * bool) (dst : list N) : (nat * bool) * list N * result nat io_error :=
  let '(p, armed) := c in
  if armed && (p =? bad) then ((p, false), dst, Error (OtherError 5))
  else
    let k := Nat.min (length dst) (length src - p) in
    ((p + k, armed), firstn k (skipn p src) ++ skipn k dst, Okay k).

Definition trap_seek (src : list N) (c : nat * bool) (s : seek_from) : (nat * bool) * result nat io_error :=
  let t := target (length src) (fst c) s in
  if (t <? 0)%Z then (c, Error (OtherError 22)) else ((Z.to_nat t, snd c), Okay (Z.to_nat t)).

Definition trap_io (src : list N) (bad : nat) : io (nat * bool) := mk_io (trap_read src bad) (trap_seek src).
