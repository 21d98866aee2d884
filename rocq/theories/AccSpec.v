(** What a reader over a fixed sequence of bytes does (std::io contracts), and what
    a history of calls must look like. *)
From Coq Require Import List Arith NArith ZArith Bool.
From Verif Require Import Base AccModel.
Import ListNotations.
Local Open Scope nat_scope.
(* From [AccModel] only the interface types ([io], [seek_from], errors, calls and
   their outputs) are used here, plus [data] and [acc_step] in [acc_legal] and
   [read_exact] in [delivers]. *)

(** Position a seek asks for, given the current position and the length of the
    source. *)
Definition target (len p : nat) (s : seek_from) : Z :=
  match s with
  | Start n => Z.of_nat n
  | End d => (Z.of_nat len + d)%Z
  | Current d => (Z.of_nat p + d)%Z
  end.

(** [reads src p dst dst' res p']: a call [read(dst)] at position [p] of the source
    may leave [dst'] in the slice, return [res] and leave the reader at [p'].  Reads
    may be short; zero bytes are returned only at the end or for an empty slice; a
    failed read does not move. *)
Definition reads (src : list N) (p : nat) (dst dst' : list N) (res : result nat io_error) (p' : nat) : Prop :=
  length dst' = length dst /\
  match res with
  | Okay k =>
      k <= length dst /\ k <= length src - p /\ firstn k dst' = firstn k (skipn p src) /\
      (k = 0 -> length dst = 0 \/ length src <= p) /\ p' = p + k
  | Error _ => p' = p
  end.

(** A seek succeeds exactly at the position asked for or fails without moving;
    negative positions are errors. *)
Definition seeks (src : list N) (p : nat) (s : seek_from) (res : result nat io_error) (p' : nat) : Prop :=
  match res with
  | Okay q => Z.of_nat q = target (length src) p s /\ p' = q
  | Error _ => p' = p
  end.

(** An inner reader that behaves like a file with contents [src]; [tell] is its
    position and [good] the set of its states. *)
Record source_ok {R : Type} (i : io R) (src : list N) (good : R -> Prop) (tell : R -> nat) : Prop := {
  so_read : forall r dst r' dst' res, good r -> io_read i r dst = (r', dst', res) ->
    good r' /\ reads src (tell r) dst dst' res (tell r');
  so_seek : forall r s r' res, good r -> io_seek i r s = (r', res) ->
    good r' /\ seeks src (tell r) s res (tell r')
}.

(** It never fails, except for seeks to negative positions. *)
Definition never_fails {R : Type} (i : io R) (src : list N) (good : R -> Prop) (tell : R -> nat) : Prop :=
  (forall r dst r' dst' res, good r -> io_read i r dst = (r', dst', res) -> exists k, res = Okay k) /\
  (forall r s r' res, good r -> io_seek i r s = (r', res) ->
     (0 <= target (length src) (tell r) s)%Z -> exists q, res = Okay q).

(** Backward relative seeks are excluded where they are not meant. *)
Definition forward (s : seek_from) : Prop := match s with Current d => (0 <= d)%Z | _ => True end.

(** What each call may answer at position [p], and the position afterwards. *)
Definition call_spec (src : list N) (p : nat) (op : acc_op) (o : acc_out) (p' : nat) : Prop :=
  match op, o with
  | ARead dst, ORead dst' res => reads src p dst dst' res p'
  | AFill, OFill (Okay d) => d = firstn (length d) (skipn p src) /\ p' = p
  | AFill, OFill (Error _) => p' = p
  | AConsume n, OUnit => p' = p + n
  | AGrow _, OUnit => p' = p
  | AReset, OUnit => p' = p
  | AData, OData d => d = firstn (length d) (skipn p src) /\ p' = p
  | ACapacity, OCapacity n => n <= length src - p /\ p' = p
  | ASeek s, OSeek (Okay q) => Z.of_nat q = target (length src) p s /\ p' = q
  | ASeek s, OSeek (Error _) => p' = p \/ Z.of_nat p' = target (length src) p s
  | _, _ => False
  end.

Fixpoint history_spec (src : list N) (p : nat) (ops : list acc_op) (outs : list acc_out) (p' : nat) : Prop :=
  match ops, outs with
  | [], [] => p' = p
  | op :: ops', o :: outs' => exists p1, call_spec src p op o p1 /\ history_spec src p1 ops' outs' p'
  | _, _ => False
  end.

(** Clients consume at most what is buffered (the contract of
    [BufRead::consume]); backward relative seeks are left out. *)
Fixpoint acc_legal {R : Type} (i : io R) (a : acc R) (ops : list acc_op) : Prop :=
  match ops with
  | [] => True
  | op :: ops' =>
      match op with
      | AConsume n => exists d, data a = Ret d /\ n <= length d
      | ASeek s => forward s
      | _ => True
      end /\
      (forall a' o, acc_step i a op = Ret (a', o) -> acc_legal i a' ops')
  end.

(** From [a] on, [read_exact] delivers the bytes of the source from position [p]. *)
Definition delivers {R : Type} (i : io R) (src : list N) (a : acc R) (p : nat) : Prop :=
  forall n, exists a', read_exact i n a n =
    Ret (a', Some (if n <=? length src - p then Okay (firstn n (skipn p src)) else Error UnexpectedEof)).

(** Bytes added by the calls to [grow] of a history. *)
Fixpoint grown (ops : list acc_op) : nat :=
  match ops with
  | [] => 0
  | AGrow n :: ops' => n + grown ops'
  | _ :: ops' => grown ops'
  end.

(** ** A concrete family of sources: a cursor over a byte list whose reads are cut
    and fail as a script says. *)
Inductive choice : Type := Deliver (limit : nat) | Fail (e : io_error).
Record cursor : Type := mk_cursor { cur_src : list N; cur_pos : nat; cur_script : list choice }.

Definition cursor_read (c : cursor) (dst : list N) : cursor * list N * result nat io_error :=
  let avail := skipn (cur_pos c) (cur_src c) in
  let most := Nat.min (length dst) (length avail) in
  let give k rest :=
    (mk_cursor (cur_src c) (cur_pos c + k) rest, firstn k avail ++ skipn k dst, Okay k) in
  match cur_script c with
  | [] => give most []
  | Deliver limit :: rest => give (Nat.min most (Nat.max 1 limit)) rest
  | Fail e :: rest => (mk_cursor (cur_src c) (cur_pos c) rest, dst, Error e)
  end.

Definition cursor_seek (c : cursor) (s : seek_from) : cursor * result nat io_error :=
  let t := target (length (cur_src c)) (cur_pos c) s in
  match cur_script c with
  | Fail e :: rest => (mk_cursor (cur_src c) (cur_pos c) rest, Error e)
  | script =>
      if (t <? 0)%Z then (c, Error (OtherError 22))
      else (mk_cursor (cur_src c) (Z.to_nat t) script, Okay (Z.to_nat t))
  end.

Definition cursor_io : io cursor := mk_io cursor_read cursor_seek.
