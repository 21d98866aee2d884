(** Contracts of readers and buffered readers, and what stream getters return. *)
From Coq Require Import List Arith NArith ZArith Bool.
From Verif Require Import Base ByteSpec AccModel AccSpec FormatModel MuxModel MuxSpec StreamModel.
Import ListNotations.
Local Open Scope nat_scope.

(** A reader over the bytes [src] ([reads] is the contract of std::io::Read). *)
Definition reader_ok {R : Type} (rd : reader R) (src : list N) (good : R -> Prop) (tell : R -> nat) : Prop :=
  forall r dst, good r -> exists r' dst' res, rd r dst = Ret (r', dst', res) /\ good r' /\ reads src (tell r) dst dst' res (tell r').

(** The errors a reader can produce by itself. *)
Definition fails_with {R : Type} (rd : reader R) (good : R -> Prop) (e : io_error) : Prop :=
  exists r dst r' dst', good r /\ rd r dst = Ret (r', dst', Error e).

(** A buffered reader: [fill_buf] returns the next bytes and does not move. *)
Definition filler_ok {R : Type} (fl : filler R) (src : list N) (good : R -> Prop) (tell : R -> nat) : Prop :=
  forall r, good r -> exists r' res, fl r = Ret (r', res) /\ good r' /\ tell r' = tell r /\
    match res with Okay d => d = firstn (length d) (skipn (tell r) src) | Error _ => True end.

(** Two's complement value of the number the bytes represent. *)
Definition signed_number (number : list N -> N -> Prop) (w : Z) (bs : list N) (v : Z) : Prop :=
  exists u, number bs u /\ signed_range w v /\ exists q, v = (Z.of_N u + q * 2 ^ w)%Z.

(** A getter that returns the value of the next [k] bytes and consumes exactly
    them; it fails with [UnexpectedEof] if there are fewer (then all are consumed), and otherwise only with an
    error of the reader; it makes at most [k] calls. *)
Definition reads_value {V : Type} (k : nat) (val : list N -> V -> Prop)
    (sg : forall R, reader R -> nat -> R -> outcome (R * option (result V io_error))) : Prop :=
  forall (R : Type) (rd : reader R) src good tell, reader_ok rd src good tell -> bytes src ->
  forall fuel r, good r -> exists r' res, sg R rd fuel r = Ret (r', res) /\ good r' /\
    match res with
    | Some (Okay v) => k <= length src - tell r /\ val (firstn k (skipn (tell r) src)) v /\ tell r' = tell r + k
    | Some (Error e) => (e = UnexpectedEof /\ length src - tell r < k /\ length src <= tell r') \/ fails_with rd good e
    | None => fuel < k
    end.

(** A peeker that returns the value of the next [k] bytes if the buffer has them,
    and does not move. *)
Definition peeks_value {V : Type} (k : nat) (val : list N -> V -> Prop)
    (pk : forall R, filler R -> R -> outcome (R * result V io_error)) : Prop :=
  forall (R : Type) (fl : filler R) src good tell, filler_ok fl src good tell -> bytes src ->
  forall r, good r -> exists r' res, pk R fl r = Ret (r', res) /\ good r' /\ tell r' = tell r /\
    match res with
    | Okay v => k <= length src - tell r /\ val (firstn k (skipn (tell r) src)) v
    | Error e => (e = UnexpectedEof /\ exists d, fl r = Ret (r', Okay d) /\ length d < k) \/ fl r = Ret (r', Error e)
    end.

(** Peeking at an [AccReader] and then reading gives the same value. *)
Definition peek_then_get {V : Type} (k : nat)
    (sg : forall R, reader R -> nat -> R -> outcome (R * option (result V io_error)))
    (pk : forall R, filler R -> R -> outcome (R * result V io_error)) : Prop :=
  forall (R : Type) (i : io R) src good tell cap r0 ops a outs a1 v,
    source_ok i src good tell -> never_fails i src good tell -> bytes src -> good r0 -> tell r0 = 0 ->
    acc_legal i (with_capacity cap r0) ops -> acc_run i (with_capacity cap r0) ops = Ret (a, outs) ->
    pk (acc R) (fill_buf i) a = Ret (a1, Okay v) ->
    exists a2 p, sg (acc R) (read i) k a1 = Ret (a2, Some (Okay v)) /\
      seek i a (Current 0) = Ret (a, Okay p) /\ seek i a1 (Current 0) = Ret (a1, Okay p) /\ seek i a2 (Current 0) = Ret (a2, Okay (p + k)).

(** ** Packets *)

(** An output with contents and a position, like a file: a write replaces bytes from
    the position on (filling a gap with zeros). *)
Definition stores {W : Type} (s : sink W) (good : W -> Prop) (content : W -> list N) (tell : W -> nat) : Prop :=
  forall w buf w' res, good w -> sk_write s w buf = (w', res) ->
    good w' /\ match res with
               | Okay n => n <= length buf /\ content w' = overwrite (content w) (tell w) (firstn n buf) /\ tell w' = tell w + n
               | Error _ => content w' = content w /\ tell w' = tell w
               end.

(** Peeking again until it works, at most [n] times. *)
Fixpoint peek_retry {V R : Type} (n : nat) (pk : R -> outcome (R * result V io_error)) (r : R) : outcome (R * result V io_error) :=
  match n with
  | O => Ret (r, Error UnexpectedEof)
  | S n' =>
      let! (r', res) := pk r in
      match res with
      | Error UnexpectedEof => peek_retry n' pk r'
      | _ => Ret (r', res)
      end
  end.

(** With an [AccReader] that has room for [k] bytes and a source that has them, at most
    [k] peeks are needed. *)
Definition peek_succeeds {V : Type} (k : nat) (val : list N -> V -> Prop) (pk : forall R, filler R -> R -> outcome (R * result V io_error)) : Prop :=
  forall (R : Type) (i : io R) src good tell cap r0 ops a outs p,
    source_ok i src good tell -> never_fails i src good tell -> bytes src -> good r0 -> tell r0 = 0 ->
    acc_legal i (with_capacity cap r0) ops -> acc_run i (with_capacity cap r0) ops = Ret (a, outs) ->
    k <= cap + grown ops -> seek i a (Current 0) = Ret (a, Okay p) -> p + k <= length src ->
    exists a' v, peek_retry k (pk (acc R) (fill_buf i)) a = Ret (a', Okay v) /\ val (firstn k (skipn p src)) v /\
      seek i a' (Current 0) = Ret (a', Okay p).

(** With less room no peek succeeds, however often it is repeated. *)
Definition peek_never {V : Type} (k : nat) (pk : forall R, filler R -> R -> outcome (R * result V io_error)) : Prop :=
  forall (R : Type) (i : io R) src good tell cap r0 ops a outs n a' v,
    source_ok i src good tell -> good r0 -> tell r0 = 0 ->
    acc_legal i (with_capacity cap r0) ops -> acc_run i (with_capacity cap r0) ops = Ret (a, outs) ->
    cap + grown ops < k -> peek_retry n (pk (acc R) (fill_buf i)) a <> Ret (a', Okay v).

(** The getter [sg] is [Read::read_exact] into [k] bytes followed by [get]. *)
Definition exact_then {V : Type} (k : nat) (get : list N -> outcome V) {R : Type} (rd : reader R) (fuel : nat) (r : R)
    : outcome (R * option (result V io_error)) :=
  let! (r', buf, res) := std_read_exact rd fuel r (repeat 0%N k) 0 in
  match res with
  | None => Ret (r', None)
  | Some (Error e) => Ret (r', Some (Error e))
  | Some (Okay _) => let! v := get buf in Ret (r', Some (Okay v))
  end.
Definition never_interrupts {R : Type} (rd : reader R) : Prop :=
  forall r dst r' dst', rd r dst <> Ret (r', dst', Error Interrupted).
(** It does not report more bytes than it was given room for. *)
Definition modest {R : Type} (rd : reader R) : Prop :=
  forall r dst r' dst' n, rd r dst = Ret (r', dst', Okay n) -> n <= length dst.
Definition as_read_exact {V : Type} (k : nat) (get : list N -> outcome V)
    (sg : forall R, reader R -> nat -> R -> outcome (R * option (result V io_error))) : Prop :=
  forall (R : Type) (rd : reader R), never_interrupts rd -> modest rd -> forall fuel r, sg R rd fuel r = exact_then k get rd fuel r.

(** An interrupted getter has lost the [n] bytes it had read, where [read_exact] goes on
    with them in its buffer. *)
Definition loses_bytes {V : Type} (k : nat) (get : list N -> outcome V)
    (sg : forall R, reader R -> nat -> R -> outcome (R * option (result V io_error))) : Prop :=
  forall (R : Type) (rd : reader R), modest rd -> forall fuel r,
    sg R rd fuel r = exact_then k get rd fuel r \/
    exists r', sg R rd fuel r = Ret (r', Some (Error Interrupted)) /\
      forall src good tell, reader_ok rd src good tell -> good r ->
      exists n fuel' buf, good r' /\ n < k /\ n <= length src - tell r /\ tell r' = tell r + n /\ fuel' < fuel /\
        length buf = k /\ firstn n buf = firstn n (skipn (tell r) src) /\
        std_read_exact rd fuel r (repeat 0%N k) 0 = std_read_exact rd fuel' r' buf n.
