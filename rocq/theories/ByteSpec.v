(** Specification vocabulary for the byte getters and putters.  Nothing here
    mentions the model. *)
From Coq Require Import List Arith NArith ZArith Bool.
From Verif Require Import Base.
Import ListNotations.

(** [v] is the number whose little-endian representation is [bs]: byte [i]
    occupies the bits [8*i .. 8*i+7], nothing else is set. *)
Definition le_number (bs : list N) (v : N) : Prop :=
  (v < 2 ^ (8 * N.of_nat (length bs)))%N /\
  forall (i : nat) (b j : N),
    nth_error bs i = Some b -> (j < 8)%N ->
    N.testbit v (8 * N.of_nat i + j) = N.testbit b j.

(** Same for big-endian: byte [i] of [k] occupies the bits [8*(k-1-i) ..]. *)
Definition be_number (bs : list N) (v : N) : Prop :=
  (v < 2 ^ (8 * N.of_nat (length bs)))%N /\
  forall (i : nat) (b j : N),
    nth_error bs i = Some b -> (j < 8)%N ->
    N.testbit v (8 * N.of_nat (length bs - 1 - i) + j) = N.testbit b j.

(** A getter of [k] bytes that panics exactly on short buffers and otherwise
    returns the number [number] relates to the first [k] bytes. *)
Definition getter_spec (number : list N -> N -> Prop) (k : nat)
    (get : list N -> outcome N) : Prop :=
  forall buf, bytes buf ->
    (length buf < k -> get buf = Panic) /\
    (k <= length buf -> exists v, get buf = Ret v /\ number (firstn k buf) v).

(** Two's complement reading of the same bytes. *)
Definition signed_getter_spec (w : Z) (k : nat) (getu : list N -> outcome N)
    (geti : list N -> outcome Z) : Prop :=
  forall buf, bytes buf ->
    (length buf < k -> geti buf = Panic) /\
    (k <= length buf -> exists u s,
        getu buf = Ret u /\ geti buf = Ret s /\
        (- 2 ^ (w - 1) <= s < 2 ^ (w - 1))%Z /\
        (exists q, s = Z.of_N u + q * 2 ^ w)%Z).

(** Writing then reading returns the value, keeps the rest of the buffer, its
    length and its being made of bytes; short buffers panic. *)
Definition put_get_spec {V : Type} (valid : V -> Prop) (k : nat)
    (put : list N -> V -> outcome (list N)) (get : list N -> outcome V) : Prop :=
  forall buf v, valid v ->
    (length buf < k -> put buf v = Panic) /\
    (k <= length buf -> exists buf',
        put buf v = Ret buf' /\ get buf' = Ret v /\
        skipn k buf' = skipn k buf /\ length buf' = length buf /\
        (bytes buf -> bytes buf')).

Definition unsigned_range (w : N) (v : N) : Prop := (v < 2 ^ w)%N.
Definition signed_range (w : Z) (v : Z) : Prop := (- 2 ^ (w - 1) <= v < 2 ^ (w - 1))%Z.
