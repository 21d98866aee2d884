(** Common vocabulary of the model: the outcome monad, checked machine
    arithmetic and slices.  This file models Rust language features only (no
    rust-av code). *)
From Coq Require Import List Arith NArith ZArith Bool Lia.
Import ListNotations.

(** Result of evaluating a Rust expression: a value, a panic (failed assert,
    index out of range, integer overflow in a build with overflow checks), or
    undefined behaviour (out-of-range access through a raw pointer). *)
Inductive outcome (A : Type) : Type :=
| Ret (a : A)
| Panic
| UB.
Arguments Ret {A} a.
Arguments Panic {A}.
Arguments UB {A}.

Definition obind {A B : Type} (m : outcome A) (k : A -> outcome B) : outcome B :=
  match m with
  | Ret a => k a
  | Panic => Panic
  | UB => UB
  end.

Notation "'let!' x ':=' m 'in' k" := (obind m (fun x => k))
  (at level 200, x pattern, m at level 100, k at level 200, right associativity).

(** [Result<T, E>] of Rust. *)
Inductive result (A E : Type) : Type :=
| Okay (a : A)
| Error (e : E).
Arguments Okay {A E} a.
Arguments Error {A E} e.

(** [buf[i]] on a slice. *)
Definition index_at {A : Type} (buf : list A) (i : nat) : outcome A :=
  match nth_error buf i with
  | Some a => Ret a
  | None => Panic
  end.

(** [&buf[a..b]] on a slice. *)
Definition slice {A : Type} (buf : list A) (a b : nat) : outcome (list A) :=
  if (a <=? b) && (b <=? length buf) then Ret (firstn (b - a) (skipn a buf)) else Panic.

(** [buf[i] = v] on a mutable slice. *)
Fixpoint update {A : Type} (buf : list A) (i : nat) (v : A) : list A :=
  match buf, i with
  | [], _ => []
  | _ :: t, O => v :: t
  | x :: t, S i' => x :: update t i' v
  end.

Definition store {A : Type} (buf : list A) (i : nat) (v : A) : outcome (list A) :=
  if i <? length buf then Ret (update buf i v) else Panic.

(** [usize] subtraction with overflow check (indices are [nat]). *)
Definition csub (a b : nat) : outcome nat :=
  if b <=? a then Ret (a - b) else Panic.

(** [usize]/[u64] arithmetic on [N] with overflow check. *)
Definition W64 : N := 2 ^ 64.
Definition W32 : N := 2 ^ 32.

Definition uadd (a b : N) : outcome N :=
  if (a + b <? W64)%N then Ret (a + b)%N else Panic.
Definition umul (a b : N) : outcome N :=
  if (a * b <? W64)%N then Ret (a * b)%N else Panic.
Definition usub (a b : N) : outcome N :=
  if (b <=? a)%N then Ret (a - b)%N else Panic.
(** [a << n] on a 64-bit word: panics when [n >= 64], drops the high bits. *)
Definition ushl (a n : N) : outcome N :=
  if (n <? 64)%N then Ret (N.shiftl a n mod W64)%N else Panic.
Definition ushr (a n : N) : outcome N :=
  if (n <? 64)%N then Ret (N.shiftr a n) else Panic.

(** Casts between an unsigned word of [w] bits and the signed type of the same
    width. *)
Definition as_signed (w : N) (n : N) : Z :=
  if (n <? 2 ^ (w - 1))%N then Z.of_N n else (Z.of_N n - 2 ^ Z.of_N w)%Z.
Definition as_unsigned (w : N) (z : Z) : N :=
  Z.to_N (z mod 2 ^ Z.of_N w)%Z.

(** A list of bytes. *)
Definition is_byte (b : N) : Prop := (b < 256)%N.
Definition bytes (l : list N) : Prop := Forall is_byte l.
