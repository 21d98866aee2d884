(** Arithmetic on [usize] for any width of it and for builds with and without overflow
    checks.  rust-av is tested on wasm32 as well (.github/workflows/rust-av.yml:116-137),
    where [usize] has 32 bits.  This file models Rust language features only. *)
From Coq Require Import List Arith NArith ZArith Bool.
From Verif Require Import Base.
Import ListNotations.
Local Open Scope N_scope.

(** Bits of [usize], and whether arithmetic is checked. *)
Record machine : Type := mk_machine { bits : N; checked : bool }.
Definition wasm32 : machine := mk_machine 32 true.
Definition wasm32_release : machine := mk_machine 32 false.
Definition x86_64 : machine := mk_machine 64 true.
Definition x86_64_release : machine := mk_machine 64 false.

Section Machine.
Variable m : machine.

(** [usize::MAX + 1]; no allocation reaches half of it ([isize::MAX]) *)
Definition modulus : N := 2 ^ bits m.
Definition room : N := 2 ^ (bits m - 1).

(** A result that may be out of range *)
Definition ranged (n : N) : outcome N :=
  if n <? modulus then Ret n else if checked m then Panic else Ret (n mod modulus).
Definition madd (a b : N) : outcome N := ranged (a + b).
Definition mmul (a b : N) : outcome N := ranged (a * b).
Definition msub (a b : N) : outcome N :=
  if b <=? a then Ret (a - b) else if checked m then Panic else Ret ((a + (modulus - b mod modulus)) mod modulus).
(** [a << n], [a >> n]; without checks the amount is taken modulo the width *)
Definition mshl (a n : N) : outcome N :=
  if n <? bits m then Ret (N.shiftl a n mod modulus) else if checked m then Panic else Ret (N.shiftl a (n mod bits m) mod modulus).
Definition mshr (a n : N) : outcome N :=
  if n <? bits m then Ret (N.shiftr a n) else if checked m then Panic else Ret (N.shiftr a (n mod bits m)).
(** [!a] *)
Definition mnot (a : N) : N := N.lnot a (bits m).
(** [as usize] *)
Definition mcast (n : N) : N := n mod modulus.

(** [a - b] on [i64], whose width does not depend on the machine *)
Definition misub (a b : Z) : outcome Z :=
  if ((- 2 ^ 63 <=? a - b) && (a - b <? 2 ^ 63))%Z then Ret (a - b)%Z
  else if checked m then Panic else Ret ((a - b + 2 ^ 63) mod 2 ^ 64 - 2 ^ 63)%Z.
End Machine.
