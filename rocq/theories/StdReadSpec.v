(** Methods of the standard library that [AccReader] inherits, and what they promise. *)
From Coq Require Import List Arith NArith ZArith Bool.
From Verif Require Import Base AccModel AccSpec.
Import ListNotations.
Local Open Scope nat_scope.

(** [Read::read_to_end] (standard library, not overridden): calls [read] until it returns 0,
    appending what comes; [Interrupted] is retried.  How much is asked for is left to the list
    [sizes] (the library adapts it); running out of sizes is [None].  On failure what was read
    stays appended.  A count larger than the slice panics. *)
Fixpoint read_to_end {R : Type} (i : io R) (sizes : list nat) (a : acc R) (got : list N)
    : outcome (acc R * list N * option (result unit io_error)) :=
  match sizes with
  | [] => Ret (a, got, None)
  | n :: sizes' =>
      let! (a1, dst, res) := read i a (repeat 0%N n) in
      match res with
      | Error Interrupted => read_to_end i sizes' a1 got
      | Error e => Ret (a1, got, Some (Error e))
      | Okay O => Ret (a1, got, Some (Okay tt))
      | Okay k => if k <=? n then read_to_end i sizes' a1 (got ++ firstn k dst) else Panic
      end
  end.

(** [memchr]: index of the first [d] *)
Fixpoint memchr (d : N) (l : list N) : option nat :=
  match l with
  | [] => None
  | x :: l' => if N.eqb x d then Some 0 else option_map S (memchr d l')
  end.

(** [BufRead::read_until] (standard library, not overridden; [read_line], [lines] and [split] are
    built on it): [fill_buf], copy up to the delimiter, [consume]; an empty buffer is the end. *)
Fixpoint read_until {R : Type} (i : io R) (fuel : nat) (d : N) (a : acc R) (got : list N)
    : outcome (acc R * list N * option (result unit io_error)) :=
  match fuel with
  | O => Ret (a, got, None)
  | S fuel' =>
      let! (a1, res) := fill_buf i a in
      match res with
      | Error Interrupted => read_until i fuel' d a1 got
      | Error e => Ret (a1, got, Some (Error e))
      | Okay available =>
          match memchr d available with
          | Some j => Ret (consume a1 (j + 1), got ++ firstn (j + 1) available, Some (Okay tt))
          | None =>
              match available with
              | [] => Ret (consume a1 0, got, Some (Okay tt))
              | _ => read_until i fuel' d (consume a1 (length available)) (got ++ available)
              end
          end
      end
  end.

(** The bytes up to and including the first [d], all if there is none. *)
Fixpoint through (d : N) (l : list N) : list N :=
  match l with
  | [] => []
  | x :: l' => if N.eqb x d then [x] else x :: through d l'
  end.
