(** A parser that takes its input byte by byte. *)
From Coq Require Import List Arith NArith ZArith Bool.
From Verif Require Import Base AccModel AccSpec FormatModel DemuxModel DemuxSpec.
Import ListNotations.
Local Open Scope nat_scope.

(** Headers of [n] bytes, of which it asks for one more each time; after them it skips every byte. *)
Definition byte_by_byte (n : nat) : parser unit unit :=
  mk_parser
    (fun d dat info => if length dat <? n then (d, info, Error (MoreDataNeeded 1)) else (d, info, Okay (Current (Z.of_nat n))))
    (fun d dat => match dat with [] => (d, Error (MoreDataNeeded 1)) | _ :: _ => (d, Okay (Current 1, MoreData 0)) end).
