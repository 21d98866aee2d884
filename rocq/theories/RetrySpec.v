(** Demuxing from a source that fails now and then: what a caller who simply calls
    again must see. *)
From Coq Require Import List Arith NArith ZArith Bool.
From Verif Require Import Base AccModel AccSpec FormatModel DemuxModel DemuxSpec.
Import ListNotations.
Local Open Scope nat_scope.

(** The results that are not input/output errors. *)
Fixpoint successes {P : Type} (l : list (result (event P) error)) : list (result (event P) error) :=
  match l with
  | [] => []
  | Error (Io _) :: l' => successes l'
  | r :: l' => r :: successes l'
  end.

(** A relative seek within the bytes the parser was given. *)
Definition within (dat : list N) (s : seek_from) : Prop :=
  exists k, (0 <= k <= Z.of_nat (length dat))%Z /\ s = Current k.

(** A parser that only seeks within the bytes it was given. *)
Definition local_seeks {P D : Type} (ps : parser P D) : Prop :=
  forall d dat d' s ev, ps_event ps d dat = (d', Okay (s, ev)) -> within dat s.

(** Parsers do no input or output themselves. *)
Definition no_io_errors {P D : Type} (ps : parser P D) : Prop :=
  (forall d dat d' e, ps_event ps d dat <> (d', Error (Io e))) /\
  (forall d dat info d' info' e, ps_headers ps d dat info <> (d', info', Error (Io e))).

(** [c'] is reached from [c] by calls of [read_headers] that all ended in an
    input/output error. *)
Inductive header_retries {P D R : Type} (dm : demuxer_fns P D R) (b : buffered_io R) : dctx P D R -> dctx P D R -> Prop :=
| first_attempt : forall c, header_retries dm b c c
| next_attempt : forall c c1 c2 n e, header_retries dm b c c1 ->
    read_headers dm b n c1 = Ret (c2, Some (Error (Io e))) -> header_retries dm b c c2.

(** ** An example source *)

(** A cursor whose seeks succeed and take the next entry of the script away. *)
Definition flaky_seek (c : cursor) (s : seek_from) : cursor * result nat io_error :=
  let t := target (length (cur_src c)) (cur_pos c) s in
  if (t <? 0)%Z then (c, Error (OtherError 22))
  else (mk_cursor (cur_src c) (Z.to_nat t) (tl (cur_script c)), Okay (Z.to_nat t)).
Definition flaky_io : io cursor := mk_io cursor_read flaky_seek.

(** ** An example parser *)

(** Records of a byte [n], a byte of contents and [n] bytes of padding: the seek goes
    beyond the two bytes looked at. *)
Definition padded_packet (x : N) : packet := mk_packet [x] None 1 default_time false false.
Definition padded_parser : parser unit unit :=
  mk_parser
    (fun d dat info => (d, info, Okay (Current 0)))
    (fun d dat =>
       match dat with
       | n :: x :: _ => (d, Okay (Current (2 + Z.of_N n), NewPacket (padded_packet x)))
       | _ => (d, Error (MoreDataNeeded 2))
       end).
