(** Outputs with contents: what [Writer] over a file does to the file. *)
From Coq Require Import List Arith NArith ZArith Bool.
From Verif Require Import Base AccModel AccSpec MuxModel MuxSpec.
Import ListNotations.
Local Open Scope nat_scope.
(* From [MuxModel] the interface types are used, from [MuxSpec] [overwrite]. *)

(** Contents after [b] was written at [p]; nothing is written for an empty [b]. *)
Definition written (c : list N) (p : nat) (b : list N) : list N :=
  match b with [] => c | _ => overwrite c p b end.

(** An output that is a file: [write] stores the bytes it accepts at the position and moves
    behind them; failures change nothing. *)
Record file_like {W : Type} (s : sink W) (good : W -> Prop) (contents : W -> list N) (tell : W -> nat) : Prop := {
  fl_write : forall w buf w' res, good w -> sk_write s w buf = (w', res) ->
    good w' /\ match res with
               | Okay n => n <= length buf /\ contents w' = written (contents w) (tell w) (firstn n buf) /\ tell w' = tell w + n
               | Error _ => contents w' = contents w /\ tell w' = tell w
               end;
  fl_flush : forall w w' res, good w -> sk_flush s w = (w', res) -> good w' /\ contents w' = contents w /\ tell w' = tell w;
  fl_seek : forall w sk w' res, good w -> sk_seek s w sk = (w', res) ->
    good w' /\ contents w' = contents w /\
    match res with Okay q => Z.of_nat q = target (length (contents w)) (tell w) sk /\ tell w' = q | Error _ => tell w' = tell w end
}.

(** One call on the contents [c] and the position [p]. *)
Definition file_call (c : list N) (p : nat) (op : writer_op) (o : writer_out) (c' : list N) (p' : nat) : Prop :=
  match op, o with
  | WWrite buf, WWrote (Okay n) => n <= length buf /\ c' = written c p (firstn n buf) /\ p' = p + n
  | WWrite _, WWrote (Error _) => c' = c /\ p' = p
  | WAll _ buf, WWroteAll (Some (Okay _)) => c' = written c p buf /\ p' = p + length buf
  | WAll _ buf, WWroteAll _ => exists k, k <= length buf /\ c' = written c p (firstn k buf) /\ p' = p + k
  | WFlush, WFlushed _ => c' = c /\ p' = p
  | WSeek sk, WSought (Okay q) => Z.of_nat q = target (length c) p sk /\ c' = c /\ p' = q
  | WSeek _, WSought (Error _) => c' = c /\ p' = p
  | _, _ => False
  end.

Fixpoint file_history (c : list N) (p : nat) (ops : list writer_op) (outs : list writer_out) (c' : list N) (p' : nat) : Prop :=
  match ops, outs with
  | [], [] => c' = c /\ p' = p
  | op :: ops', o :: outs' => exists c1 p1, file_call c p op o c1 p1 /\ file_history c1 p1 ops' outs' c' p'
  | _, _ => False
  end.

(** A concrete file: [file_sink] of [MuxSpec], except that writing nothing beyond the end does
    not extend it. *)
Definition disk_write (f : file) (buf : list N) : file * result nat io_error :=
  let take k rest := (mk_file (written (f_data f) (f_pos f) (firstn k buf)) (f_pos f + k) (f_flushes f) rest, Okay k) in
  match f_script f with
  | [] => take (length buf) []
  | Okay limit :: rest => take (Nat.min limit (length buf)) rest
  | Error e :: rest => (mk_file (f_data f) (f_pos f) (f_flushes f) rest, Error e)
  end.
Definition disk_sink : sink file := mk_sink disk_write file_flush file_seek.
