(** The calls of [Writer] made on the output itself. *)
From Coq Require Import List Arith NArith ZArith Bool.
From Verif Require Import Base AccModel MuxModel.
Import ListNotations.
Local Open Scope nat_scope.
(* From [MuxModel] only the types and the standard [write_all] are used. *)

Definition direct_step {W : Type} (s : sink W) (w : W) (op : writer_op) : outcome (W * writer_out) :=
  match op with
  | WWrite buf => let '(w', res) := sk_write s w buf in Ret (w', WWrote res)
  | WAll fuel buf => let! (w', res) := write_all s fuel w buf in Ret (w', WWroteAll res)
  | WFlush => let '(w', res) := sk_flush s w in Ret (w', WFlushed res)
  | WSeek sk => let '(w', res) := sk_seek s w sk in Ret (w', WSought res)
  end.
Fixpoint direct_run {W : Type} (s : sink W) (w : W) (ops : list writer_op) : outcome (W * list writer_out) :=
  match ops with
  | [] => Ret (w, [])
  | op :: ops' =>
      let! (w1, o) := direct_step s w op in
      let! (w2, os) := direct_run s w1 ops' in
      Ret (w2, o :: os)
  end.

(** An output that notes down the calls it gets. *)
Inductive output_call : Type :=
| OWrite (buf : list N) (res : result nat io_error)
| OFlush (res : result unit io_error)
| OSeek (sk : seek_from) (res : result nat io_error).
Definition noting {W : Type} (s : sink W) : sink (W * list output_call) := mk_sink
  (fun w buf => let '(w', res) := sk_write s (fst w) buf in ((w', snd w ++ [OWrite buf res]), res))
  (fun w => let '(w', res) := sk_flush s (fst w) in ((w', snd w ++ [OFlush res]), res))
  (fun w sk => let '(w', res) := sk_seek s (fst w) sk in ((w', snd w ++ [OSeek sk res]), res)).

(** The position after such calls: where the last seek led, and the bytes accepted since. *)
Fixpoint position_after (p : nat) (calls : list output_call) : nat :=
  match calls with
  | [] => p
  | OWrite _ (Okay n) :: calls' => position_after (p + n) calls'
  | OSeek _ (Okay q) :: calls' => position_after q calls'
  | _ :: calls' => position_after p calls'
  end.

(** The calls one call of [Writer] makes; [write_all] makes any number of writes. *)
Definition writes_only (calls : list output_call) : Prop := forall c, In c calls -> exists buf res, c = OWrite buf res.
Definition passes (op : writer_op) (o : writer_out) (calls : list output_call) : Prop :=
  match op, o with
  | WWrite buf, WWrote res => calls = [OWrite buf res]
  | WAll _ _, WWroteAll _ => writes_only calls
  | WFlush, WFlushed res => calls = [OFlush res]
  | WSeek sk, WSought res => calls = [OSeek sk res]
  | _, _ => False
  end.
Fixpoint passes_all (ops : list writer_op) (outs : list writer_out) (calls : list output_call) : Prop :=
  match ops, outs with
  | [], [] => calls = []
  | op :: ops', o :: outs' => exists c1 c2, calls = c1 ++ c2 /\ passes op o c1 /\ passes_all ops' outs' c2
  | _, _ => False
  end.
