(** Muxers as programs, run on the output itself. *)
From Coq Require Import Ascii String List Arith NArith ZArith Bool.
From Verif Require Import Base AccModel FormatModel MuxModel WriterCallsSpec.
Import ListNotations.
Local Open Scope nat_scope.
(* From [MuxModel] only the types are used. *)

(** What a method of a muxer does with the writer it is given: it calls the writer, or asks for its
    position, and goes on with the answer; in the end it returns ([None]: it does not). *)
Inductive method (M : Type) : Type :=
| Return (m : M) (res : option (result unit error))
| Call (op : writer_op) (next : writer_out -> method M)
| AskPosition (next : nat -> method M).
Arguments Return {M}.
Arguments Call {M}.
Arguments AskPosition {M}.

Record methods (P V M : Type) : Type := mk_methods {
  me_configure : M -> M * option (result unit error);
  me_header : M -> method M;
  me_packet : M -> packet -> method M;
  me_trailer : M -> method M;
  me_info : M -> global_info P -> M * option (result unit error);
  me_option : M -> string -> V -> M * option (result unit error)
}.
Arguments mk_methods {P V M}.
Arguments me_configure {P V M}.
Arguments me_header {P V M}.
Arguments me_packet {P V M}.
Arguments me_trailer {P V M}.
Arguments me_info {P V M}.
Arguments me_option {P V M}.

(** The muxer these methods make. *)
Fixpoint on_writer {M W : Type} (s : sink W) (w : writer W) (t : method M) : outcome (M * writer W * option (result unit error)) :=
  match t with
  | Return m res => Ret (m, w, res)
  | Call op next => let! (w', o) := writer_step s w op in on_writer s w' (next o)
  | AskPosition next => on_writer s w (next (writer_position w))
  end.
Definition muxer_of {P V M W : Type} (me : methods P V M) (s : sink W) : muxer P V M W := mk_muxer
  (fun m => Ret (me_configure me m))
  (fun m w => on_writer s w (me_header me m))
  (fun m w p => on_writer s w (me_packet me m p))
  (fun m w => on_writer s w (me_trailer me m))
  (fun m g => Ret (me_info me m g))
  (fun m key val => Ret (me_option me m key val)).

(** The same with neither [Context] nor [Writer]: the methods call the output, the position is counted
    from the calls made so far, and a trailer that succeeds is followed by a flush. *)
Section Bare.
Context {P V M W : Type}.
Variable me : methods P V M.
Variable s : sink W.
Definition output : Type := (W * list output_call)%type.

Fixpoint on_output (w : output) (t : method M) : outcome (M * output * option (result unit error)) :=
  match t with
  | Return m res => Ret (m, w, res)
  | Call op next => let! (w', o) := direct_step (noting s) w op in on_output w' (next o)
  | AskPosition next => on_output w (next (position_after 0 (snd w)))
  end.

Definition bare_step (m : M) (w : output) (op : mux_op P V) : outcome (M * output * option (result unit error)) :=
  match op with
  | MConfigure => let '(m', res) := me_configure me m in Ret (m', w, res)
  | MHeader => on_output w (me_header me m)
  | MPacket p => on_output w (me_packet me m p)
  | MTrailer =>
      let! (m', w', res) := on_output w (me_trailer me m) in
      match res with
      | Some (Okay _) =>
          match sk_flush (noting s) w' with
          | (w'', Okay _) => Ret (m', w'', Some (Okay tt))
          | (w'', Error e) => Ret (m', w'', Some (Error (Io e)))
          end
      | _ => Ret (m', w', res)
      end
  | MInfo g => let '(m', res) := me_info me m g in Ret (m', w, res)
  | MOption key val => let '(m', res) := me_option me m key val in Ret (m', w, res)
  end.

Fixpoint bare_run (m : M) (w : output) (ops : list (mux_op P V)) : outcome (M * output * option (list (result unit error))) :=
  match ops with
  | [] => Ret (m, w, Some [])
  | op :: ops' =>
      let! (m1, w1, res) := bare_step m w op in
      match res with
      | None => Ret (m1, w1, None)
      | Some r =>
          let! (m2, w2, rest) := bare_run m1 w1 ops' in
          Ret (m2, w2, match rest with Some rs => Some (r :: rs) | None => None end)
      end
  end.
End Bare.

(** What is seen of a context in the end: its muxer, the output, the position of the writer. *)
Definition seen_context {M W A : Type} (x : outcome (mctx M W * A)) : outcome (M * W * nat * A) :=
  let! (c, a) := x in Ret (mc_muxer c, w_inner (mc_writer c), writer_position (mc_writer c), a).
Definition seen_bare {M W A : Type} (x : outcome (M * (W * list output_call) * A)) : outcome (M * W * nat * A) :=
  let! (m, w, a) := x in Ret (m, fst w, position_after 0 (snd w), a).

(** A muxer with a box format: it leaves room for the length, and fills it in when the trailer is
    written; the packets are counted in its state. *)
Definition box_methods : methods unit unit nat := mk_methods
  (fun _ => (0, Some (Okay tt)))
  (fun n => Call (WAll 9 [98; 0]%N) (fun o => match o with WWroteAll (Some (Okay _)) => Return n (Some (Okay tt)) | WWroteAll (Some (Error e)) => Return n (Some (Error (Io e))) | _ => Return n None end))
  (fun n p => Call (WAll 9 (p_data p)) (fun o => match o with WWroteAll (Some (Okay _)) => Return (S n) (Some (Okay tt)) | WWroteAll (Some (Error e)) => Return n (Some (Error (Io e))) | _ => Return n None end))
  (fun n => AskPosition (fun pos => Call (WSeek (Start 1)) (fun _ => Call (WWrite [N.of_nat (pos - 2)]) (fun _ => Call (WSeek (Start pos)) (fun o =>
     match o with WSought (Okay _) => Return n (Some (Okay tt)) | WSought (Error e) => Return n (Some (Error (Io e))) | _ => Return n None end)))))
  (fun n _ => (n, Some (Okay tt)))
  (fun n _ _ => (n, Some (Error InvalidData))).
