(** Specification of codec contexts: the same calls made directly on the decoder or
    encoder object.  Of [CodecModel] only types are used. *)
From Coq Require Import String List Arith NArith ZArith Bool.
From Verif Require Import Base AccModel AudioModel PixelModel FormatModel FrameModel MuxModel CodecModel.
Import ListNotations.
Local Open Scope nat_scope.

(** One call on a bare decoder. *)
Definition bare_dec {D : Type} (dd : decoder D) (d : D) (op : dec_op) : outcome (D * dec_out) :=
  match op with
  | DExtradata x => match dd_set_extradata dd d x with Ret d' => Ret (d', DNothing) | Panic => Panic | UB => UB end
  | DSend p => match dd_send_packet dd d p with Ret (d', r) => Ret (d', DUnit r) | Panic => Panic | UB => UB end
  | DReceive => match dd_receive_frame dd d with Ret (d', r) => Ret (d', DFrame r) | Panic => Panic | UB => UB end
  | DConfigure => match dd_configure dd d with Ret (d', r) => Ret (d', DUnit r) | Panic => Panic | UB => UB end
  | DFlush => match dd_flush dd d with Ret (d', r) => Ret (d', DUnit r) | Panic => Panic | UB => UB end
  end.

Fixpoint bare_decs {D : Type} (dd : decoder D) (d : D) (ops : list dec_op) : outcome (D * list dec_out) :=
  match ops with
  | [] => Ret (d, [])
  | op :: ops' =>
      match bare_dec dd d op with
      | Ret (d1, o) =>
          match bare_decs dd d1 ops' with
          | Ret (d2, os) => Ret (d2, o :: os)
          | Panic => Panic
          | UB => UB
          end
      | Panic => Panic
      | UB => UB
      end
  end.

(** The option value that stands for an argument: tagged with its type. *)
Definition tagged (a : option_arg) : value :=
  match a with
  | AI64 z => VI64 z
  | AU64 n => VU64 n
  | AStr s => VStr s
  | ABool b => VBool b
  | APair (x, y) => VPair x y
  | AFormaton f => VFormaton f
  | ASoniton s => VSoniton s
  end.

(** One call on a bare encoder. *)
Definition bare_enc {E : Type} (en : encoder E) (x : E) (op : enc_op) : outcome (E * enc_out) :=
  match op with
  | EConfigure => match en_configure en x with Ret (x', r) => Ret (x', EUnit r) | Panic => Panic | UB => UB end
  | ESetParams p => match en_set_params en x p with Ret (x', r) => Ret (x', EUnit r) | Panic => Panic | UB => UB end
  | EGetParams => match en_get_params en x with Ret r => Ret (x, EParams r) | Panic => Panic | UB => UB end
  | ESetOption key a =>
      match en_set_option en x key (tagged a) with Ret (x', r) => Ret (x', EUnit r) | Panic => Panic | UB => UB end
  | EGetExtradata => match en_get_extradata en x with Ret r => Ret (x, EExtradata r) | Panic => Panic | UB => UB end
  | ESend f => match en_send_frame en x f with Ret (x', r) => Ret (x', EUnit r) | Panic => Panic | UB => UB end
  | EReceive => match en_receive_packet en x with Ret (x', r) => Ret (x', EPacket r) | Panic => Panic | UB => UB end
  | EFlush => match en_flush en x with Ret (x', r) => Ret (x', EUnit r) | Panic => Panic | UB => UB end
  end.

Fixpoint bare_encs {E : Type} (en : encoder E) (x : E) (ops : list enc_op) : outcome (E * list enc_out) :=
  match ops with
  | [] => Ret (x, [])
  | op :: ops' =>
      match bare_enc en x op with
      | Ret (x1, o) =>
          match bare_encs en x1 ops' with
          | Ret (x2, os) => Ret (x2, o :: os)
          | Panic => Panic
          | UB => UB
          end
      | Panic => Panic
      | UB => UB
      end
  end.

(** Errors of the format crate that carry the same information for a reader of the
    message: the kind, and the number of bytes. *)
Definition same_kind (a b : error) : Prop :=
  match a, b with
  | InvalidData, InvalidData => True
  | MoreDataNeeded m, MoreDataNeeded n => m = n
  | Io _, Io _ => True
  | _, _ => False
  end.

(** The value an encoder sees when [set_option] is called: an encoder that records. *)
Definition recorder : encoder (list (string * value)) :=
  mk_encoder (fun _ => Ret None) (fun e _ => Ret (e, Okay tt)) (fun e => Ret (e, Error CMoreDataNeeded))
    (fun e => Ret (e, Okay tt)) (fun e => Ret (e, Okay tt)) (fun e k v => Ret ((k, v) :: e, Okay tt))
    (fun e _ => Ret (e, Okay tt)) (fun _ => Ret (Error CConfigurationIncomplete)).

(** A decoder that counts the bytes it is sent and refuses to be configured before
    it has extradata. *)
Definition counter : decoder (nat * bool) :=
  mk_decoder (fun d _ => Ret (fst d, true))
    (fun d p => Ret ((fst d + List.length (p_data p), snd d), Okay tt))
    (fun d => Ret (d, Error CMoreDataNeeded))
    (fun d => Ret (d, if snd d then Okay tt else Error CConfigurationIncomplete))
    (fun d => Ret ((0, snd d), Okay tt)).
