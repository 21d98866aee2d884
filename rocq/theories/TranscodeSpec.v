(** Programs that read one file and write another: demux, decode, encode, mux. *)
From Coq Require Import String List Arith NArith ZArith Bool.
From Verif Require Import Base AccModel AccSpec AudioModel FormatModel FrameModel DemuxModel DemuxSpec MuxModel MuxSpec CodecModel.
Import ListNotations.
Local Open Scope nat_scope.

(** What such a program does with an event: from its state, the results of its last calls of the muxer and the event, a new
    state and the next calls of the muxer. *)
Definition client (P V K : Type) : Type :=
  K -> list (result unit error) -> result (event P) error -> outcome (K * list (mux_op P V)).

(** The program: each event is worked on before the next one is read.  [None] when a call does not return. *)
Section Loop.
Context {P V D R M W K : Type}.
Variable dm : demuxer_fns P D R.
Variable b : buffered_io R.
Variable mx : muxer P V M W.
Variable s : sink W.
Variable cl : client P V K.

Fixpoint pump (rounds calls : nat) (c : dctx P D R) (k : K) (last : list (result unit error)) (mc : mctx M W)
    : outcome (dctx P D R * K * mctx M W * option (list (list (result unit error)))) :=
  match calls with
  | O => Ret (c, k, mc, Some [])
  | S calls' =>
      let! (c1, r) := read_event dm b rounds c in
      match r with
      | None => Ret (c1, k, mc, None)
      | Some ev =>
          let! (k1, ops) := cl k last ev in
          let! (mc1, rs) := mux_run mx s mc ops in
          match rs with
          | None => Ret (c1, k1, mc1, None)
          | Some rs1 =>
              let! (c2, k2, mc2, rest) := pump rounds calls' c1 k1 rs1 mc1 in
              Ret (c2, k2, mc2, option_map (cons rs1) rest)
          end
      end
  end.

(** Headers first; [first] says which calls to make with them. *)
Definition transcode (first : global_info P -> list (mux_op P V)) (rounds calls : nat) (c : dctx P D R) (k : K) (mc : mctx M W)
    : outcome (dctx P D R * K * mctx M W * option (list (list (result unit error)))) :=
  let! (c1, r) := read_headers dm b rounds c in
  match r with
  | Some (Okay _) =>
      let! (mc1, rs) := mux_run mx s mc (first (c_info c1)) in
      match rs with
      | None => Ret (c1, k, mc1, None)
      | Some rs1 =>
          let! (c2, k2, mc2, rest) := pump rounds calls c1 k rs1 mc1 in
          Ret (c2, k2, mc2, option_map (cons rs1) rest)
      end
  | _ => Ret (c1, k, mc, None)
  end.
End Loop.

(** The same on the bytes alone: no readers, no buffers, no outputs. *)
Section Pure.
Context {P V D M K : Type}.
Variable ps : parser P D.
Variable em : emitter P V M.
Variable cl : client P V K.
Variable src : list N.

Fixpoint pumped (rounds calls : nat) (d : D) (p : nat) (info : global_info P) (k : K) (last : list (result unit error)) (m : M)
    : outcome (option (K * list (list (result unit error)) * list mark)) :=
  match calls with
  | O => Ret (Some (k, [], []))
  | S calls' =>
      match next_event ps src rounds d p info with
      | None => Ret None
      | Some (d1, p1, info1, ev) =>
          let! (k1, ops) := cl k last ev in
          let '(m1, rs, marks) := whole_output em m ops in
          let! rest := pumped rounds calls' d1 p1 info1 k1 rs m1 in
          match rest with
          | None => Ret None
          | Some (k2, rss, more) => Ret (Some (k2, rs :: rss, marks ++ more))
          end
      end
  end.

Definition transcoded (first : global_info P -> list (mux_op P V)) (rounds calls : nat) (d : D) (k : K) (m : M)
    : outcome (option (K * list (list (result unit error)) * list mark)) :=
  match ps_headers ps d src (mk_info None None []) with
  | (d1, info1, Okay sk) =>
      let '(m1, rs, marks) := whole_output em m (first info1) in
      let! rest := pumped rounds calls d1 (Z.to_nat (target (List.length src) 0 sk)) info1 k rs m1 in
      match rest with
      | None => Ret None
      | Some (k2, rss, more) => Ret (Some (k2, rs :: rss, marks ++ more))
      end
  | _ => Ret None
  end.
End Pure.

(** ** A program with a decoder and an encoder *)

(** Asking until there is nothing more, at most [most] times. *)
Fixpoint take_all {Z A : Type} (get : Z -> outcome (Z * result A codec_error)) (most : nat) (z : Z) : outcome (Z * list A) :=
  match most with
  | O => Ret (z, [])
  | S most' =>
      let! (z1, r) := get z in
      match r with
      | Error _ => Ret (z1, [])
      | Okay a => let! (z2, l) := take_all get most' z1 in Ret (z2, a :: l)
      end
  end.

(** The methods of a decoder and of an encoder, on whatever holds them. *)
Record methods (X Y : Type) : Type := mk_methods {
  send_packet : X -> packet -> outcome (X * result unit codec_error);
  receive_frame : X -> outcome (X * result frame codec_error);
  flush_decoder : X -> outcome (X * result unit codec_error);
  send_frame : Y -> frame -> outcome (Y * result unit codec_error);
  receive_packet : Y -> outcome (Y * result packet codec_error);
  flush_encoder : Y -> outcome (Y * result unit codec_error)
}.
Arguments mk_methods {X Y}.
Arguments send_packet {X Y}.
Arguments receive_frame {X Y}.
Arguments flush_decoder {X Y}.
Arguments send_frame {X Y}.
Arguments receive_packet {X Y}.
Arguments flush_encoder {X Y}.

Fixpoint encode_all {X Y : Type} (m : methods X Y) (most : nat) (y : Y) (frames : list frame) : outcome (Y * list packet) :=
  match frames with
  | [] => Ret (y, [])
  | f :: frames' =>
      let! (y1, _) := send_frame m y f in
      let! (y2, l) := take_all (receive_packet m) most y1 in
      let! (y3, rest) := encode_all m most y2 frames' in
      Ret (y3, l ++ rest)
  end.

Definition codec_client {P V X Y : Type} (m : methods X Y) (most : nat) : client P V (X * Y) := fun k _ ev =>
  match ev with
  | Okay (NewPacket p) =>
      let! (x1, _) := send_packet m (fst k) p in
      let! (x2, frames) := take_all (receive_frame m) most x1 in
      let! (y2, packets) := encode_all m most (snd k) frames in
      Ret ((x2, y2), map MPacket packets)
  | Okay Eof =>
      let! (x1, _) := flush_decoder m (fst k) in
      let! (x2, frames) := take_all (receive_frame m) most x1 in
      let! (y2, packets) := encode_all m most (snd k) frames in
      let! (y3, _) := flush_encoder m y2 in
      let! (y4, last) := take_all (receive_packet m) most y3 in
      Ret ((x2, y4), map MPacket (packets ++ last) ++ [MTrailer])
  | _ => Ret (k, [])
  end.

(** On the codecs themselves, and through their contexts. *)
Definition bare_methods {D E : Type} (dd : decoder D) (en : encoder E) : methods D E :=
  mk_methods (dd_send_packet dd) (dd_receive_frame dd) (dd_flush dd) (en_send_frame en) (en_receive_packet en) (en_flush en).
Definition context_methods {D E : Type} (dd : decoder D) (en : encoder E) : methods (dec_ctx D) (enc_ctx E) :=
  mk_methods (ctx_send_packet dd) (ctx_receive_frame dd) (ctx_flush dd) (enc_send_frame en) (enc_receive_packet en) (enc_flush en).
Definition in_contexts {D E : Type} (k : D * E) : dec_ctx D * enc_ctx E := (mk_dec_ctx (fst k), mk_enc_ctx (snd k)).

(** ** Codecs for the example: one frame per packet; packets reversed, and a last one with their number *)
Definition ex_frame (data : list N) : frame :=
  mk_frame (Audio (mk_audio (N.of_nat (List.length data)) 8000 [] fmt_S16 None)) (mk_fb data []) default_time.
Definition ex_decoder : decoder (list (list N)) :=
  mk_decoder (fun d _ => Ret d) (fun d p => Ret (d ++ [p_data p], Okay tt))
    (fun d => match d with [] => Ret (d, Error CMoreDataNeeded) | l :: d' => Ret (d', Okay (ex_frame l)) end)
    (fun d => Ret (d, Okay tt)) (fun d => Ret (d, Okay tt)).
Definition ex_packet (data : list N) : packet := mk_packet data None 2 default_time false false.
Definition ex_encoder : encoder (nat * list packet) :=
  mk_encoder (fun _ => Ret None)
    (fun e f => Ret ((S (fst e), snd e ++ [ex_packet (rev (fb_buf (fr_buf f)))]), Okay tt))
    (fun e => match snd e with [] => Ret (e, Error CMoreDataNeeded) | p :: l => Ret ((fst e, l), Okay p) end)
    (fun e => Ret ((fst e, snd e ++ [ex_packet [N.of_nat (fst e)]]), Okay tt))
    (fun e => Ret (e, Okay tt)) (fun e _ _ => Ret (e, Okay tt)) (fun e _ => Ret (e, Okay tt)) (fun _ => Ret (Error CConfigurationIncomplete)).
