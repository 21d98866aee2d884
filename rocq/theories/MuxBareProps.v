(** C185. *)
From Coq Require Import Ascii String List Arith NArith ZArith Bool.
From Verif Require Import Base AccModel FormatModel MuxModel MuxSpec WriterCallsSpec MuxBareSpec.
From Verif Require Import MuxBareProofs.
Import ListNotations.
Local Open Scope nat_scope.

(** C185: for any muxer, whatever it writes, seeks and asks of its writer, any output and any calls on
    the context: results, output, position and state of the muxer are those of the same methods
    run on the output itself, with a flush after each trailer that succeeded; panics included. *)
Theorem C185_bare_output : forall (P V M W : Type) (me : methods P V M) (s : sink W) (m : M) (w0 : W) (ops : list (mux_op P V)),
  seen_context (mux_run (muxer_of me s) s (mctx_new m (writer_new w0)) ops) = seen_bare (bare_run me s m (w0, []) ops).
Proof. exact mux_bare. Qed.
Print Assumptions C185_bare_output.

(** A muxer that fills in the length of its box; once on an output that takes everything, once with
    short and failing writes. *)
Definition C185_calls : list (mux_op unit unit) := [MConfigure; MHeader; MPacket (packet_zeroed 3); MPacket (packet_zeroed 2); MTrailer; MOption "key" tt].
Example C185_example :
  seen_context (mux_run (muxer_of box_methods file_sink) file_sink (mctx_new 7 (writer_new (mk_file [] 0 0 []))) C185_calls) =
    Ret (2, mk_file [98; 5; 0; 0; 0; 0; 0]%N 7 1 [], 7, Some [Okay tt; Okay tt; Okay tt; Okay tt; Okay tt; Error InvalidData]) /\
  seen_context (mux_run (muxer_of box_methods file_sink) file_sink
      (mctx_new 7 (writer_new (mk_file [] 0 0 [Okay 1; Okay 1; Okay 2; Error (OtherError 28); Okay 1; Error Interrupted; Okay 1; Okay 1; Error (OtherError 5)]))) C185_calls) =
    Ret (1, mk_file [98; 4; 0; 0; 0; 0]%N 6 0 [], 6,
      Some [Okay tt; Okay tt; Error (Io (OtherError 28)); Okay tt; Error (Io (OtherError 5)); Error InvalidData]).
Proof. split; vm_compute; reflexivity. Qed.
