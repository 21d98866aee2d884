(** Formats, that is, muxers and demuxers that understand each other, and an example
    of one. *)
From Coq Require Import List Arith NArith ZArith Bool String.
From Verif Require Import Base ByteModel AccModel AccSpec FormatModel DemuxModel DemuxSpec MuxModel MuxSpec.
Import ListNotations.
Local Open Scope nat_scope.

(** [kept p] is what the format keeps of the packet [p], [agree m d] says that the
    parser in state [d] can read what the muxer in state [m] writes next, and [info]
    is the information the headers carry.  The muxer may refuse packets. *)
Record format_pair {P V M D : Type} (em : emitter P V M) (ps : parser P D) (m0 : M) (d0 : D)
    (info : global_info P) (kept : packet -> packet) (agree : M -> D -> Prop) : Prop := {
  fp_header : forall m buf, em_header em m0 = (m, Okay buf) -> exists d, agree m d /\
    forall rest, ps_headers ps d0 (buf ++ rest) (mk_info None None []) = (d, info, Okay (Current (Z.of_nat (List.length buf))));
  fp_packet : forall m d p m' buf, agree m d -> em_packet em m p = (m', Okay buf) -> exists d', agree m' d' /\
    forall rest, ps_event ps d (buf ++ rest) = (d', Okay (Current (Z.of_nat (List.length buf)), NewPacket (kept p)));
  fp_refused : forall m d p m' e, agree m d -> em_packet em m p = (m', Error e) -> agree m' d;
  fp_trailer : forall m d m' buf, agree m d -> em_trailer em m = (m', Okay buf) ->
    exists d' n, ps_event ps d buf = (d', Error (MoreDataNeeded n)) \/ exists s, ps_event ps d buf = (d', Okay (s, Eof))
}.

(** The packets whose call succeeded. *)
Fixpoint written (pkts : list packet) (rs : list (result unit error)) : list packet :=
  match pkts, rs with
  | p :: pkts', Okay _ :: rs' => p :: written pkts' rs'
  | _ :: pkts', Error _ :: rs' => written pkts' rs'
  | _, _ => []
  end.

Definition io_failure (r : result unit error) : bool := match r with Error (Io _) => true | _ => false end.

(** ** An example: two magic bytes, then records made of a length (4 bytes), a stream
    index (8 bytes), flags (1 byte) and data, and a record of length 2^32-1 at the
    end.  The numbers are written and read with the functions of the bitstream
    crate. *)
Definition put_or_empty (r : outcome (list N)) : list N := match r with Ret l => l | _ => [] end.
Definition get_or {A : Type} (r : outcome A) (a : A) : A := match r with Ret v => v | _ => a end.

Definition lp_end : N := 4294967295.
Definition lp_flags (p : packet) : N := ((if p_key p then 1 else 0) + (if p_corrupted p then 2 else 0))%N.

Definition lp_record (p : packet) : list N :=
  put_or_empty (put_u32l (repeat 0%N 4) (N.of_nat (List.length (p_data p)))) ++
  put_or_empty (put_i64b (repeat 0%N 8) (p_stream_index p)) ++
  put_or_empty (put_u8 [0%N] (lp_flags p)) ++ p_data p.

(** stream indices out of the range of [isize] do not exist in the program *)
Definition lp_fits (p : packet) : bool :=
  (N.of_nat (List.length (p_data p)) <? lp_end)%N && ((- 2 ^ 63 <=? p_stream_index p)%Z && (p_stream_index p <? 2 ^ 63)%Z).

Definition lp_stream : stream unit := mk_stream 3 2%N tt None None (1, 48000)%Z None.
Definition lp_info : global_info unit := mk_info None None [lp_stream].

Definition lp_emitter : emitter unit unit unit := {|
  em_configure := fun m => (m, Okay tt);
  em_header := fun m => (m, Okay [76; 80]%N);
  em_packet := fun m p => (m, if lp_fits p then Okay (lp_record p) else Error InvalidData);
  em_trailer := fun m => (m, Okay (put_or_empty (put_u32l (repeat 0%N 4) lp_end)));
  em_info := fun m _ => (m, Okay tt);
  em_option := fun m _ _ => (m, Okay tt)
|}.

Definition lp_parser : parser unit unit :=
  mk_parser
    (fun d dat info =>
       match dat with
       | x :: y :: _ => if ((x =? 76) && (y =? 80))%N then (d, lp_info, Okay (Current 2)) else (d, info, Error InvalidData)
       | _ => (d, info, Error (MoreDataNeeded 2))
       end)
    (fun d dat =>
       if List.length dat <? 4 then (d, Error (MoreDataNeeded 4))
       else
         let len := get_or (get_u32l dat) 0%N in
         if (len =? lp_end)%N then (d, Okay (Current 4, Eof))
         else if (N.of_nat (List.length dat) <? 13 + len)%N then (d, Error (MoreDataNeeded (13 + N.to_nat len)))
         else
           let flags := get_or (get_u8 (skipn 12 dat)) 0%N in
           (d, Okay (Current (13 + Z.of_N len),
                     NewPacket (mk_packet (firstn (N.to_nat len) (skipn 13 dat)) None (get_or (get_i64b (skipn 4 dat)) 0%Z)
                                  default_time (N.testbit flags 0) (N.testbit flags 1))))).

Definition lp_kept (p : packet) : packet :=
  mk_packet (p_data p) None (p_stream_index p) default_time (p_key p) (p_corrupted p).
