(** What outputs do (std::io contracts) and what the output of a muxer must be. *)
From Coq Require Import List Arith NArith ZArith Bool String.
From Verif Require Import Base AccModel FormatModel MuxModel.
Import ListNotations.
Local Open Scope nat_scope.

(** ** Positions *)

(** An output with a position: [write] advances it by the accepted bytes, a
    successful [seek] reports it, failures and [flush] do not move it. *)
Record sink_ok {W : Type} (s : sink W) (good : W -> Prop) (tell : W -> nat) : Prop := {
  sko_write : forall w buf w' res, good w -> sk_write s w buf = (w', res) ->
    good w' /\ match res with Okay n => n <= List.length buf /\ tell w' = tell w + n | Error _ => tell w' = tell w end;
  sko_flush : forall w w' res, good w -> sk_flush s w = (w', res) -> good w' /\ tell w' = tell w;
  sko_seek : forall w sk w' res, good w -> sk_seek s w sk = (w', res) ->
    good w' /\ match res with Okay q => tell w' = q | Error _ => tell w' = tell w end
}.

(** Bytes accepted by the calls to [write], seen from outside (their results). *)
Fixpoint accepted (outs : list writer_out) : nat :=
  match outs with
  | [] => 0
  | WWrote (Okay n) :: outs' => n + accepted outs'
  | _ :: outs' => accepted outs'
  end.

Definition plain_op (op : writer_op) : bool := match op with WWrite _ | WFlush => true | _ => false end.
Definition no_seek (op : writer_op) : bool := match op with WSeek _ => false | _ => true end.

(** ** Output of a muxer *)

(** What an output has received: bytes and flushes. *)
Inductive mark : Type := Byte (b : N) | Flushed.

(** An output that keeps what it accepts. *)
Record keeps {W : Type} (s : sink W) (good : W -> Prop) (tape : W -> list mark) : Prop := {
  kp_write : forall w buf w' res, good w -> sk_write s w buf = (w', res) ->
    good w' /\ match res with
               | Okay n => n <= List.length buf /\ tape w' = tape w ++ map Byte (firstn n buf)
               | Error _ => tape w' = tape w
               end;
  kp_flush : forall w w' res, good w -> sk_flush s w = (w', res) ->
    good w' /\ match res with Okay _ => tape w' = tape w ++ [Flushed] | Error _ => tape w' = tape w end
}.

(** It accepts something of every non-empty buffer, and flushes. *)
Record accepts {W : Type} (s : sink W) (good : W -> Prop) : Prop := {
  ac_write : forall w buf w' res, good w -> sk_write s w buf = (w', res) -> buf <> [] -> exists n, res = Okay (S n);
  ac_flush : forall w w' res, good w -> sk_flush s w = (w', res) -> res = Okay tt
}.

(** A muxer that only appends: each method decides which bytes to write and writes
    them with one [write_all]. *)
Record emitter (P V M : Type) : Type := mk_emitter {
  em_configure : M -> M * result unit error;
  em_header : M -> M * result (list N) error;
  em_packet : M -> packet -> M * result (list N) error;
  em_trailer : M -> M * result (list N) error;
  em_info : M -> global_info P -> M * result unit error;
  em_option : M -> string -> V -> M * result unit error
}.
Arguments mk_emitter {P V M}.
Arguments em_configure {P V M}.
Arguments em_header {P V M}.
Arguments em_packet {P V M}.
Arguments em_trailer {P V M}.
Arguments em_info {P V M}.
Arguments em_option {P V M}.

Definition emit {M W : Type} (s : sink W) (fuel : nat) (d : M * result (list N) error) (w : writer W)
  : outcome (M * writer W * option (result unit error)) :=
  let '(m', res) := d in
  match res with
  | Error e => Ret (m', w, Some (Error e))
  | Okay buf =>
      let! (w', r) := write_all (writer_sink s) fuel w buf in
      Ret (m', w', match r with None => None | Some (Okay _) => Some (Okay tt) | Some (Error e) => Some (Error (Io e)) end)
  end.

Definition emitter_muxer {P V M W : Type} (em : emitter P V M) (s : sink W) (fuel : nat) : muxer P V M W := {|
  mx_configure := fun m => let '(m', r) := em_configure em m in Ret (m', Some r);
  mx_header := fun m w => emit s fuel (em_header em m) w;
  mx_packet := fun m w p => emit s fuel (em_packet em m p) w;
  mx_trailer := fun m w => emit s fuel (em_trailer em m) w;
  mx_info := fun m g => let '(m', r) := em_info em m g in Ret (m', Some r);
  mx_option := fun m key val => let '(m', r) := em_option em m key val in Ret (m', Some r)
|}.

(** The decision of the muxer for a call: its new state, and the bytes to write
    (nothing for the calls that do not write), or an error. *)
Definition decides {P V M : Type} (em : emitter P V M) (m : M) (op : mux_op P V) : M * result (list N) error :=
  let quiet (d : M * result unit error) :=
    let '(m', r) := d in (m', match r with Okay _ => Okay [] | Error e => Error e end) in
  match op with
  | MConfigure => quiet (em_configure em m)
  | MHeader => em_header em m
  | MPacket p => em_packet em m p
  | MTrailer => em_trailer em m
  | MInfo g => quiet (em_info em m g)
  | MOption key val => quiet (em_option em m key val)
  end.

Definition is_trailer {P V : Type} (op : mux_op P V) : bool := match op with MTrailer => true | _ => false end.

(** What a call with result [res] may leave on the output. *)
Definition leaves (trailer : bool) (d : result (list N) error) (res : result unit error) (marks : list mark) : Prop :=
  match d, res with
  | Error e, Error e' => e' = e /\ marks = []
  | Okay buf, Okay _ => marks = map Byte buf ++ (if trailer then [Flushed] else [])
  | Okay buf, Error (Io _) => exists k, marks = map Byte (firstn k buf)
  | _, _ => False
  end.

(** [output em m ops rs m' marks]: the calls [ops] with results [rs] take the muxer
    from [m] to [m'] and append [marks] to the output. *)
Fixpoint output {P V M : Type} (em : emitter P V M) (m : M) (ops : list (mux_op P V)) (rs : list (result unit error)) (m' : M) (marks : list mark) : Prop :=
  match ops, rs with
  | [], [] => m' = m /\ marks = []
  | op :: ops', r :: rs' =>
      exists l1 l2, marks = l1 ++ l2 /\ leaves (is_trailer op) (snd (decides em m op)) r l1 /\
        output em (fst (decides em m op)) ops' rs' m' l2
  | _, _ => False
  end.

(** With an output that accepts everything there is only one result. *)
Fixpoint whole_output {P V M : Type} (em : emitter P V M) (m : M) (ops : list (mux_op P V)) : M * list (result unit error) * list mark :=
  match ops with
  | [] => (m, [], [])
  | op :: ops' =>
      let '(m1, d) := decides em m op in
      let '(m2, rs, l) := whole_output em m1 ops' in
      match d with
      | Okay buf => (m2, Okay tt :: rs, map Byte buf ++ (if is_trailer op then [Flushed] else []) ++ l)
      | Error e => (m2, Error e :: rs, l)
      end
  end.

(** A muxer that notes the calls it gets. *)
Definition logged {P V M W : Type} (mx : muxer P V M W) : muxer P V (M * list (mux_op P V)) W := {|
  mx_configure := fun m => let! (m', r) := mx_configure mx (fst m) in Ret (m', snd m ++ [MConfigure], r);
  mx_header := fun m w => let! (m', w', r) := mx_header mx (fst m) w in Ret (m', snd m ++ [MHeader], w', r);
  mx_packet := fun m w p => let! (m', w', r) := mx_packet mx (fst m) w p in Ret (m', snd m ++ [MPacket p], w', r);
  mx_trailer := fun m w => let! (m', w', r) := mx_trailer mx (fst m) w in Ret (m', snd m ++ [MTrailer], w', r);
  mx_info := fun m g => let! (m', r) := mx_info mx (fst m) g in Ret (m', snd m ++ [MInfo g], r);
  mx_option := fun m key val => let! (m', r) := mx_option mx (fst m) key val in Ret (m', snd m ++ [MOption key val], r)
|}.

(** ** Streams *)

Fixpoint add_streams {P : Type} (g : global_info P) (l : list (stream P)) : global_info P * list N :=
  match l with
  | [] => (g, [])
  | st :: l' => let '(g1, k) := add_stream g st in let '(g2, ks) := add_streams g1 l' in (g2, k :: ks)
  end.

(** The fields [add_stream] does not own. *)
Definition same_stream {P : Type} (a b : stream P) : Prop :=
  s_params a = s_params b /\ s_start a = s_start b /\ s_duration a = s_duration b /\
  s_timebase a = s_timebase b /\ s_private a = s_private b.

(** ** First match *)
Definition first_named {T : Type} (name_of : T -> string) (l : list T) (name : string) (d : T) : Prop :=
  exists l1 l2, l = l1 ++ d :: l2 /\ name_of d = name /\ forall x, In x l1 -> name_of x <> name.

(** ** A concrete output: a file in memory whose writes are cut and fail as a
    script says.  A write replaces bytes from the position on; positions beyond the
    end are filled with zeros. *)
Record file : Type := mk_file { f_data : list N; f_pos : nat; f_flushes : nat; f_script : list (result nat io_error) }.

Definition overwrite (l : list N) (p : nat) (b : list N) : list N :=
  firstn p (l ++ repeat 0%N (p - List.length l)) ++ b ++ skipn (p + List.length b) l.

Definition file_write (f : file) (buf : list N) : file * result nat io_error :=
  let take k rest := (mk_file (overwrite (f_data f) (f_pos f) (firstn k buf)) (f_pos f + k) (f_flushes f) rest, Okay k) in
  match f_script f with
  | [] => take (List.length buf) []
  | Okay limit :: rest => take (Nat.min limit (List.length buf)) rest
  | Error e :: rest => (mk_file (f_data f) (f_pos f) (f_flushes f) rest, Error e)
  end.

Definition file_flush (f : file) : file * result unit io_error :=
  match f_script f with
  | Error e :: rest => (mk_file (f_data f) (f_pos f) (f_flushes f) rest, Error e)
  | script => (mk_file (f_data f) (f_pos f) (S (f_flushes f)) script, Okay tt)
  end.

Definition file_seek (f : file) (sk : seek_from) : file * result nat io_error :=
  let t := match sk with
           | Start n => Z.of_nat n
           | End d => (Z.of_nat (List.length (f_data f)) + d)%Z
           | Current d => (Z.of_nat (f_pos f) + d)%Z
           end in
  if (t <? 0)%Z then (f, Error (OtherError 22))
  else (mk_file (f_data f) (Z.to_nat t) (f_flushes f) (f_script f), Okay (Z.to_nat t)).

Definition file_sink : sink file := mk_sink file_write file_flush file_seek.

(** A log of everything received (an output without a position, like a pipe). *)
Record pipe : Type := mk_pipe { pp_marks : list mark; pp_script : list (result nat io_error) }.
Definition pipe_write (f : pipe) (buf : list N) : pipe * result nat io_error :=
  let take k rest := (mk_pipe (pp_marks f ++ map Byte (firstn k buf)) rest, Okay k) in
  match pp_script f with
  | [] => take (List.length buf) []
  | Okay limit :: rest => take (Nat.min limit (List.length buf)) rest
  | Error e :: rest => (mk_pipe (pp_marks f) rest, Error e)
  end.
Definition pipe_flush (f : pipe) : pipe * result unit io_error := (mk_pipe (pp_marks f ++ [Flushed]) (pp_script f), Okay tt).
Definition pipe_sink : sink pipe := mk_sink pipe_write pipe_flush (fun p _ => (p, Error (OtherError 29))).
