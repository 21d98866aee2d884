(** Packets, [AccReader] and default frames with an allocator that may refuse, for any width of
    [usize], with or without overflow checks.  An allocation that is too large for [isize] makes
    std panic, and one that the allocator refuses aborts; both are [Panic] here.  What no
    allocation is made for is taken from the other models. *)
From Coq Require Import List Arith NArith ZArith Bool.
From Verif Require Import Base AccModel AudioModel PixelModel FormatModel FrameModel StreamModel WordAccModel MachineModel MachineAccModel MachineFrameModel.
Import ListNotations.
Local Open Scope N_scope.

Section Alloc.
Variable m : machine.
(** Whether a vector of so many bytes can be had *)
Variable grants : N -> bool.

(** [Vec] (standard library): no bytes need no allocation; at most [isize::MAX] *)
Definition can_have (n : N) : bool := (n =? 0) || ((n <? room m) && grants n).

(** [vec![0; n]] *)
Definition l_zeros (n : N) : outcome (list N) := if can_have n then Ret (repeat 0 (N.to_nat n)) else Panic.

(** packet.rs:30-39 *)
Definition l_packet_with_capacity (capacity : N) : outcome packet :=
  if can_have capacity then Ret (mk_packet [] None (-1) default_time false false) else Panic.

(** packet.rs:42-51 *)
Definition l_packet_zeroed (size : N) : outcome packet :=
  let! data := l_zeros size in
  Ret (mk_packet data None (-1) default_time false false).

(** packet.rs:54-56 *)
Definition l_packet_new : outcome packet := l_packet_with_capacity 0.

(** packet.rs:62-66 *)
Definition l_get_packet {R : Type} (rd : reader R) (fuel : nat) (r : R) (len : N) : outcome (R * option (result packet io_error)) :=
  let! pkt := l_packet_zeroed len in
  let! (r', d, res) := std_read_exact rd fuel r (p_data pkt) 0 in
  match res with
  | None => Ret (r', None)
  | Some (Error e) => Ret (r', Some (Error e))
  | Some (Okay _) => Ret (r', Some (Okay (mk_packet d (p_pos pkt) (p_stream_index pkt) (p_t pkt) (p_key pkt) (p_corrupted pkt))))
  end.

(** accreader.rs:31-39 *)
Definition l_with_capacity {R : Type} (cap : N) (r : R) : outcome (wacc R) :=
  let! buf := l_zeros cap in
  Ret (mk_wacc r buf 0 0 0).

(** accreader.rs:25-27 *)
Definition l_new {R : Type} (r : R) : outcome (wacc R) := l_with_capacity 4096 r.

(** accreader.rs:91-94: [resize] asks for memory when the vector gets longer *)
Definition l_grow {R : Type} (a : wacc R) (len : N) : outcome (wacc R) :=
  let! l := madd m (blen (wa_buf a)) len in
  let! buf' :=
    if l <=? blen (wa_buf a) then Ret (firstn (N.to_nat l) (wa_buf a))
    else if can_have l then Ret (wa_buf a ++ repeat 0 (N.to_nat (l - blen (wa_buf a)))) else Panic in
  Ret (mk_wacc (wa_inner a) buf' (wa_pos a) (wa_end a) (wa_index a)).

(** The calls of [AccModel.acc_op] (harness); only [grow] asks for memory. *)
Definition l_acc_step {R : Type} (i : io R) (a : wacc R) (op : acc_op) : outcome (wacc R * acc_out) :=
  match op with
  | AGrow n => let! a' := l_grow a (N.of_nat n) in Ret (a', OUnit)
  | _ => m_acc_step m i a op
  end.
Fixpoint l_acc_run {R : Type} (i : io R) (a : wacc R) (ops : list acc_op) : outcome (wacc R * list acc_out) :=
  match ops with
  | [] => Ret (a, [])
  | op :: ops' =>
      let! (a1, o) := l_acc_step i a op in
      let! (a2, os) := l_acc_run i a1 ops' in
      Ret (a2, o :: os)
  end.
Definition l_acc_from {R : Type} (i : io R) (cap : N) (r : R) (ops : list acc_op) : outcome (wacc R * list acc_out) :=
  let! a := l_with_capacity cap r in l_acc_run i a ops.

(** Whether a vector of so many planes can be had *)
Variable plane_grants : N -> bool.

(** [Vec::with_capacity] for planes, frame.rs:416 and 436-440 *)
Definition l_planes (n : N) : outcome unit := if (n =? 0) || plane_grants n then Ret tt else Panic.

(** [DefaultFrameBuffer::new], frame.rs:409-458; [get_num_comp] is pixel.rs:836-838 *)
Definition l_fb_new (kind : media_kind) : outcome frame_buffer :=
  match kind with
  | Video v =>
    let! size := m_video_size m v ALIGNMENT in
    let! buf := l_zeros size in
    let! _ := l_planes (get_num_comp (vi_format v)) in
    m_video_planes m (vi_width v) (vi_height v) (mk_fb buf []) (fo_comps (vi_format v))
  | Audio v =>
    let! size := m_audio_size m v ALIGNMENT in
    let! buf := l_zeros size in
    let! _ := l_planes (if so_planar (ai_format v) then map_len (ai_map v) else 1) in
    if so_planar (ai_format v) then m_audio_planes m v (length (ai_map v)) (mk_fb buf [])
    else
      let! (front, rest) := split_to buf size in
      Ret (mk_fb rest [mk_plane front size])
  end.

(** frame.rs:474-486 *)
Definition l_new_default_frame (kind : media_kind) (t : option time_info) : outcome frame :=
  let! b := l_fb_new kind in
  Ret (mk_frame kind b (match t with Some t => t | None => default_time end)).
End Alloc.
