(** C48, C57, C58, C65: sample formats and channel maps. *)
From Coq Require Import String List Arith NArith Bool.
From Verif Require Import Base AudioModel PixelModel FrameModel DisplayModel DataSpec DataProofs AudioMain.
Import ListNotations.
Local Open Scope N_scope.

(** C48: whatever the arguments, a size that is returned is the smallest aligned one. *)
Theorem C48_audio_size : forall f len a s, power_of_two a -> get_audio_size f len a = Ret s ->
  exists need, bytes_needed f len need /\ least_multiple a need s.
Proof. exact audio_size_sound. Qed.
Print Assumptions C48_audio_size.

(** It is returned unless it is too large for the machine. *)
Theorem C48_audio_size_returned : forall f len a need, power_of_two a -> so_bits f < 256 -> bytes_needed f len need ->
  len * so_bits f + 7 < W64 -> need + a < W64 -> exists s, get_audio_size f len a = Ret s.
Proof. exact audio_size_total. Qed.
Print Assumptions C48_audio_size_returned.

(** Exactly: the size that is returned, and when it is. *)
Theorem C48_audio_size_exact : forall f len a s, power_of_two a -> so_bits f < 256 ->
  get_audio_size f len a = Ret s <->
  exists need, bytes_needed f len need /\ (so_packed f = true -> len * so_bits f + 7 < W64) /\ need + a < W64 /\ least_multiple a need s.
Proof. exact audio_size_exact. Qed.
Print Assumptions C48_audio_size_exact.

Example C48_example :
  get_audio_size (soniton_new 20 false true false false true) 15 32 = Ret 64 /\
  get_audio_size (soniton_new 20 false false false false true) 15 32 = Ret 64 /\
  get_audio_size (soniton_new 20 false true false false true) 12 32 = Ret 32 /\
  get_audio_size (soniton_new 20 false false false false true) 12 32 = Ret 64 /\
  power_of_two 32 /\ bytes_needed (soniton_new 20 false true false false true) 15 38.
Proof.
  repeat (apply conj; [vm_compute; reflexivity|]). split; [exists 5; reflexivity|].
  cbv [bytes_needed soniton_new so_packed so_bits ceil_div]. split; [discriminate|right; reflexivity].
Qed.

(** C57 is false: the position is cut to eight bits. *)
Theorem C57_find_channel_refuted :
  exists m t k, first_position m t k /\ find_channel_id m t <> Some (N.of_nat k).
Proof. exact c57_find_channel_refuted. Qed.
Print Assumptions C57_find_channel_refuted.

(** It holds for maps of up to 256 channels. *)
Theorem C57_find_channel_partial : forall m t, (length m <= 256)%nat ->
  match find_channel_id m t with
  | Some r => first_position m t (N.to_nat r)
  | None => ~ In t m
  end.
Proof. exact c57_find_channel_partial. Qed.
Print Assumptions C57_find_channel_partial.

(** Exactly: the position modulo 256, for maps of any length. *)
Theorem C57_find_channel_exact : forall m t,
  match find_channel_id m t with
  | Some r => exists k, first_position m t k /\ r = N.of_nat k mod 256
  | None => ~ In t m
  end.
Proof. exact c57_find_channel_exact. Qed.
Print Assumptions C57_find_channel_exact.

(** Channels are kept in the order in which they are added. *)
Theorem C57_add_channels : forall m c cs,
  add_channel m c = m ++ [c] /\ add_channels m cs = m ++ cs /\
  (forall i, get_channel m i = match nth_error m i with Some t => Ret t | None => Panic end) /\
  map_len m = N.of_nat (length m) /\ (map_is_empty m = true <-> m = map_new).
Proof. exact c57_add_channels. Qed.
Print Assumptions C57_add_channels.

Example C57_example :
  find_channel_id (add_channels (add_channel map_new ChC) [ChL; ChR; ChL]) ChL = Some 1 /\
  find_channel_id [ChC; ChL] ChR = None.
Proof. split; reflexivity. Qed.

(** C58 *)
Theorem C58_channel_sides : forall c,
  (is_center c = true /\ is_left c = false /\ is_right c = false) \/
  (is_center c = false /\ is_left c = true /\ is_right c = false) \/
  (is_center c = false /\ is_left c = false /\ is_right c = true).
Proof. exact c58_channel_sides. Qed.
Print Assumptions C58_channel_sides.

Example C58_example : is_center ChLFE = true /\ is_left ChLo = true /\ is_right ChRhs = true.
Proof. repeat apply conj; reflexivity. Qed.

(** C65 is false: a planar format is shown as packed. *)
Theorem C65_display_refuted :
  exists s, so_planar s = true /\ so_packed s = false /\ show_soniton s = "(16 bps, LE planar: false packed: true int)"%string.
Proof. exact c65_display_refuted. Qed.
Print Assumptions C65_display_refuted.

(** It is right when the two flags agree, and wrong whenever they differ. *)
Theorem C65_display_partial : forall s, show_soniton s = intended_text s <-> so_planar s = so_packed s.
Proof. exact c65_display_partial. Qed.
Print Assumptions C65_display_partial.

Example C65_example : show_soniton fmt_F32 = "(32 bps, LE planar: false packed: false float)"%string.
Proof. vm_compute. reflexivity. Qed.
