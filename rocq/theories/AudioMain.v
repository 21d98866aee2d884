(** The proofs of the theorems of [AudioProps]. *)
From Coq Require Import String List Arith NArith Bool.
From Verif Require Import Base AudioModel PixelModel FrameModel DisplayModel DataSpec DataProofs.
Import ListNotations.
Local Open Scope N_scope.

Lemma c57_find_channel_refuted :
  exists m t k, first_position m t k /\ find_channel_id m t <> Some (N.of_nat k).
Proof.
  exists (repeat ChC 256 ++ [ChL]), ChL, 256%nat. split.
  - split; [vm_compute; reflexivity|]. intros j Hj. rewrite nth_error_app1 by (rewrite repeat_length; exact Hj).
    rewrite (nth_error_repeat ChC Hj). discriminate.
  - vm_compute. discriminate.
Qed.

Lemma c57_find_channel_partial : forall m t, (length m <= 256)%nat ->
  match find_channel_id m t with
  | Some r => first_position m t (N.to_nat r)
  | None => ~ In t m
  end.
Proof.
  intros m t H. unfold find_channel_id. pose proof (find_from_spec m t 0) as P. destruct (find_from m t 0) as [r|]; [|exact P].
  destruct P as [k [F ->]]. assert (L : (k < length m)%nat) by (apply nth_error_Some; destruct F as [F _]; congruence).
  rewrite N.add_0_l, N.mod_small, Nnat.Nat2N.id; [exact F|]. Lia.lia.
Qed.

Lemma c57_find_channel_exact : forall m t,
  match find_channel_id m t with
  | Some r => exists k, first_position m t k /\ r = N.of_nat k mod 256
  | None => ~ In t m
  end.
Proof. intros m t. exact (find_from_spec m t 0). Qed.

Lemma c57_add_channels : forall m c cs,
  add_channel m c = m ++ [c] /\ add_channels m cs = m ++ cs /\
  (forall i, get_channel m i = match nth_error m i with Some t => Ret t | None => Panic end) /\
  map_len m = N.of_nat (length m) /\ (map_is_empty m = true <-> m = map_new).
Proof.
  intros m c cs. split; [reflexivity|]. split; [apply add_channels_app|]. split; [reflexivity|]. split; [reflexivity|].
  destruct m; split; intros H; try reflexivity; discriminate H.
Qed.

Lemma c58_channel_sides : forall c,
  (is_center c = true /\ is_left c = false /\ is_right c = false) \/
  (is_center c = false /\ is_left c = true /\ is_right c = false) \/
  (is_center c = false /\ is_left c = false /\ is_right c = true).
Proof. intros []; cbn; tauto. Qed.

Lemma c65_display_refuted :
  exists s, so_planar s = true /\ so_packed s = false /\ show_soniton s = "(16 bps, LE planar: false packed: true int)"%string.
Proof. exists (soniton_new 16 false false true false true). repeat apply conj; vm_compute; reflexivity. Qed.

Lemma c65_display_partial : forall s, show_soniton s = intended_text s <-> so_planar s = so_packed s.
Proof.
  intros [bits be packed planar float signed]. unfold show_soniton, intended_text. cbn [so_bits so_be so_packed so_planar so_float so_signed].
  split; intros H; [|rewrite H; reflexivity]. cbn [append] in H. injection H as H.
  induction (dec bits) as [|a d IH]; [|injection H as H; exact (IH H)].
  destruct be, packed, planar; try reflexivity; discriminate H.
Qed.
