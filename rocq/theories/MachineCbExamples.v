(** Examples for codebooks on machines. *)
From Coq Require Import List Arith NArith Bool.
From Verif Require Import Base BitModel BitSpec WordBitModel CodebookModel CodebookSpec CodebookExamples ReleaseCbModel ReleaseCbSpec.
From Verif Require Import MachineModel MachineBitModel MachineBitSpec MachineCbModel MachineCbSpec.
Import ListNotations.
Local Open Scope N_scope.

(** An allocator with a limit. *)
Definition upto (k n : N) : bool := n <=? k.

Lemma machine_cb_example : exists cb, new_codebook (fun _ cc => cc) (demo_desc LSB) LSB = Ret (Okay cb) /\ length (cb_table cb) = 4136%nat /\
  honest wasm32 (upto 4136) /\ codes_u32 (demo_desc LSB) /\
  mk_new_codebook wasm32 (upto 4136) (upto 6) (fun _ cc => cc) (demo_desc LSB) LSB = Ret (Okay cb) /\
  mk_new_codebook wasm32 (upto 4135) (upto 6) (fun _ cc => cc) (demo_desc LSB) LSB = Panic /\
  mk_new_codebook wasm32 (upto 4136) (upto 5) (fun _ cc => cc) (demo_desc LSB) LSB = Panic /\
  (let ds := [mk_desc 0 1 10%nat; mk_desc 2047 11 20%nat; mk_desc 1 1 30%nat; mk_desc 4095 11 40%nat] in
   mk_new_codebook wasm32 (upto 5000) (upto 5) (fun _ cc => cc) ds MSB = Panic /\ new_codebook (fun _ cc => cc) ds MSB = Panic /\
   mk_new_codebook wasm32_release (upto 5000) (upto 5) (fun _ cc => cc) ds MSB = Panic /\ rc_new_codebook (fun _ cc => cc) ds MSB = Panic).
Proof.
  eexists. split; [vm_compute; reflexivity|]. split; [vm_compute; reflexivity|].
  split; [intros n H; apply N.leb_le in H; change (2 ^ (bits wasm32 - 1)) with 2147483648; apply N.le_lt_trans with (4 * 4136); [apply N.mul_le_mono_l; exact H|reflexivity]|].
  split; [repeat (constructor; [reflexivity|]); constructor|]. split; [vm_compute; reflexivity|]. split; [vm_compute; reflexivity|]. split; [vm_compute; reflexivity|].
  repeat split; vm_compute; reflexivity.
Qed.

Lemma machine_decode_example : forall c m, valid_description m (demo_desc m) /\ table_entries (words m (demo_desc m)) = 4136 /\
  exists cb r, mk_new_codebook (mk_machine 32 c) (upto 4136) (upto 6) (fun _ cc => cc) (demo_desc m) m = Ret (Okay cb) /\
  mb_mixed_from_new (mk_machine 32 c) (reader_for m) cb (demo_stream m) (demo_steps m) =
    Ret (r, [Sym (Okay 30%nat); Out (OutCount 12); Sym (Okay 50%nat); Sym (Okay 10%nat); Out (OutBit true); Sym (Okay 40%nat); Out OutUnit; Sym (Okay 20%nat)]).
Proof.
  intros c m. split; [apply (demo_history m)|]. split; [destruct m; vm_compute; reflexivity|].
  destruct c, m; eexists _, _; (split; [vm_compute; reflexivity|vm_compute; reflexivity]).
Qed.
