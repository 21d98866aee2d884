(** The proofs of the theorems of [BitProps]. *)
From Coq Require Import List Arith NArith Bool.
From Verif Require Import Base BitModel BitSpec BitProofs BitProofs2.
Import ListNotations.

Definition demo_buf : list N := map (fun k => N.of_nat (k * 37 mod 256)) (seq 1 40).

Definition demo_ops : list bit_op :=
  [OpGet32 5; OpGet64 61; OpPeek32 11; OpGetBit; OpGet32 32; OpSkip 3; OpAlign; OpGet32 7;
   OpSkip 100; OpPeek64 17; OpGet64 17; OpConsumed; OpAvailable].

Lemma c13_available_bits_readable_refuted :
  exists e buf ops n r outs a c r' v,
    bytes buf /\ Forall is_read ops /\ run_from_new e buf ops = Ret (r, outs) /\
    available r = Ret a /\ n <= a /\ n <= 32 /\ consumed r = Ret c /\
    get_bits_32 e r n = Ret (r', v) /\ v <> value e (window (bits_of e buf) c n).
Proof.
  exists BE, (map N.of_nat (seq 1 16)), [OpGet32 32; OpGet32 32; OpGet32 32], 32.
  eexists _, _, _, _, _, _.
  split; [repeat (constructor; [reflexivity|]); constructor|].
  split; [repeat constructor|]. split; [vm_compute; reflexivity|]. split; [vm_compute; reflexivity|].
  split; [repeat constructor|]. split; [repeat constructor|]. split; [vm_compute; reflexivity|].
  split; [vm_compute; reflexivity|]. vm_compute. discriminate.
Qed.

Lemma c14_skip_past_end_refuted :
  exists e buf r a r' b r'' v,
    bytes buf /\ new e buf = Ret r /\ available r = Ret a /\
    skip_bits e r a = Ret r' /\ available r' = Ret b /\ b <> 0 /\
    get_bits_32 e r' 8 = Ret (r'', v) /\ v <> 0%N.
Proof.
  exists LE, (map N.of_nat (seq 1 24)). eexists _, _, _, _, _, _.
  split; [repeat (constructor; [reflexivity|]); constructor|].
  split; [vm_compute; reflexivity|]. split; [vm_compute; reflexivity|]. split; [vm_compute; reflexivity|].
  split; [vm_compute; reflexivity|]. split; [discriminate|]. split; [vm_compute; reflexivity|]. discriminate.
Qed.

Lemma c14_available_panics_refuted :
  exists e buf r n r', bytes buf /\ new e buf = Ret r /\ skip_bits e r n = Ret r' /\ available r' = Panic.
Proof.
  exists BE, (map N.of_nat (seq 1 8)). eexists _, 140, _.
  split; [repeat (constructor; [reflexivity|]); constructor|].
  split; [vm_compute; reflexivity|]. split; [vm_compute; reflexivity|]. vm_compute; reflexivity.
Qed.
