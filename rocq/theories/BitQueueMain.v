(** Proofs of the examples of [BitQueueProps]. *)
From Coq Require Import List Arith NArith Bool.
From Verif Require Import Base BitModel BitSpec BitQueueSpec BitMain.
Import ListNotations.
Local Open Scope nat_scope.

Lemma c13_readable_example :
  exists r0 r outs, new BE (firstn 16 demo_buf) = Ret r0 /\
    skips_arrive BE r0 [OpGet32 32; OpSkip 40; OpGet32 10] /\
    run_ops BE r0 [OpGet32 32; OpSkip 40; OpGet32 10] = Ret (r, outs) /\
    consumed r = Ret 82 /\ readable 128 82 (left r) 46 = true /\ readable 128 82 (left r) 47 = false.
Proof.
  eexists _, _, _. split; [vm_compute; reflexivity|]. split.
  { cbn [skips_arrive]. split; [repeat constructor|]. split; [discriminate|].
    intros r1 o1 E1. vm_compute in E1. injection E1 as <- _.
    split; [exact I|]. split.
    { intros n c r2 c2 En Ec Es Ec2. injection En as <-. vm_compute in Ec. injection Ec as <-.
      vm_compute in Es. injection Es as <-. vm_compute in Ec2. injection Ec2 as <-.
      split; [reflexivity|]. cbn [buffer length]. apply Nat.leb_le. reflexivity. }
    intros r2 o2 E2. vm_compute in E2. injection E2 as <- _.
    split; [repeat constructor|]. split; [discriminate|]. intros; exact I. }
  split; [vm_compute; reflexivity|]. split; [vm_compute; reflexivity|]. split; vm_compute; reflexivity.
Qed.
