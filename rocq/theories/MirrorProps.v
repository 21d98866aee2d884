(** C193. *)
From Coq Require Import List Arith NArith Bool Lia.
From Verif Require Import Base BitModel BitSpec CodebookModel CodebookSpec CbQueueSpec MirrorSpec MirrorProofs.
Import ListNotations.
Local Open Scope nat_scope.

(** C193: if the bits of every byte are turned around, the reader of the other bit order makes the
    same steps and reads the same bits, whatever the calls, reads past the end and skips included. *)
Theorem C193_readers_mirrored : forall e buf buf' ops, buf_mirrored buf buf' -> Forall op_ok ops ->
  runs_mirrored out_mirrored ops (run_from_new e buf ops) (run_from_new (other_end e) buf' ops).
Proof. exact readers_mirrored. Qed.
Print Assumptions C193_readers_mirrored.

(** If the codewords are turned around as well, the codebook of the other mode decodes the same
    symbols in any history of calls, with the reader meant for it or the other one. *)
Theorem C193_codebooks_mirrored : forall (S : Type) ord ord' m (ds ds' : list (desc S)) cb e buf buf' steps r0 r0',
  permuting ord -> permuting ord' -> valid_description m ds -> codes_fit (other_mode m) ds' -> Forall2 desc_mirrored ds ds' ->
  new_codebook ord ds m = Ret (Okay cb) -> buf_mirrored buf buf' -> Forall step_ok steps ->
  new e buf = Ret r0 -> new (other_end e) buf' = Ret r0' ->
  exists cb', new_codebook ord' ds' (other_mode m) = Ret (Okay cb') /\
    runs_mirrored step_mirrored steps (run_mixed e cb r0 steps) (run_mixed (other_end e) cb' r0' steps).
Proof. exact codebooks_mirrored. Qed.
Print Assumptions C193_codebooks_mirrored.

Definition C193_buf : list N := [128; 95; 3; 255; 1; 2; 68; 240; 77; 9]%N.
Definition C193_fub : list N := [1; 250; 192; 255; 128; 64; 34; 15; 178; 144]%N.

Ltac mirror_tac :=
  split; [reflexivity|]; split; [reflexivity|];
  let k := fresh "k" in let H := fresh "H" in intros k H;
  repeat (destruct k as [|k]; [reflexivity|]; apply <- Nat.succ_lt_mono in H); inversion H.

Example C193_mirror : buf_mirrored C193_buf C193_fub.
Proof. repeat (apply Forall2_cons; [mirror_tac|]). apply Forall2_nil. Qed.

(** Reads up to the last two bytes. *)
Example C193_reads : let ops := [OpGet32 5; OpPeek32 11; OpGetBit; OpSkip 20; OpGet64 30; OpConsumed; OpGet32 16; OpAvailable] in
  exists r r',
    run_from_new BE C193_buf ops =
      Ret (r, [OutWord 16; OutWord 95; OutBit false; OutUnit; OutWord 1057030724; OutCount 56; OutWord 61440; OutCount 16]) /\
    run_from_new LE C193_fub ops =
      Ret (r', [OutWord 1; OutWord 2000; OutBit false; OutUnit; OutWord 143663167; OutCount 56; OutWord 15; OutCount 16]).
Proof. eexists. eexists. split; [vm_compute; reflexivity|]. vm_compute. reflexivity. Qed.

(** A word of 12 bits and an unknown one. *)
Definition C193_code : list (desc nat) := [mk_desc 0 2 7; mk_desc 6 3 8; mk_desc 3969 12 9; mk_desc 9 0 1; mk_desc 2 2 5].
Definition C193_edoc : list (desc nat) := [mk_desc 0 2 7; mk_desc 3 3 8; mk_desc 2079 12 9; mk_desc 8 0 1; mk_desc 1 2 5].
Example C193_decodes : let c := Codeword (mk_desc 0 0 0) in let steps := [c; Call (OpGet32 5); c; c; c; c; Call OpConsumed] in
  let outs := [Sym (Okay 5); Out (OutWord 0); Sym (Okay 7); Sym (Okay 5); Sym (Okay 9); Sym (Error InvalidCode); Out (OutCount 23)] in
  Forall2 desc_mirrored C193_code C193_edoc /\
  exists cb cb' r0 r0' r r', new_codebook (fun _ cc => cc) C193_code MSB = Ret (Okay cb) /\ new_codebook (fun _ cc => cc) C193_edoc LSB = Ret (Okay cb') /\
    new BE C193_buf = Ret r0 /\ new LE C193_fub = Ret r0' /\
    run_mixed BE cb r0 steps = Ret (r, outs) /\ run_mixed LE cb' r0' steps = Ret (r', outs).
Proof.
  split.
  - repeat (apply Forall2_cons; [split; [reflexivity|]; split; [reflexivity|]; intros U; try (inversion U; fail); mirror_tac|]). apply Forall2_nil.
  - eexists. eexists. eexists. eexists. eexists. eexists.
    split; [vm_compute; reflexivity|]. split; [vm_compute; reflexivity|]. split; [vm_compute; reflexivity|]. split; [vm_compute; reflexivity|].
    split; [vm_compute; reflexivity|]. vm_compute. reflexivity.
Qed.
