(** C195. *)
From Coq Require Import List Arith NArith Bool.
From Verif Require Import Base ByteModel BitModel BitSpec FieldSpec FieldProofs.
Import ListNotations.
Local Open Scope nat_scope.

(** C195: a bit reader that has come to the start of a byte, in whichever way, reads there the
    number that the byte getter of the same byte order reads. *)
Theorem C195_bit_and_byte_reads : forall e buf ops o s w, bytes buf -> 8 <= length buf -> ops_within e (bits_of e buf) (8 * length buf - 64) 0 ops ->
  fst (spec_ops e (bits_of e buf) 0 ops) = 8 * o -> o + count s + 8 <= length buf ->
  exists r r' outs v, run_from_new e buf ops = Ret (r, outs) /\ get_field e s (skipn o buf) = Ret v /\
    run_op e r (read_field w s) = Ret (r', OutWord v) /\ consumed r' = Ret (8 * (o + count s)).
Proof. exact bit_and_byte. Qed.
Print Assumptions C195_bit_and_byte_reads.

(** A record written with the byte putters is read back by the bit reader; nothing behind it changes. *)
Theorem C195_fields_read_back : forall e fs buf, bytes buf -> Forall field_ok fs -> total fs + 8 <= length buf ->
  exists buf' r, put_fields e buf 0 fs = Ret buf' /\ length buf' = length buf /\ skipn (total fs) buf' = skipn (total fs) buf /\
    run_from_new e buf' (map (fun f => read_field (f_wide f) (f_size f)) fs) = Ret (r, map (fun f => OutWord (f_value f)) fs) /\
    consumed r = Ret (8 * total fs).
Proof. exact fields_read_back. Qed.
Print Assumptions C195_fields_read_back.

Example C195_example : let fs := [mk_field Bytes2 513 false; mk_field Bytes1 7 true; mk_field Bytes8 0x8877665544332211 true; mk_field Bytes4 0xfffefdfc false] in
  put_fields LE (repeat 85 25)%N 0 fs = Ret ([1; 2; 7; 17; 34; 51; 68; 85; 102; 119; 136; 252; 253; 254; 255] ++ repeat 85 10)%N /\
  put_fields BE (repeat 85 25)%N 0 fs = Ret ([2; 1; 7; 136; 119; 102; 85; 68; 51; 34; 17; 255; 254; 253; 252] ++ repeat 85 10)%N /\
  exists r, run_from_new BE ([2; 1; 7; 136; 119; 102; 85; 68; 51; 34; 17; 255; 254; 253; 252] ++ repeat 85 10)%N
    (map (fun f => read_field (f_wide f) (f_size f)) fs) = Ret (r, map (fun f => OutWord (f_value f)) fs) /\ consumed r = Ret 120.
Proof.
  split; [vm_compute; reflexivity|]. split; [vm_compute; reflexivity|]. eexists. split; [vm_compute; reflexivity|]. vm_compute. reflexivity.
Qed.
