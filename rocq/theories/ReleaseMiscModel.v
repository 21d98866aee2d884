(** The remaining arithmetic in a build without overflow checks: the mask of a component
    (pixel.rs:682), the total depth of a format (pixel.rs:778), the position of [Writer]
    (muxer.rs:44) and the count of [get_buffer] (byteread.rs:14).  Everything else is as in
    [DisplayModel], [PixelModel], [WordCountModel] and [StreamModel]. *)
From Coq Require Import Ascii String.
From Coq Require Import List Arith NArith ZArith Bool.
From Verif Require Import Base AccModel PixelModel MuxModel StreamModel DisplayModel ReleaseModel WordCountModel.
Import ListNotations.
Local Open Scope nat_scope.

(** ** Display *)
Local Open Scope string_scope.

(** [a << n] with the amount modulo 32, [a - b] modulo 2^32, on [i32] *)
Definition rishl32 (a : Z) (n : N) : Z := as_signed 32 (as_unsigned 32 (a * 2 ^ Z.of_N (n mod 32))).
Definition risub32 (a b : Z) : Z := as_signed 32 (as_unsigned 32 (a - b)).

(** [Display for Chromaton], pixel.rs:679-692 *)
Definition r_show_chromaton (c : chromaton) : string :=
  let pfmt :=
    (if ch_packed c then
       let mask := rishl32 (risub32 (rishl32 1 (depth c)) 1) (shift c) in
       "packed(+" ++ dec (comp_offs c) ++ "," ++ hex32 mask ++ ", step " ++ dec (next_elem c) ++ ")"
     else "planar(" ++ dec (comp_offs c) ++ "," ++ dec (next_elem c) ++ ")") in
  "(" ++ dec (h_ss c) ++ "x" ++ dec (v_ss c) ++ ", " ++ pfmt ++ ")".

(** [Display for Formaton], pixel.rs:890-906 *)
Fixpoint r_show_comps (str : string) (l : list (option chromaton)) : string :=
  match l with
  | [] => str
  | None :: l' => r_show_comps str l'
  | Some c :: l' => r_show_comps (str ++ " " ++ r_show_chromaton c) l'
  end.
Definition r_show_formaton (f : formaton) : string :=
  let endian := if fo_be f then "BE" else "LE" in
  let palstr := if fo_palette f then "palette " else "" in
  let astr := if fo_alpha f then "alpha " else "" in
  let str := "Formaton for " ++ show_model (fo_model f) ++ " (" ++ palstr ++ astr ++ "elem " ++ endian ++ " size " ++ dec (fo_elem_size f) ++ "): " in
  "[" ++ r_show_comps str (fo_comps f) ++ "]".

Local Close Scope string_scope.

(** ** Total depth *)

(** pixel.rs:775-781: [u8] additions *)
Fixpoint r_add_depths (acc : N) (l : list (option chromaton)) : N :=
  match l with
  | [] => acc
  | None :: l' => r_add_depths acc l'
  | Some c :: l' => r_add_depths ((acc + depth c) mod 256) l'
  end.
Definition r_get_total_depth (f : formaton) : N := r_add_depths 0 (fo_comps f).

(** ** Writer *)

Section Writer.
Context {W : Type}.
Variable s : sink W.

(** muxer.rs:40-48 *)
Definition rww_write (w : wwriter W) (buf : list N) : wwriter W * result nat io_error :=
  let '(w', res) := sk_write s (ww_inner w) buf in
  match res with
  | Okay n => (mk_wwriter w' (radd (ww_written w) (N.of_nat n)), Okay n)
  | Error e => (mk_wwriter w' (ww_written w), Error e)
  end.

(** [Write::write_all] around [rww_write], as in [MuxModel] *)
Fixpoint rww_write_all (fuel : nat) (w : wwriter W) (buf : list N) : outcome (wwriter W * option (result unit io_error)) :=
  match buf with
  | [] => Ret (w, Some (Okay tt))
  | _ :: _ =>
      match fuel with
      | O => Ret (w, None)
      | S fuel' =>
          let '(w1, res) := rww_write w buf in
          match res with
          | Okay O => Ret (w1, Some (Error WriteZero))
          | Okay n => let! rest := slice buf n (List.length buf) in rww_write_all fuel' w1 rest
          | Error Interrupted => rww_write_all fuel' w1 buf
          | Error e => Ret (w1, Some (Error e))
          end
      end
  end.

Definition rww_step (w : wwriter W) (op : writer_op) : outcome (wwriter W * writer_out) :=
  match op with
  | WWrite buf => let '(w', res) := rww_write w buf in Ret (w', WWrote res)
  | WAll fuel buf => let! (w', res) := rww_write_all fuel w buf in Ret (w', WWroteAll res)
  | WFlush => let '(w', res) := ww_flush s w in Ret (w', WFlushed res)
  | WSeek sk => let '(w', res) := ww_seek s w sk in Ret (w', WSought res)
  end.

Fixpoint rww_run (w : wwriter W) (ops : list writer_op) : outcome (wwriter W * list writer_out) :=
  match ops with
  | [] => Ret (w, [])
  | op :: ops' =>
      let! (w1, o) := rww_step w op in
      let! (w2, os) := rww_run w1 ops' in
      Ret (w2, o :: os)
  end.
End Writer.

(** src/io/byteread.rs:9-19 *)
Fixpoint rget_buffer {R : Type} (rd : reader R) (fuel : nat) (r : R) (buf : list N) (nread : N)
  : outcome (R * list N * option (result unit io_error)) :=
  if (nread <? N.of_nat (List.length buf))%N then
    match fuel with
    | O => Ret (r, buf, None)
    | S fuel' =>
        let! tail := slice buf (N.to_nat nread) (List.length buf) in
        let! (r', tail', res) := rd r tail in
        let buf' := with_tail buf (N.to_nat nread) tail' in
        match res with
        | Okay O => Ret (r', buf', Some (Error UnexpectedEof))
        | Okay n => rget_buffer rd fuel' r' buf' (radd nread (N.of_nat n))
        | Error e => Ret (r', buf', Some (Error e))
        end
    end
  else Ret (r, buf, Some (Okay tt)).
