(** What a machine with overflow checks returns, one without them returns as well. *)
From Coq Require Import List Arith NArith ZArith Bool Lia.
From Coq Require Import ZifyBool ZifyNat ZifyN.
From Verif Require Import Base AccModel BitModel WordBitModel ReleaseModel CodebookModel CodebookSpec ReleaseCbSpec AudioModel PixelModel FormatModel FrameModel DemuxModel DemuxSpec
  MuxModel WordAccModel StreamModel WordCountModel MachineModel MachineAccModel MachineBitModel MachineBitSpec MachineCountModel MachineFrameModel MachineDemuxModel WordDemuxModel WordDemuxSpec MachineDemuxSpec.
Import ListNotations.
Local Open Scope N_scope.

Definition below {A : Type} (x y : outcome A) : Prop := forall v, x = Ret v -> y = Ret v.

Lemma below_refl {A} (x : outcome A) : below x x.
Proof. intros v E. exact E. Qed.
Lemma below_panic {A} (y : outcome A) : below Panic y.
Proof. intros v E. discriminate E. Qed.
Lemma below_bind {A B} (x y : outcome A) (f g : A -> outcome B) : below x y -> (forall a, below (f a) (g a)) -> below (obind x f) (obind y g).
Proof. intros H K v E. destruct x as [a| |]; try discriminate E. rewrite (H a eq_refl). exact (K a v E). Qed.

Create HintDb loose discriminated.
#[export] Hint Constants Opaque : loose.
#[export] Hint Variables Opaque : loose.
(** Goes through both sides at once. *)
Ltac walk := repeat (intros; cbv zeta; first
  [ match goal with |- below ?x ?y => constr_eq x y; exact (below_refl x) end
  | solve [auto with loose nocore]
  | match goal with |- below (obind _ _) (obind _ _) => apply below_bind end
  | match goal with |- below (match ?x with _ => _ end) (match ?x with _ => _ end) => destruct x end ]).

Section Loose.
Variable b : N.
Notation strict := (mk_machine b true).
Notation loose := (mk_machine b false).

Lemma ranged_loose n : below (ranged strict n) (ranged loose n).
Proof. unfold ranged. change (modulus loose) with (modulus strict). destruct (n <? modulus strict); [apply below_refl|apply below_panic]. Qed.
Lemma madd_loose x y : below (madd strict x y) (madd loose x y).
Proof. apply ranged_loose. Qed.
Lemma mmul_loose x y : below (mmul strict x y) (mmul loose x y).
Proof. apply ranged_loose. Qed.
Lemma msub_loose x y : below (msub strict x y) (msub loose x y).
Proof. unfold msub. destruct (y <=? x); [apply below_refl|apply below_panic]. Qed.
Lemma mshl_loose x y : below (mshl strict x y) (mshl loose x y).
Proof. unfold mshl. cbn [bits checked]. destruct (y <? b); [apply below_refl|apply below_panic]. Qed.
Lemma mshr_loose x y : below (mshr strict x y) (mshr loose x y).
Proof. unfold mshr. cbn [bits checked]. destruct (y <? b); [apply below_refl|apply below_panic]. Qed.
Lemma misub_loose x y : below (misub strict x y) (misub loose x y).
Proof. unfold misub. destruct (_ && _)%bool; [apply below_refl|apply below_panic]. Qed.
Hint Resolve madd_loose mmul_loose msub_loose mshl_loose mshr_loose misub_loose : loose.

(** ** [AccReader] *)
Section Acc.
Context {R : Type}.
Variable i : io R.
Lemma reset_loose (a : wacc R) : below (m_reset strict a) (m_reset loose a).
Proof. unfold m_reset. walk. Qed.
Lemma grow_loose (a : wacc R) n : below (m_grow strict a n) (m_grow loose a n).
Proof. unfold m_grow. change (m_resize loose) with (m_resize strict). walk. Qed.
Lemma consume_loose (a : wacc R) n : below (m_consume strict a n) (m_consume loose a n).
Proof. unfold m_consume. walk. Qed.
Hint Resolve reset_loose grow_loose consume_loose : loose.
Lemma fill_loose (a : wacc R) : below (m_fill_buf strict i a) (m_fill_buf loose i a).
Proof. unfold m_fill_buf. walk. Qed.
Hint Resolve fill_loose : loose.
Lemma read_loose (a : wacc R) dst : below (m_read strict i a dst) (m_read loose i a dst).
Proof. unfold m_read. walk. Qed.
Lemma seek_inner_loose (a : wacc R) s : below (m_seek_inner strict i a s) (m_seek_inner loose i a s).
Proof. unfold m_seek_inner. change (mcast loose) with (mcast strict). walk. Qed.
Hint Resolve read_loose seek_inner_loose : loose.
Lemma seek_loose (a : wacc R) s : below (m_seek strict i a s) (m_seek loose i a s).
Proof. unfold m_seek. change (mcast loose) with (mcast strict). walk. Qed.
Hint Resolve seek_loose : loose.
Lemma step_loose (a : wacc R) op : below (m_acc_step strict i a op) (m_acc_step loose i a op).
Proof. unfold m_acc_step, m_capacity. walk. Qed.
Hint Resolve step_loose : loose.
Lemma run_loose ops : forall a : wacc R, below (m_acc_run strict i a ops) (m_acc_run loose i a ops).
Proof. induction ops as [|op ops IH]; intros a; cbn [m_acc_run]; walk. Qed.

(** ** [Context] *)
Context {P D : Type}.
Variable ps : parser P D.
Notation dm m := (parser_demuxer ps (machine_buffered m i)).

Lemma event_internal_loose (c : dctx P D (wacc R)) :
  below (read_event_internal (dm strict) (machine_buffered strict i) c) (read_event_internal (dm loose) (machine_buffered loose i) c).
Proof. unfold read_event_internal. cbn [parser_demuxer dm_event machine_buffered b_data b_seek]. walk. Qed.
Lemma headers_internal_loose (c : dctx P D (wacc R)) :
  below (read_headers_internal (dm strict) (machine_buffered strict i) c) (read_headers_internal (dm loose) (machine_buffered loose i) c).
Proof. unfold read_headers_internal. cbn [parser_demuxer dm_headers machine_buffered b_data b_seek]. walk. Qed.
Lemma machine_grow_loose (a : wacc R) n : below (machine_grow strict a n) (machine_grow loose a n).
Proof. apply grow_loose. Qed.
Hint Resolve event_internal_loose headers_internal_loose machine_grow_loose : loose.
Lemma buffered_fill_loose (a : wacc R) : below (b_fill (machine_buffered strict i) a) (b_fill (machine_buffered loose i) a).
Proof. apply fill_loose. Qed.
Hint Resolve buffered_fill_loose : loose.
Lemma buffered_data : b_data (machine_buffered loose i) = b_data (machine_buffered strict i).
Proof. reflexivity. Qed.
Lemma event_loose n : forall c : dctx P D (wacc R),
  below (wd_event (dm strict) (machine_buffered strict i) (machine_grow strict) n c) (wd_event (dm loose) (machine_buffered loose i) (machine_grow loose) n c).
Proof. induction n as [|n IH]; intros c; cbn [wd_event]; rewrite ?buffered_data; walk. Qed.
Lemma headers_loose n : forall c : dctx P D (wacc R),
  below (wd_headers (dm strict) (machine_buffered strict i) (machine_grow strict) n c) (wd_headers (dm loose) (machine_buffered loose i) (machine_grow loose) n c).
Proof. induction n as [|n IH]; intros c; cbn [wd_headers]; walk. Qed.
Hint Resolve event_loose headers_loose : loose.
Lemma session_loose n calls : forall c : dctx P D (wacc R), below (machine_session strict i ps n calls c) (machine_session loose i ps n calls c).
Proof. unfold machine_session. induction calls as [|[|] calls IH]; intros c; cbn [session]; walk. Qed.
End Acc.

(** ** [Writer] and [get_buffer] *)
Section Count.
Context {W : Type}.
Variable s : sink W.
Lemma write_loose (w : wwriter W) buf : below (mw_write strict s w buf) (mw_write loose s w buf).
Proof. unfold mw_write. walk. Qed.
Hint Resolve write_loose : loose.
Lemma write_all_loose fuel : forall (w : wwriter W) buf, below (mw_write_all strict s fuel w buf) (mw_write_all loose s fuel w buf).
Proof. induction fuel as [|fuel IH]; intros w buf; cbn [mw_write_all]; walk. Qed.
Hint Resolve write_all_loose : loose.
Lemma wstep_loose (w : wwriter W) op : below (mw_step strict s w op) (mw_step loose s w op).
Proof. unfold mw_step. change (mw_seek loose s) with (mw_seek strict s). walk. Qed.
Hint Resolve wstep_loose : loose.
Lemma wrun_loose ops : forall w : wwriter W, below (mw_run strict s w ops) (mw_run loose s w ops).
Proof. induction ops as [|op ops IH]; intros w; cbn [mw_run]; walk. Qed.
End Count.
Lemma get_buffer_loose {R : Type} (rd : reader R) fuel : forall r buf n, below (mget_buffer strict rd fuel r buf n) (mget_buffer loose rd fuel r buf n).
Proof. induction fuel as [|fuel IH]; intros r buf n; cbn [mget_buffer]; walk. Qed.

(** ** The bit reader *)
Lemma shl_loose x n : below (mb_shl strict x n) (mb_shl loose x n).
Proof.
  unfold mb_shl. cbn [checked]. unfold ushl, rshl. destruct (N.ltb_spec n 64); [|apply below_panic].
  rewrite (N.mod_small n) by assumption. apply below_refl.
Qed.
Hint Resolve shl_loose : loose.
Lemma peek_loose e r n : below (mb_peek_val strict e r n) (mb_peek_val loose e r n).
Proof. unfold mb_peek_val. cbn [checked]. destruct e; [apply below_refl|]. destruct (_ <=? 64); [apply below_refl|apply below_panic]. Qed.
Hint Resolve peek_loose : loose.
Lemma get_val_loose e r n : below (mb_get_val strict e r n) (mb_get_val loose e r n).
Proof. unfold mb_get_val. walk. Qed.
Lemma merge_loose e p q x y : below (mb_merge_val strict e p q x y) (mb_merge_val loose e p q x y).
Proof. unfold mb_merge_val. walk. Qed.
Lemma build_loose e c f n : below (mb_build_cache strict e c f n) (mb_build_cache loose e c f n).
Proof. unfold mb_build_cache. walk. Qed.
Lemma can_refill_loose r : below (mb_can_refill strict r) (mb_can_refill loose r).
Proof. unfold mb_can_refill. walk. Qed.
Hint Resolve get_val_loose merge_loose build_loose can_refill_loose : loose.
Lemma refill32_loose e r : below (mb_refill32 strict e r) (mb_refill32 loose e r).
Proof. unfold mb_refill32. walk. Qed.
Lemma refill64_loose e r : below (mb_refill64 strict e r) (mb_refill64 loose e r).
Proof. unfold mb_refill64. walk. Qed.
Hint Resolve refill32_loose refill64_loose : loose.
Lemma available_loose r : below (mb_available strict r) (mb_available loose r).
Proof. unfold mb_available. walk. Qed.
Lemma consumed_loose r : below (mb_consumed strict r) (mb_consumed loose r).
Proof. unfold mb_consumed. walk. Qed.
Lemma skip_loose e r n : below (mb_skip_bits strict e r n) (mb_skip_bits loose e r n).
Proof. unfold mb_skip_bits. walk. Qed.
Lemma get_bit_loose e r : below (mb_get_bit strict e r) (mb_get_bit loose e r).
Proof. unfold mb_get_bit. walk. Qed.
Lemma get_64_loose e r n : below (mb_get_bits_64 strict e r n) (mb_get_bits_64 loose e r n).
Proof. unfold mb_get_bits_64. walk. Qed.
Lemma get_32_loose e r n : below (mb_get_bits_32 strict e r n) (mb_get_bits_32 loose e r n).
Proof. unfold mb_get_bits_32. walk. Qed.
Hint Resolve available_loose consumed_loose skip_loose get_bit_loose get_64_loose get_32_loose : loose.
Lemma bit_op_loose e r op : below (mb_run_op strict e r op) (mb_run_op loose e r op).
Proof. unfold mb_run_op, mb_align_bits. walk. Qed.
Hint Resolve bit_op_loose : loose.
Lemma read_loop_loose {S : Type} fuel : forall e (cb : codebook S) r idx l, below (mb_read_loop strict fuel e cb r idx l) (mb_read_loop loose fuel e cb r idx l).
Proof. change (mcast loose) with (mcast strict). induction fuel as [|fuel IH]; intros e cb r idx l; cbn [mb_read_loop]; change (mcast loose) with (mcast strict); walk. Qed.
Hint Resolve @read_loop_loose : loose.
Lemma mixed_loose {S : Type} e (cb : codebook S) steps : forall r, below (mb_run_mixed strict e cb r steps) (mb_run_mixed loose e cb r steps).
Proof. induction steps as [|[op|w] steps IH]; intros r; cbn [mb_run_mixed]; unfold mb_read_cb; walk. Qed.
Hint Resolve @mixed_loose : loose.
Lemma bits_loose {S : Type} e (cb : codebook S) buf steps : below (mb_mixed_from_new strict e cb buf steps) (mb_mixed_from_new loose e cb buf steps).
Proof. unfold mb_mixed_from_new, mb_new. walk. Qed.

(** ** Frames *)
Lemma align_loose v a : below (m_align strict v a) (m_align loose v a).
Proof. unfold m_align. change (mnot loose) with (mnot strict). walk. Qed.
Lemma round_loose v : below (m_round_to_byte strict v) (m_round_to_byte loose v).
Proof. unfold m_round_to_byte. walk. Qed.
Lemma sub_size_loose x n : below (m_sub_size strict x n) (m_sub_size loose x n).
Proof. unfold m_sub_size. walk. Qed.
Hint Resolve align_loose round_loose sub_size_loose : loose.
Lemma audio_size_loose f n a : below (m_get_audio_size strict f n a) (m_get_audio_size loose f n a).
Proof. unfold m_get_audio_size. walk. Qed.
Lemma linesize_loose c w a : below (m_get_linesize strict c w a) (m_get_linesize loose c w a).
Proof. unfold m_get_linesize, m_get_width. walk. Qed.
Hint Resolve audio_size_loose linesize_loose : loose.
Lemma data_size_loose c w h a : below (m_get_data_size strict c w h a) (m_get_data_size loose c w h a).
Proof. unfold m_get_data_size. walk. Qed.
Hint Resolve data_size_loose : loose.
Lemma sum_loose l : forall acc w h a, below (m_sum_sizes strict acc w h a l) (m_sum_sizes loose acc w h a l).
Proof. induction l as [|[c|] l IH]; intros acc w h a; cbn [m_sum_sizes]; walk. Qed.
Hint Resolve sum_loose : loose.
Lemma video_planes_loose l : forall w h f, below (m_video_planes strict w h f l) (m_video_planes loose w h f l).
Proof. induction l as [|[c|] l IH]; intros w h f; cbn [m_video_planes]; walk. Qed.
Lemma audio_planes_loose v n : forall f, below (m_audio_planes strict v n f) (m_audio_planes loose v n f).
Proof. induction n as [|n IH]; intros f; cbn [m_audio_planes]; walk. Qed.
Hint Resolve video_planes_loose audio_planes_loose : loose.
Lemma frame_loose k t : below (m_new_default_frame strict k t) (m_new_default_frame loose k t).
Proof. unfold m_new_default_frame, m_fb_new, m_video_size, m_audio_size. change (m_zeroed loose) with (m_zeroed strict). walk. Qed.
Lemma copy_out_loose comps : forall f w h n dst dl, below (m_copy_out strict f w h n dst dl comps) (m_copy_out loose f w h n dst dl comps).
Proof. induction comps as [|c comps IH]; intros f w h n [|d dst] [|l dl]; cbn [m_copy_out]; unfold m_get_width, m_get_height; walk. Qed.
Lemma copy_in_loose n : forall f w h i src sl comps, below (m_copy_in strict f w h n i src sl comps) (m_copy_in loose f w h n i src sl comps).
Proof. induction n as [|n IH]; intros f w h i src sl comps; cbn [m_copy_in]; unfold m_get_width, m_get_height; walk. Qed.
Hint Resolve copy_out_loose copy_in_loose : loose.
Lemma to_buffer_loose f dst dl : below (m_copy_frame_to_buffer strict f dst dl) (m_copy_frame_to_buffer loose f dst dl).
Proof. unfold m_copy_frame_to_buffer. walk. Qed.
Lemma from_slice_loose f src sl : below (m_copy_from_slice strict f src sl) (m_copy_from_slice loose f src sl).
Proof. unfold m_copy_from_slice. walk. Qed.
End Loose.
