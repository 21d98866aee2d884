(** Model of data/src/frame.rs (stream information and frames), except the Display
    implementations, which are in DisplayModel.v.  Reference counting ([Arc]) is not
    modelled: an [Arc<T>] is its contents. *)
From Coq Require Import List Arith NArith ZArith Bool.
From Verif Require Import Base AudioModel PixelModel FormatModel.
Import ListNotations.
Local Open Scope N_scope.

(** [FrameError], frame.rs:21-26. *)
Inductive frame_error := InvalidIndex | InvalidConversion.

(** [FrameType], frame.rs:43-57. *)
Inductive frame_type := FrameI | FrameP | FrameB | FrameSKIP | FrameOTHER.

(** [VideoInfo], frame.rs:73-86. *)
Record video_info := mk_video {
  vi_width : N;
  vi_height : N;
  vi_flipped : bool;
  vi_type : frame_type;
  vi_format : formaton;
  vi_bits : N
}.

(** [VideoInfo::new], frame.rs:90-106. *)
Definition video_new (width height : N) (flipped : bool) (t : frame_type) (format : formaton) : outcome video_info :=
  let! bits := get_total_depth format in
  Ret (mk_video width height flipped t format bits).

(** [VideoInfo::set_width] and [set_height], frame.rs:130-136. *)
Definition video_set_width (v : video_info) (w : N) : video_info :=
  mk_video w (vi_height v) (vi_flipped v) (vi_type v) (vi_format v) (vi_bits v).
Definition video_set_height (v : video_info) (h : N) : video_info :=
  mk_video (vi_width v) h (vi_flipped v) (vi_type v) (vi_format v) (vi_bits v).

(** [VideoInfo::size], frame.rs:139-147. *)
Fixpoint sum_sizes (acc w h a : N) (l : list (option chromaton)) : outcome N :=
  match l with
  | [] => Ret acc
  | None :: l' => sum_sizes acc w h a l'
  | Some c :: l' =>
    let! s := get_data_size c w h a in
    let! acc' := uadd acc s in
    sum_sizes acc' w h a l'
  end.
Definition video_size (v : video_info) (a : N) : outcome N :=
  sum_sizes 0 (vi_width v) (vi_height v) a (fo_comps (vi_format v)).

(** The derived [PartialEq] of [Formaton], [ChannelMap] and [Soniton]: structural
    equality. *)
Definition formaton_eq_dec (a b : formaton) : {a = b} + {a <> b}.
Proof. repeat decide equality. Defined.
Definition channel_map_eq_dec (a b : channel_map) : {a = b} + {a <> b}.
Proof. repeat decide equality. Defined.
Definition soniton_eq_dec (a b : soniton) : {a = b} + {a <> b}.
Proof. repeat decide equality. Defined.
Definition formaton_eqb (a b : formaton) : bool := if formaton_eq_dec a b then true else false.
Definition channel_map_eqb (a b : channel_map) : bool := if channel_map_eq_dec a b then true else false.
Definition soniton_eqb (a b : soniton) : bool := if soniton_eq_dec a b then true else false.

(** [PartialEq for VideoInfo], frame.rs:156-160. *)
Definition video_eqb (a b : video_info) : bool :=
  (vi_width a =? vi_width b) && (vi_height a =? vi_height b) && formaton_eqb (vi_format a) (vi_format b).

(** [AudioInfo], frame.rs:164-177. *)
Record audio_info := mk_audio {
  ai_samples : N;
  ai_rate : N;
  ai_map : channel_map;
  ai_format : soniton;
  ai_block_len : option N
}.

(** [AudioInfo::size], frame.rs:219-221. *)
Definition audio_size (v : audio_info) (a : N) : outcome N :=
  let! s := get_audio_size (ai_format v) (ai_samples v) a in
  umul s (map_len (ai_map v)).

(** [PartialEq for AudioInfo], frame.rs:235-241. *)
Definition audio_eqb (a b : audio_info) : bool :=
  (ai_rate a =? ai_rate b) && channel_map_eqb (ai_map a) (ai_map b) && soniton_eqb (ai_format a) (ai_format b).

(** [MediaKind], frame.rs:245-250, its derived [PartialEq] and its accessors,
    frame.rs:254-276. *)
Inductive media_kind :=
| Video (v : video_info)
| Audio (a : audio_info).
Definition media_eqb (a b : media_kind) : bool :=
  match a, b with
  | Video v, Video v' => video_eqb v v'
  | Audio v, Audio v' => audio_eqb v v'
  | _, _ => false
  end.
Definition get_video_info (k : media_kind) : option video_info := match k with Video v => Some v | _ => None end.
Definition get_audio_info (k : media_kind) : option audio_info := match k with Audio v => Some v | _ => None end.
Definition is_video (k : media_kind) : bool := match k with Video _ => true | _ => false end.
Definition is_audio (k : media_kind) : bool := match k with Audio _ => true | _ => false end.

(** [ALIGNMENT], frame.rs:371. *)
Definition ALIGNMENT : N := 32.

(** [Plane] and [DefaultFrameBuffer], frame.rs:373-381. *)
Record plane := mk_plane { pl_buf : list N; pl_linesize : N }.
Record frame_buffer := mk_fb { fb_buf : list N; fb_planes : list plane }.

(** [DefaultFrameBuffer::linesize], [count] and [as_slice_inner], frame.rs:384-399. *)
Definition fb_linesize (b : frame_buffer) (idx : nat) : result N frame_error :=
  match nth_error (fb_planes b) idx with
  | None => Error InvalidIndex
  | Some p => Okay (pl_linesize p)
  end.
Definition fb_count (b : frame_buffer) : nat := length (fb_planes b).
Definition fb_slice (b : frame_buffer) (idx : nat) : result (list N) frame_error :=
  match nth_error (fb_planes b) idx with
  | None => Error InvalidIndex
  | Some p => Okay (pl_buf p)
  end.

(** What a write through [as_mut_slice_inner], frame.rs:400-405, leaves behind: plane
    [idx] has the new contents. *)
Definition fb_set (b : frame_buffer) (idx : nat) (data : list N) : frame_buffer :=
  match nth_error (fb_planes b) idx with
  | None => b
  | Some p => mk_fb (fb_buf b) (update (fb_planes b) idx (mk_plane data (pl_linesize p)))
  end.

(** [BytesMut::zeroed] (bytes crate): a vector of more than [isize::MAX] bytes panics.
    Running out of memory is not modelled. *)
Definition zeroed (size : N) : outcome (list N) :=
  if size <? 2 ^ 63 then Ret (repeat 0 (N.to_nat size)) else Panic.

(** [BytesMut::split_to] (bytes crate): the first [at] bytes and the rest; panics when
    there are fewer. *)
Definition split_to (buf : list N) (at_ : N) : outcome (list N * list N) :=
  if at_ <=? N.of_nat (length buf) then Ret (firstn (N.to_nat at_) buf, skipn (N.to_nat at_) buf) else Panic.

(** The two loops of [DefaultFrameBuffer::new], frame.rs:418-428 and 441-447. *)
Fixpoint video_planes (w h : N) (b : frame_buffer) (l : list (option chromaton)) : outcome frame_buffer :=
  match l with
  | [] => Ret b
  | None :: l' => video_planes w h b l'
  | Some c :: l' =>
    let! planesize := get_data_size c w h ALIGNMENT in
    let! linesize := get_linesize c w ALIGNMENT in
    let! (front, rest) := split_to (fb_buf b) planesize in
    video_planes w h (mk_fb rest (fb_planes b ++ [mk_plane front linesize])) l'
  end.
Fixpoint audio_planes (v : audio_info) (n : nat) (b : frame_buffer) : outcome frame_buffer :=
  match n with
  | O => Ret b
  | S n' =>
    let! size := get_audio_size (ai_format v) (ai_samples v) ALIGNMENT in
    let! (front, rest) := split_to (fb_buf b) size in
    audio_planes v n' (mk_fb rest (fb_planes b ++ [mk_plane front size]))
  end.

(** [DefaultFrameBuffer::new], frame.rs:409-458. *)
Definition fb_new (kind : media_kind) : outcome frame_buffer :=
  match kind with
  | Video v =>
    let! size := video_size v ALIGNMENT in
    let! buf := zeroed size in
    video_planes (vi_width v) (vi_height v) (mk_fb buf []) (fo_comps (vi_format v))
  | Audio v =>
    let! size := audio_size v ALIGNMENT in
    let! buf := zeroed size in
    if so_planar (ai_format v) then audio_planes v (length (ai_map v)) (mk_fb buf [])
    else
      let! (front, rest) := split_to buf size in
      Ret (mk_fb rest [mk_plane front size])
  end.

(** [Frame], frame.rs:463-470, on the default buffer. *)
Record frame := mk_frame { fr_kind : media_kind; fr_buf : frame_buffer; fr_t : time_info }.

(** [Frame::new_default_frame], frame.rs:474-486. *)
Definition new_default_frame (kind : media_kind) (t : option time_info) : outcome frame :=
  let! b := fb_new kind in
  Ret (mk_frame kind b (match t with Some t => t | None => default_time end)).

(** [slice::chunks(n)] and [chunks_mut(n)] of std: pieces of [n] elements, the last one
    with what is left; [n = 0] panics. *)
Fixpoint chunks_fuel {A : Type} (fuel n : nat) (l : list A) : list (list A) :=
  match fuel, l with
  | S fuel', _ :: _ => firstn n l :: chunks_fuel fuel' n (skipn n l)
  | _, _ => []
  end.
Definition chunks {A : Type} (n : nat) (l : list A) : outcome (list (list A)) :=
  match n with
  | O => Panic
  | _ => Ret (chunks_fuel (length l) n l)
  end.

(** The loop of [copy_plane], frame.rs:572-578.  [copy_nonoverlapping(s, d, width)] reads
    [width] bytes from the start of chunk [s] and writes them to the start of chunk [d];
    it is undefined behaviour when one of the two is shorter, because the pointers come
    from these slices. *)
Fixpoint copy_rows (ds ss : list (list N)) (width height : nat) : outcome (list (list N)) :=
  match height, ds, ss with
  | S h, d :: ds', s :: ss' =>
    if (width <=? length d)%nat && (width <=? length s)%nat then
      let! r := copy_rows ds' ss' width h in
      Ret ((firstn width s ++ skipn width d) :: r)
    else UB
  | _, _, _ => Ret ds
  end.

(** [copy_plane], frame.rs:561-579; the result is the new contents of [dst]. *)
Definition copy_plane (dst : list N) (dst_linesize : N) (src : list N) (src_linesize width height : N) : outcome (list N) :=
  let! ds := chunks (N.to_nat dst_linesize) dst in
  let! ss := chunks (N.to_nat src_linesize) src in
  let! rows := copy_rows ds ss (N.to_nat width) (N.to_nat height) in
  Ret (concat rows).

Definition unwrap {A : Type} (o : option A) : outcome A := match o with Some a => Ret a | None => Panic end.
Definition unwrap_ok {A E : Type} (r : result A E) : outcome A := match r with Okay a => Ret a | Error _ => Panic end.

(** [Frame::copy_plane_to_buffer], frame.rs:490-501. *)
Definition copy_plane_to_buffer (f : frame) (plane_index : nat) (dst : list N) (dst_linesize : N) : outcome (list N) :=
  match fr_kind f with
  | Video fmt =>
    let! src := unwrap_ok (fb_slice (fr_buf f) plane_index) in
    let! src_linesize := unwrap_ok (fb_linesize (fr_buf f) plane_index) in
    copy_plane dst dst_linesize src src_linesize (vi_width fmt) (vi_height fmt)
  | Audio _ => Panic
  end.

(** The loop of [Frame::copy_frame_to_buffer], frame.rs:514-523; [plane_index] goes up
    to [count]. The result is the new contents of the destinations. *)
Fixpoint copy_out (b : frame_buffer) (width height : N) (plane_index : nat) (dst : list (list N)) (dst_linesizes : list N) (comps : list (option chromaton)) : outcome (list (list N)) :=
  match dst, dst_linesizes, comps with
  | d :: dst', dl :: dls', c :: comps' =>
    if (plane_index <? fb_count b)%nat then
      let! src := unwrap_ok (fb_slice b plane_index) in
      let! sl := unwrap_ok (fb_linesize b plane_index) in
      let! c' := unwrap c in
      let! w := get_width c' width in
      let! h := get_height c' height in
      let! d' := copy_plane d dl src sl w h in
      let! r := copy_out b width height (S plane_index) dst' dls' comps' in
      Ret (d' :: r)
    else Ret dst
  | _, _, _ => Ret dst
  end.

(** [Frame::copy_frame_to_buffer], frame.rs:503-527. *)
Definition copy_frame_to_buffer (f : frame) (dst : list (list N)) (dst_linesizes : list N) : outcome (list (list N)) :=
  match fr_kind f with
  | Video fmt => copy_out (fr_buf f) (vi_width fmt) (vi_height fmt) 0 dst dst_linesizes (fo_comps (vi_format fmt))
  | Audio _ => Panic
  end.

(** The loop of [Frame::copy_from_slice], frame.rs:540-554, for the planes from [i] on;
    [as_mut_slice::<u8>] is the plane itself. *)
Fixpoint copy_in (b : frame_buffer) (width height : N) (n i : nat) (src : list (list N)) (src_linesizes : list N) (comps : list (option chromaton)) : outcome frame_buffer :=
  match n with
  | O => Ret b
  | S n' =>
    let! dl := unwrap_ok (fb_linesize b i) in
    let! sl := unwrap (hd_error src_linesizes) in
    let! data := unwrap_ok (fb_slice b i) in
    let! ss := unwrap (hd_error src) in
    let! cc := unwrap (hd_error comps) in
    let! c := unwrap cc in
    let! w := get_width c width in
    let! h := get_height c height in
    let! data' := copy_plane data dl ss sl w h in
    copy_in (fb_set b i data') width height n' (S i) (tl src) (tl src_linesizes) (tl comps)
  end.

(** [Frame::copy_from_slice], frame.rs:531-558. *)
Definition copy_from_slice (f : frame) (src : list (list N)) (src_linesizes : list N) : outcome frame :=
  match fr_kind f with
  | Video fmt =>
    let! b := copy_in (fr_buf f) (vi_width fmt) (vi_height fmt) (fb_count (fr_buf f)) 0 src src_linesizes (fo_comps (vi_format fmt)) in
    Ret (mk_frame (fr_kind f) b (fr_t f))
  | Audio _ => Panic
  end.

(** [FrameBufferConv::as_slice], frame.rs:329-333, for elements of [size] bytes: the cast
    of byte_slice_cast fails when the address of the slice is not a multiple of [size]
    or the length is not. [addr] is the address of the plane. *)
Fixpoint group (fuel size : nat) (l : list N) : list (list N) :=
  match fuel, l with
  | S fuel', _ :: _ => firstn size l :: group fuel' size (skipn size l)
  | _, _ => []
  end.
Definition as_slice (b : frame_buffer) (idx : nat) (addr : N) (size : N) : result (list (list N)) frame_error :=
  match fb_slice b idx with
  | Error e => Error e
  | Okay buf =>
    if (addr mod size =? 0) && (N.of_nat (length buf) mod size =? 0) then Okay (group (length buf) (N.to_nat size) buf)
    else Error InvalidConversion
  end.
