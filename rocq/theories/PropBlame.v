(** C88: the errors of the decoders have their reasons in the file. *)
From Verif Require Import Base Common Lzw Encoder Stream Converter Reader StreamInv ConvInv DecoderSafe DecInv SpecGif SpecAccept SpecStream SpecCount DocAll
  SpecBlame Blame BlameDec BlameFrame LzwRef Validate PropRecolor.
Open Scope N_scope.

(** Whatever pieces of a file a new decoder was given, with any destinations: if all calls succeeded and the next one fails,
    the bytes of the file hold the fault that the error names, behind a header and blocks without fault. *)
Theorem C88_reasons : forall L o file s buf tl evs ob s' ob' e,
  lzw_safe L -> bytes_ok file -> taken L o file s (buf ++ tl) evs -> update L s buf ob = (s', ob', Err e) -> blame o file ob e.
Proof. intros L o file s buf tl evs ob s' ob' e H. exact (stream_blame L H o file s buf tl evs ob s' ob' e). Qed.
Print Assumptions C88_reasons.

(** The format errors of [read_info], for all bytes, pieces and faults of the reader. *)
Theorem C88_open : forall L src o m, lzw_safe L -> src_ok src -> read_info L src o = Err (DFormat m) ->
  blame o (concat (map ev_bytes src)) ONone (DFormat m).
Proof. intros L src o m H. exact (open_blame L H src o m). Qed.
Print Assumptions C88_open.

(** Those of [next_frame_info], behind any calls that went well. *)
Theorem C88_info : forall L umax src o d os d1 ys d2 m, lzw_safe L -> 2 ^ 32 - 1 <= umax ->
  src_ok src -> limit_ok umax (o_limit o) -> Forall (op_ok umax) os -> read_info L src o = Ok d ->
  run_dops L umax d os = (d1, ys) -> Forall went_well ys -> next_frame_info L d1 = (d2, Err (DFormat m)) ->
  blame o (concat (map ev_bytes src)) ONone (DFormat m) \/ m = NoColorTable /\ bad_colors o (concat (map ev_bytes src)).
Proof. intros L umax src o d os d1 ys d2 m H Hu. exact (info_call_blame L H umax Hu src o d os d1 ys d2 m). Qed.
Print Assumptions C88_info.

(** Those of [read_next_frame], behind any calls that went well. The size of the copied data is that of the file: the code size
    and all bytes of the data blocks; and an image is truncated only if its data have ended in the file. *)
Theorem C88_frame : forall L umax src o d os d1 ys d2 m, lzw_safe L -> 2 ^ 32 - 1 <= umax ->
  src_ok src -> limit_ok umax (o_limit o) -> Forall (op_ok umax) os -> read_info L src o = Ok d ->
  run_dops L umax d os = (d1, ys) -> Forall went_well ys -> read_next_frame L umax d1 = (d2, Err (DFormat m)) ->
  frame_blame o (concat (map ev_bytes src)) m.
Proof. intros L umax src o d os d1 ys d2 m H Hu Hs Hl. exact (frame_call_blame L H umax Hu src o Hs Hl d os d1 ys d2 m). Qed.
Print Assumptions C88_frame.

(** Those that the iterator gives, at any place. *)
Theorem C88_iter : forall L umax src o d os d1 ys n it xs m, lzw_safe L -> 2 ^ 32 - 1 <= umax ->
  src_ok src -> limit_ok umax (o_limit o) -> Forall (op_ok umax) os -> read_info L src o = Ok d ->
  run_dops L umax d os = (d1, ys) -> Forall went_well ys -> iter_all L umax n (mk_iter L d1 false) = (it, xs) ->
  In (IErr (DFormat m)) xs -> frame_blame o (concat (map ev_bytes src)) m.
Proof. intros L umax src o d os d1 ys n it xs m H Hu Hs Hl. exact (iter_blame L H umax Hu src o Hs Hl d os d1 ys n it xs m). Qed.
Print Assumptions C88_iter.

(** [read_next_frame] says 'odd-sized buffer' only of a frame without pixels, whatever was called before. *)
Theorem C88_empty : forall L umax src o d d', lzw_safe L -> 2 ^ 32 - 1 <= umax -> src_ok src -> limit_ok umax (o_limit o) ->
  opened L umax src o d -> read_next_frame L umax d = (d', Err (DFormat OddSizedBuffer)) ->
  f_width (dc_cur L d') * f_height (dc_cur L d') = 0.
Proof. intros L umax src o d d' H Hu Hs Hl. exact (empty_frame L H umax Hu src o Hs Hl d d'). Qed.
Print Assumptions C88_empty.

(** Those of the calls with a buffer of the caller; and [fill_buffer] says that there are no more pixels only if the data of an
    image have ended in the file. (C55 says when a buffer is too small.) *)
Theorem C88_fill : forall L umax src o d os d1 ys buf d2 b y, lzw_safe L -> 2 ^ 32 - 1 <= umax ->
  src_ok src -> limit_ok umax (o_limit o) -> Forall (op_ok umax) os -> read_info L src o = Ok d ->
  run_dops L umax d os = (d1, ys) -> Forall went_well ys -> fill_buffer L d1 buf = (d2, b, y) ->
  match y with
  | Err (DFormat m) => buffer_blame o (concat (map ev_bytes src)) m
  | Ok false => ended_image o (concat (map ev_bytes src))
  | _ => True
  end.
Proof. intros L umax src o d os d1 ys buf d2 b y H Hu Hs Hl. exact (fill_call_blame L H umax Hu src o Hs Hl d os d1 ys buf d2 b y). Qed.
Print Assumptions C88_fill.
Theorem C88_into : forall L umax src o d os d1 ys buf d2 b m, lzw_safe L -> 2 ^ 32 - 1 <= umax ->
  src_ok src -> limit_ok umax (o_limit o) -> Forall (op_ok umax) os -> read_info L src o = Ok d ->
  run_dops L umax d os = (d1, ys) -> Forall went_well ys -> read_into_buffer L umax d1 buf = (d2, b, Err (DFormat m)) ->
  buffer_blame o (concat (map ev_bytes src)) m \/ m = BufferTooSmall \/ m = ImageTruncated /\ ended_image o (concat (map ev_bytes src)).
Proof. intros L umax src o d os d1 ys buf d2 b m H Hu Hs Hl. exact (into_call_blame L H umax Hu src o Hs Hl d os d1 ys buf d2 b m). Qed.
Print Assumptions C88_into.

(** ** Each error does occur, with the reference codec *)
Definition bl_screen : list N := [71; 73; 70; 56; 57; 97; 4; 0; 4; 0; 0; 0; 0].
Definition bl_image (w mcs : N) : list N := [0x2C; 0; 0; 0; 0; w; 0; 1; 0; 0; mcs].
Definition bl_limited : options := mk_opts (Some 4) CIndexed true false false false.
Definition bl_copying : options := mk_opts (Some 4) CIndexed false true false false.
Example C88_signature : fails_with lzw_ref options_new [71; 73; 70; 56; 56; 97] ONone (DFormat MalformedHeader).
Proof. apply (drive_new _ _ _ _ _ 50). vm_compute. reflexivity. Qed.
Example C88_bounds : fails_with lzw_ref bl_limited (bl_screen ++ bl_image 5 2 ++ [0]) ONone (DFormat FrameOutOfBounds).
Proof. apply (drive_new _ _ _ _ _ 50). vm_compute. reflexivity. Qed.
Example C88_label : fails_with lzw_ref options_new (bl_screen ++ [0x21; 7]) ONone (DFormat UnknownBlockType).
Proof. apply (drive_new _ _ _ _ _ 50). vm_compute. reflexivity. Qed.
Example C88_block : fails_with lzw_ref options_new (bl_screen ++ [0x21; 0xFE; 1; 65; 0; 7; 0]) ONone (DFormat UnknownBlockType).
Proof. apply (drive_new _ _ _ _ _ 50). vm_compute. reflexivity. Qed.
Example C88_memory : fails_with lzw_ref bl_limited (bl_screen ++ [0x21; 0xFE; 2; 65; 66; 2; 67; 68]) ONone (DFormat MemoryLimitReached).
Proof. apply (drive_new _ _ _ _ _ 50). vm_compute. reflexivity. Qed.
Example C88_control : fails_with lzw_ref options_new (bl_screen ++ [0x21; 0xF9; 3; 0; 0; 0; 0]) ONone (DFormat ControlWrongLength).
Proof. apply (drive_new _ _ _ _ _ 50). vm_compute. reflexivity. Qed.
Example C88_code_size : fails_with lzw_ref options_new (bl_screen ++ bl_image 4 12 ++ [1; 0; 0]) ONone (DFormat InvalidMinimalCodeSize).
Proof. apply (drive_new _ _ _ _ _ 50). vm_compute. reflexivity. Qed.
Example C88_copy : fails_with lzw_ref bl_copying (bl_screen ++ bl_image 4 2 ++ [3; 0; 0; 0; 0]) (OVec [2; 9]) (DFormat MemoryLimitReached).
Proof. apply (drive_new _ _ _ _ _ 50). vm_compute. reflexivity. Qed.
Example C88_codes : fails_with lzw_ref options_new (bl_screen ++ bl_image 4 2 ++ [2; 255; 255; 0]) (OSlice [0; 0; 0; 0]) (DIo InvalidData).
Proof. apply (drive_new _ _ _ _ _ 50). vm_compute. reflexivity. Qed.
Example C88_vec : fails_with lzw_ref options_new (bl_screen ++ bl_image 4 2 ++ [2; 255; 255; 0]) (OVec []) (DIo Unsupported).
Proof. apply (drive_new _ _ _ _ _ 50). vm_compute. reflexivity. Qed.

(** The same at the decoder: an unknown label behind the header, in two pieces; and an image without colours behind one that
    has some. *)
Example C88_open_case : src_ok [RChunk (bl_screen ++ [0x21]); RChunk [7; 0]] /\
  read_info lzw_ref [RChunk (bl_screen ++ [0x21]); RChunk [7; 0]] options_new = Err (DFormat UnknownBlockType).
Proof. split; [|vm_compute; reflexivity]. repeat constructor. Qed.
Definition bl_src : list revent :=
  [RChunk (bl_screen ++ [0x2C; 0; 0; 0; 0; 1; 0; 1; 0; 0x80; 1; 2; 3; 4; 5; 6; 2; 2; 0x44; 1; 0]); RChunk (bl_image 4 2 ++ [2; 0x44; 1; 0; 0x3B])].
Example C88_info_case : src_ok bl_src /\ limit_ok umax64 (o_limit options_new) /\ Forall (op_ok umax64) [OpFrame] /\
  exists d d1 ys, read_info lzw_ref bl_src options_new = Ok d /\ run_dops lzw_ref umax64 d [OpFrame] = (d1, ys) /\ Forall went_well ys /\
    snd (next_frame_info lzw_ref d1) = Err (DFormat NoColorTable).
Proof.
  split; [repeat constructor|]. split; [left; vm_compute; discriminate|]. split; [repeat constructor|].
  destruct (rx_opened (read_info lzw_ref bl_src options_new)
    (fun d => snd (run_dops lzw_ref umax64 d [OpFrame]) = [OutBool (Ok true)] /\
      snd (next_frame_info lzw_ref (fst (run_dops lzw_ref umax64 d [OpFrame]))) = Err (DFormat NoColorTable)))
    as (d & E & K1 & K2); [vm_compute; split; reflexivity|].
  exists d. destruct (run_dops lzw_ref umax64 d [OpFrame]) as [d1 ys]. cbn [fst snd] in *. exists d1, ys. subst ys.
  split; [exact E|]. split; [reflexivity|]. split; [repeat constructor; eexists; reflexivity|exact K2].
Qed.

(** The second frame has four bytes of data, in two blocks, and five with the code size are too many. *)
Definition bl_table : list N := [0x2C; 0; 0; 0; 0; 1; 0; 1; 0; 0x80; 1; 2; 3; 4; 5; 6; 2].
Definition bl_frames : list revent := [RChunk (bl_screen ++ bl_table ++ [2; 0x44; 1; 0]); RChunk (bl_table ++ [2; 0x44]); RChunk [1; 2; 0; 0; 0; 0x3B]].
Example C88_frame_case : src_ok bl_frames /\ limit_ok umax64 (o_limit bl_copying) /\ Forall (op_ok umax64) [OpFrame] /\
  exists d d1 ys, read_info lzw_ref bl_frames bl_copying = Ok d /\ run_dops lzw_ref umax64 d [OpFrame] = (d1, ys) /\ Forall went_well ys /\
    snd (read_next_frame lzw_ref umax64 d1) = Err (DFormat MemoryLimitReached).
Proof.
  split; [repeat constructor|]. split; [left; vm_compute; discriminate|]. split; [repeat constructor|].
  destruct (rx_opened (read_info lzw_ref bl_frames bl_copying)
    (fun d => snd (run_dops lzw_ref umax64 d [OpFrame]) = [OutBool (Ok true)] /\
      snd (read_next_frame lzw_ref umax64 (fst (run_dops lzw_ref umax64 d [OpFrame]))) = Err (DFormat MemoryLimitReached)))
    as (d & E & K1 & K2); [vm_compute; split; reflexivity|].
  exists d. destruct (run_dops lzw_ref umax64 d [OpFrame]) as [d1 ys]. cbn [fst snd] in *. exists d1, ys. subst ys.
  split; [exact E|]. split; [reflexivity|]. split; [repeat constructor; eexists; reflexivity|exact K2].
Qed.
Example C88_iter_case : exists d, read_info lzw_ref bl_frames bl_copying = Ok d /\
  match snd (iter_all lzw_ref umax64 3 (mk_iter lzw_ref d false)) with [IFrame _; IErr (DFormat MemoryLimitReached); INone] => True | _ => False end.
Proof.
  destruct (rx_opened (read_info lzw_ref bl_frames bl_copying) (fun d =>
    match snd (iter_all lzw_ref umax64 3 (mk_iter lzw_ref d false)) with [IFrame _; IErr (DFormat MemoryLimitReached); INone] => True | _ => False end))
    as (d & E & K); [vm_compute; exact I|].
  exists d. split; [exact E|exact K].
Qed.

(** An image of width 0. *)
Definition bl_empty : list revent := [RChunk (bl_screen ++ [0x2C; 0; 0; 0; 0; 0; 0; 1; 0; 0x80; 1; 2; 3; 4; 5; 6; 2; 2; 0x44; 1; 0; 0x3B])].
Definition bl_rgba : options := mk_opts None CRgba false false false false.
Example C88_empty_case : src_ok bl_empty /\ limit_ok umax64 (o_limit bl_rgba) /\
  exists d, opened lzw_ref umax64 bl_empty bl_rgba d /\ snd (read_next_frame lzw_ref umax64 d) = Err (DFormat OddSizedBuffer).
Proof.
  split; [repeat constructor|]. split; [left; vm_compute; discriminate|].
  destruct (rx_opened (read_info lzw_ref bl_empty bl_rgba)
    (fun d => snd (read_next_frame lzw_ref umax64 d) = Err (DFormat OddSizedBuffer))) as (d & E & K); [vm_compute; reflexivity|].
  exists d. split; [now constructor|exact K].
Qed.
(** Too few pixels. *)
Definition bl_short : list revent := [RChunk (bl_screen ++ [0x2C; 0; 0; 0; 0; 1; 0; 2; 0; 0x80; 1; 2; 3; 4; 5; 6; 2; 2; 0x44; 1; 0; 0x3B])].
Example C88_truncated : exists d, opened lzw_ref umax64 bl_short options_new d /\
  snd (read_next_frame lzw_ref umax64 d) = Err (DFormat ImageTruncated).
Proof.
  destruct (rx_opened (read_info lzw_ref bl_short options_new)
    (fun d => snd (read_next_frame lzw_ref umax64 d) = Err (DFormat ImageTruncated))) as (d & E & K); [vm_compute; reflexivity|].
  exists d. split; [now constructor|exact K].
Qed.

(** The same with buffers of the caller: one pixel comes, a second does not. *)
Example C88_buffers : src_ok bl_short /\ limit_ok umax64 (o_limit options_new) /\ Forall (op_ok umax64) [OpInfo] /\
  exists d d1 ys, read_info lzw_ref bl_short options_new = Ok d /\ run_dops lzw_ref umax64 d [OpInfo] = (d1, ys) /\ Forall went_well ys /\
    snd (fill_buffer lzw_ref d1 [9; 9]) = Ok false /\ snd (read_into_buffer lzw_ref umax64 d1 [9; 9]) = Err (DFormat ImageTruncated).
Proof.
  split; [repeat constructor|]. split; [left; vm_compute; discriminate|]. split; [repeat constructor|].
  destruct (rx_opened (read_info lzw_ref bl_short options_new)
    (fun d => snd (run_dops lzw_ref umax64 d [OpInfo]) = [OutBool (Ok true)] /\
      snd (fill_buffer lzw_ref (fst (run_dops lzw_ref umax64 d [OpInfo])) [9; 9]) = Ok false /\
      snd (read_into_buffer lzw_ref umax64 (fst (run_dops lzw_ref umax64 d [OpInfo])) [9; 9]) = Err (DFormat ImageTruncated)))
    as (d & E & K1 & K2); [vm_compute; repeat split; reflexivity|].
  exists d. destruct (run_dops lzw_ref umax64 d [OpInfo]) as [d1 ys]. cbn [fst snd] in *. exists d1, ys. subst ys.
  split; [exact E|]. split; [reflexivity|]. split; [repeat constructor; eexists; reflexivity|exact K2].
Qed.
