(** Properties of the code that one would expect but that are false: each theorem gives a concrete
    counterexample. Where compressed data matter, the reference coder [lzw_ref] is used. *)
From Verif Require Import Base Common Lzw Encoder Stream Converter Reader LzwRef LzwRefSpec Validate.
Open Scope N_scope.

Definition fresh : writer := mk_writer [] [].
Definition out_of (e : encoder) : list N := match e_w e with Some w => w_out w | None => [] end.

(** ** Encoder *)

(** C07, the exception: [Encoder::new] interrupted by a write error in the middle of the screen
    descriptor leaves bytes that are not the beginning of any GIF file: the dropped encoder appends
    a trailer. *)
Definition faulty : writer := mk_writer [] [WAccept 8; WFail 5].
Theorem new_fault_prefix_refuted :
  exists w, snd (encoder_new w 300 200 [1; 2; 3]) = Err (EIo (OtherIo 5)) /\
    out_of (fst (encoder_new w 300 200 [1; 2; 3]))
    <> firstn (length (out_of (fst (encoder_new w 300 200 [1; 2; 3]))))
         (out_of (fst (encoder_new fresh 300 200 [1; 2; 3]))).
Proof. exists faulty. split; [vm_compute; reflexivity|vm_compute; discriminate]. Qed.

(** C10: a frame refused because of its palette has already written its control extension. *)
Definition no_palette_frame : frame := mk_frame 7 DKeep None false 0 0 1 1 false None [0].
Theorem refused_frame_unchanged_refuted : forall L dbg,
  exists e f, snd (write_frame L dbg e f) = Err (EFormat MissingColorPalette) /\
    out_of (fst (write_frame L dbg e f)) <> out_of e.
Proof.
  intros L dbg. exists (fst (encoder_new fresh 1 1 [])), no_palette_frame.
  split; [destruct dbg; vm_compute; reflexivity|destruct dbg; vm_compute; discriminate].
Qed.
(** The damage is lasting: a frame that is written next gets the control data twice, and if the
    caller gives up, the file ends with a control extension without an image. *)
Example refused_frame_leftover :
  out_of (fst (write_frame lzw_ref true (fst (encoder_new fresh 1 1 [])) no_palette_frame))
  = out_of (fst (encoder_new fresh 1 1 [])) ++ [0x21; 0xF9; 4; 4; 7; 0; 0; 0].
Proof. vm_compute. reflexivity. Qed.

(** C11: when [Encoder::new] refuses the palette, the writer has received a lone trailer byte. *)
Definition big_palette : list N := repeat 9 (N.to_nat 771).
Theorem failed_new_untouched_refuted :
  exists pal, snd (encoder_new fresh 1 1 pal) = Err (EFormat TooManyColors) /\
    out_of (fst (encoder_new fresh 1 1 pal)) = [0x3B].
Proof. exists big_palette. split; (vm_compute; reflexivity). Qed.

(** ** Streaming decoder *)

(** C16: after the trailer event, [update] with any further byte never returns. *)
Fixpoint drive {L} (fuel : nat) (s : sd L) (buf : list N) : sd L * list N * list decoded :=
  match fuel, buf with
  | S f, _ :: _ =>
    let '(s1, _, r) := update L s buf ONone in
    match r with
    | Ok (n, DBlockStart BkTrailer) => (s1, skipn n buf, [DBlockStart BkTrailer])
    | Ok (n, ev) => let '(s2, b2, l) := drive f s1 (skipn n buf) in (s2, b2, ev :: l)
    | _ => (s1, buf, [])
    end
  | _, _ => (s, buf, [])
  end.
(** A file with a comment, an empty table and a trailer. *)
Definition commented : list N :=
  GIF89a ++ [1; 0; 1; 0; 0; 0; 0; 0x21; 0xFE; 1; 65; 0; 0x3B].
Lemma trailer_stuck : forall L fuel s b t ob total,
  sd_state L s = Trailer -> exists s', update_loop L fuel s (b :: t) ob total = (s', ob, Hang).
Proof.
  induction fuel; intros s b t ob total Hs; [eexists; reflexivity|].
  cbn [update_loop]. unfold next_state. rewrite Hs. unfold goto. cbn [skipn].
  apply IHfuel. destruct s; reflexivity.
Qed.
Theorem update_returns_refuted : forall L,
  exists s rest evs, drive 20 (sd_new L options_new) commented = (s, rest, evs) /\
    rest = [] /\
    evs = [DBackgroundColor 0; DGlobalPalette []; DBlockStart BkExtension; DBlockFinished 0xFE;
           DHeaderEnd; DBlockStart BkTrailer] /\
    forall fuel b t ob, snd (update_loop L fuel s (b :: t) ob (length (b :: t))) = Hang.
Proof.
  intro L. destruct (drive 20 (sd_new L options_new) commented) as [[s rest] evs] eqn:E.
  exists s, rest, evs. split; [reflexivity|].
  assert (Hr : snd (fst (drive 20 (sd_new L options_new) commented)) = []) by (vm_compute; reflexivity).
  assert (He : snd (drive 20 (sd_new L options_new) commented)
          = [DBackgroundColor 0; DGlobalPalette []; DBlockStart BkExtension; DBlockFinished 0xFE;
             DHeaderEnd; DBlockStart BkTrailer]) by (vm_compute; reflexivity).
  assert (Hs : sd_state L (fst (fst (drive 20 (sd_new L options_new) commented))) = Trailer)
    by (vm_compute; reflexivity).
  rewrite E in Hr, He, Hs. cbn [fst snd] in *. split; [exact Hr|]. split; [exact He|].
  intros fuel b t ob. destruct (trailer_stuck L fuel s b t ob (length (b :: t)) Hs) as [s' E']. rewrite E'. reflexivity.
Qed.

(** ** Decoder *)

(** Header of a file with a 4 x 4 screen and a global table of two colours. *)
Definition head44 : list N := GIF89a ++ [4; 0; 4; 0; 0x80; 0; 0; 1; 2; 3; 4; 5; 6].
Definition img_desc (x y w h flags : N) : list N := [0x2C; x; 0; y; 0; w; 0; h; 0; flags].
Definition data_of (m : N) (px : list N) : list N :=
  let d := lz_encode lzw_ref m px in m :: len d :: d ++ [0].

(** C28: the iterator yields [None] at an interlaced frame without rows and goes on afterwards,
    although it is declared a [FusedIterator]. *)
Definition holey : list N :=
  head44 ++ img_desc 0 0 2 0 0x40 ++ data_of 2 [0] ++ img_desc 0 0 1 1 0 ++ data_of 2 [1] ++ [0x3B].
Definition two_items (src : list revent) : option (item * item) :=
  match read_info lzw_ref src options_new with
  | Ok d => let '(it1, x1) := iter_next lzw_ref umax64 (mk_iter lzw_ref d false) in
            Some (x1, snd (iter_next lzw_ref umax64 it1))
  | _ => None
  end.
Theorem iterator_fused_refuted :
  exists src f, two_items src = Some (INone, IFrame f) /\ f_width f = 1 /\ f_buffer f = [1].
Proof.
  exists [RChunk holey], (mk_frame 0 DKeep None false 0 0 1 1 false None [1]).
  split; [vm_compute; reflexivity|]. split; reflexivity.
Qed.

(** C30: with [check_lzw_end_code(true)] a file with proper end codes fails when a frame is skipped
    and when the data arrive one byte at a time. *)
Definition strict_opts : options := mk_opts (Some 50000000) CIndexed false false true false.
Definition skip_then_read (src : list revent) (o : options) : dres bool :=
  match read_info lzw_ref src o with
  | Ok d => let '(d1, _) := next_frame_info lzw_ref d in snd (next_frame_info lzw_ref d1)
  | Err e => Err e | Panic => Panic | Hang => Hang
  end.
Theorem end_code_skip_refuted :
  exists src, snd (frames_of src strict_opts) = Ok tt /\
    skip_then_read src strict_opts = Err (DIo InvalidData) /\
    skip_then_read src options_new = Ok true.
Proof. exists [RChunk beacon]. repeat split; (vm_compute; reflexivity). Qed.
Theorem end_code_bytewise_refuted :
  exists bytes, snd (frames_of [RChunk bytes] strict_opts) = Ok tt /\
    snd (frames_of (bytewise bytes) strict_opts) = Err (DIo InvalidData) /\
    snd (frames_of (bytewise bytes) options_new) = Ok tt.
Proof. exists sample_2x2. repeat split; (vm_compute; reflexivity). Qed.

(** C33: a frame with minimum code size 1, which the reader accepts, cannot be written back. *)
Definition raw_opts : options := mk_opts (Some 50000000) CIndexed false true false false.
Theorem rewrite_code_size_1_refuted :
  exists src f g, frames_of src raw_opts = ([f], Ok tt) /\
    frames_of src options_new = ([g], Ok tt) /\
    forall w h pal, snd (write_lzw_pre_encoded_frame (fst (encoder_new fresh w h pal)) f)
                    = Err (EFormat InvalidMinCodeSize).
Proof.
  exists [RChunk set_hsts],
    (mk_frame 0 DAny (Some 0) false 0 0 1 1 false None [1; 50]),
    (mk_frame 0 DAny (Some 0) false 0 0 1 1 false None [0]).
  split; [vm_compute; reflexivity|]. split; [vm_compute; reflexivity|]. intros. reflexivity.
Qed.

(** C34: without a global palette the background colour is reported unchecked. *)
Definition local_only : list N :=
  GIF89a ++ [1; 0; 1; 0; 0; 77; 0] ++ img_desc 0 0 1 1 0x80 ++ [1; 2; 3; 4; 5; 6] ++ data_of 2 [1] ++ [0x3B].
Theorem bg_color_valid_refuted : forall L,
  exists src d, read_info L src options_new = Ok d /\
    dec_bg_color L d = Some 77 /\ dec_global_palette L d = None.
Proof.
  intro L. exists [RChunk local_only].
  assert (E : match read_info L [RChunk local_only] options_new with
              | Ok d => (dec_bg_color L d, dec_global_palette L d) | _ => (None, None) end
              = (Some 77, None)) by (vm_compute; reflexivity).
  destruct (read_info L [RChunk local_only] options_new) as [d| | |]; try discriminate E.
  exists d. split; [reflexivity|]. injection E. auto.
Qed.

(** C35: extensions that the encoder writes without complaint but that the decoder cannot skip. *)
Definition dot : frame := mk_frame 0 DKeep None false 0 0 1 1 false None [1].
Definition session (ops : list enc_op) : option (list N) :=
  let '(e, r) := encoder_new fresh 4 4 [1; 2; 3; 4; 5; 6] in
  let '(e1, r1) := run_ops lzw_ref true e ops in
  match r, r1, into_inner e1 with
  | Ok _, Ok _, (_, Ok w) => Some (w_out w)
  | _, _, _ => None
  end.
Definition read_back (ops : list enc_op) (o : options) : option (nat * dres unit) :=
  match session ops with Some b => Some (summary (frames_of [RChunk b] o)) | None => None end.
Definition lenient_opts : options := mk_opts (Some 50000000) CIndexed false false false true.
Theorem empty_extension_refuted :
  exists label, read_back [ORawExt label [[65]]; OWriteFrame dot] options_new = Some (1%nat, Ok tt) /\
    read_back [ORawExt label []; OWriteFrame dot] options_new = Some (0%nat, Err (DIo UnexpectedEof)).
Proof. exists 0xFE. split; (vm_compute; reflexivity). Qed.
Theorem unknown_label_refuted :
  exists label, read_back [ORawExt label [[65]]; OWriteFrame dot] lenient_opts
                = Some (0%nat, Err (DFormat UnknownBlockType)).
Proof. exists 0x42. vm_compute. reflexivity. Qed.

(** C36: with [allow_unknown_blocks(true)] an unknown block is taken for a continuation of the
    previous extension. After a control extension it makes the file unreadable. *)
Definition with_block (blk : list N) : list N :=
  head44 ++ [0x21; 0xF9; 4; 0; 7; 0; 0; 0] ++ blk ++ img_desc 0 0 1 1 0 ++ data_of 2 [1] ++ [0x3B].
Theorem unknown_block_skipped_refuted :
  exists blk, summary (frames_of [RChunk (with_block [])] lenient_opts) = (1%nat, Ok tt) /\
    summary (frames_of [RChunk (with_block blk)] lenient_opts) = (0%nat, Err (DFormat ControlWrongLength)).
Proof. exists [0x42; 1; 65; 0]. split; (vm_compute; reflexivity). Qed.

(** C44: frames without pixels are written but not read back: read_next_frame fails, and if the
    frame was pre-encoded with an empty buffer the rest of the file is misread as well. *)
Definition void : frame := mk_frame 0 DKeep None false 0 0 0 3 false None [].
Theorem zero_size_frame_refuted :
  exists f, read_back [OWriteFrame f; OWriteFrame dot] options_new = Some (0%nat, Err (DFormat ImageTruncated)).
Proof. exists void. vm_compute. reflexivity. Qed.

(** C45: an animation without frames and without extensions is written but not read. *)
Theorem empty_animation_refuted :
  match session [] with
  | Some b => match read_info lzw_ref [RChunk b] options_new with Err (DIo UnexpectedEof) => True | _ => False end
  | None => False
  end.
Proof. vm_compute. exact I. Qed.

(** C14 on 32-bit platforms without a memory limit: allocating the frame panics. The frame header
    alone is enough. *)
Definition umax32 : N := 2 ^ 32 - 1.
Definition unlimited : options := mk_opts None CIndexed false false false false.
Definition huge : list N :=
  head44 ++ [0x2C; 0; 0; 0; 0; 255; 255; 255; 255; 0; 2; 1; 0].
Theorem panic_32bit_refuted : forall L,
  exists src d, read_info L src unlimited = Ok d /\ snd (read_next_frame L umax32 d) = Panic.
Proof.
  intro L. exists [RChunk huge].
  assert (E : match read_info L [RChunk huge] unlimited with
              | Ok d => snd (read_next_frame L umax32 d) | _ => Hang end = Panic) by (vm_compute; reflexivity).
  destruct (read_info L [RChunk huge] unlimited) as [d| | |]; try discriminate E.
  exists d. split; [reflexivity|exact E].
Qed.
(** [Decoder::buffer_size] panics there even with the default limit. *)
Theorem buffer_size_32bit_refuted : forall L,
  exists src d d', read_info L src rgba_opts = Ok d /\
    next_frame_info L d = (d', Ok true) /\ dec_buffer_size L umax32 d' = None.
Proof.
  intro L. exists [RChunk huge].
  assert (E : match read_info L [RChunk huge] rgba_opts with
              | Ok d => let '(d', x) := next_frame_info L d in Some (x, dec_buffer_size L umax32 d')
              | _ => None end = Some (Ok true, None)) by (vm_compute; reflexivity).
  destruct (read_info L [RChunk huge] rgba_opts) as [d| | |]; try discriminate E.
  destruct (next_frame_info L d) as [d' x] eqn:En. injection E as -> E.
  exists d, d'. auto.
Qed.

(** ** True-colour frames *)

(** C37: of two fully transparent pixels with different colours, only one stays transparent. *)
Definition nq0 : neuquant := mk_nq (fun _ _ _ => 0) (fun _ _ => []).
Theorem two_transparent_refuted :
  exists px ps f, forall q,
    from_rgba q 2 1 px = Some (ps, f) /\
    px = [1; 2; 3; 0; 9; 9; 9; 0] /\ f_transparent f = Some 1 /\ f_buffer f = [0; 1].
Proof.
  exists [1; 2; 3; 0; 9; 9; 9; 0]. do 2 eexists. intro q. repeat split.
Qed.

(** ** Further observations *)

(** A read error in the middle of a frame loses the frame: the next [read_next_frame] goes on with
    the following one and reports no error. *)
Definition interrupted : list revent :=
  [RChunk (head44 ++ img_desc 0 0 1 1 0 ++ [2; 2]); RErr (OtherIo 4);
   RChunk (tl (tl (data_of 2 [1])) ++ img_desc 1 1 1 1 0 ++ data_of 2 [0] ++ [0x3B])].
Definition two_reads (src : list revent) : option (dres bool * dres bool * frame) :=
  match read_info lzw_ref src options_new with
  | Ok d =>
    let '(d1, x1) := read_next_frame lzw_ref umax64 d in
    let '(d2, x2) := read_next_frame lzw_ref umax64 d1 in Some (x1, x2, dc_cur lzw_ref d2)
  | _ => None
  end.
Definition without_errors (src : list revent) : list revent :=
  filter (fun e => match e with RErr _ => false | _ => true end) src.
Theorem frame_lost_refuted :
  exists src f g, two_reads src = Some (Err (DIo (OtherIo 4)), Ok true, g) /\
    frames_of (without_errors src) options_new = ([f; g], Ok tt).
Proof.
  exists interrupted, (mk_frame 0 DKeep None false 0 0 1 1 false None [1]),
    (mk_frame 0 DKeep None false 1 1 1 1 false None [0]).
  split; (vm_compute; reflexivity).
Qed.

