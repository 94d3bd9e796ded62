(** Comparing the two colour outputs: what a caller sees who asks for RGBA, against a caller who asks for palette
    indices and looks the colours up. *)
From Verif Require Import Base Common Lzw Encoder Stream Converter Reader SpecPixels.
Open Scope nat_scope.

(** The same options with palette indices. *)
Definition indexed (o : options) : options :=
  mk_opts (o_limit o) CIndexed (o_check_frame_consistency o) (o_skip_frame_decoding o) (o_check_for_end_code o)
    (o_allow_unknown_blocks o).

(** The same calls; slices for RGBA have four times the length. *)
Inductive same_call : dop -> dop -> Prop :=
| sc_info : same_call OpInfo OpInfo
| sc_frame : same_call OpFrame OpFrame
| sc_into : forall b4 b1, length b4 = 4 * length b1 -> same_call (OpInto b4) (OpInto b1)
| sc_fill : forall b4 b1, length b4 = 4 * length b1 -> same_call (OpFill b4) (OpFill b1).

(** The first [n] pixels were written, in colours on the one side and as indices on the other; the rest of both slices
    is as it was. *)
Definition filled (pal : list N) (tr : option N) (n : nat) (old4 old1 b4 b1 : list N) : Prop :=
  n <= length old1 /\ length b1 = length old1 /\ skipn n b1 = skipn n old1 /\
  b4 = paint pal tr (firstn n b1) old4 ++ skipn (4 * n) old4.

(** Two errors that only RGBA output has: a frame that needs too much memory in four bytes per pixel, and a slice
    without room for a pixel. *)
Definition rgba_only {A} (x : dres A) : Prop :=
  x = Err (DIo OutOfMemory) \/ x = Err (DFormat OddSizedBuffer).

(** The same answers. [f] is the frame that is being read, [pal] its palette. *)
Inductive same_answer (pal : list N) (f : frame) : dop -> dop -> dout -> dout -> Prop :=
| sa_bool : forall op op' x, same_answer pal f op op' (OutBool x) (OutBool x)
| sa_into : forall old4 old1 b4 b1 x,
    (x = Ok tt -> filled pal (f_transparent f) (N.to_nat (f_width f * f_height f)) old4 old1 b4 b1) ->
    same_answer pal f (OpInto old4) (OpInto old1) (OutInto b4 x) (OutInto b1 x)
| sa_fill : forall old4 old1 b4 b1 x,
    (x = Ok true -> filled pal (f_transparent f) (length old1) old4 old1 b4 b1) ->
    (x = Ok false -> exists n, filled pal (f_transparent f) n old4 old1 b4 b1) ->
    same_answer pal f (OpFill old4) (OpFill old1) (OutFill b4 x) (OutFill b1 x).

(** A frame delivered in RGBA and the same frame delivered as indices. Compressed data are the same. *)
Definition recoloured (skip : bool) (pal : list N) (f4 f1 : frame) : Prop :=
  f4 = set_buffer f1 (if skip then f_buffer f1 else shown CRgba pal (f_transparent f1) (f_buffer f1)).

Section D.
Variable L : lzw_codec.
Variable umax : N.
(** [skip_frame_decoding] *)
Variable skip : bool.

(** The palette of the frame that is being read. *)
Definition pal_now (d : dcd L) : list N := match dec_palette L d with Ok p => p | _ => [] end.

(** Everything that a caller can see of the two decoders. *)
Definition same_look (d4 d1 : dcd L) : Prop :=
  recoloured skip (pal_now d1) (dc_cur L d4) (dc_cur L d1) /\
  dec_palette L d4 = dec_palette L d1 /\ dec_global_palette L d4 = dec_global_palette L d1 /\
  dec_width L d4 = dec_width L d1 /\ dec_height L d4 = dec_height L d1 /\ dec_bg_color L d4 = dec_bg_color L d1 /\
  dec_repeat L d4 = dec_repeat L d1 /\ dec_into_inner L d4 = dec_into_inner L d1 /\
  dec_line_length L d4 = (4 * dec_line_length L d1)%N /\
  match dec_buffer_size L umax d4 with
  | Some n => exists m, dec_buffer_size L umax d1 = Some m /\ n = (4 * m)%N
  | None => True
  end.

(** The decoder and the answers along a sequence of calls. *)
Fixpoint watch (d : dcd L) (os : list dop) : list (dop * dcd L * dout * dcd L) :=
  match os with
  | [] => []
  | o :: os' => let '(d1, y) := run_dop L umax d o in (o, d, y, d1) :: watch d1 os'
  end.
(** One call on both sides. *)
Definition same_step (p4 p1 : dop * dcd L * dout * dcd L) : Prop :=
  let '(o4, _, y4, e4) := p4 in
  let '(o1, d1, y1, e1) := p1 in
  same_answer (pal_now d1) (dc_cur L d1) o4 o1 y4 y1 /\ same_look e4 e1.
Definition rgba_only_out (y : dout) : Prop :=
  match y with OutBool x => rgba_only x | OutInto _ x => rgba_only x | OutFill _ x => rgba_only x end.
(** The answers of the two iterators; [gp] is the global palette. *)
Inductive same_item (gp : option (list N)) : item -> item -> Prop :=
| si_none : same_item gp INone INone
| si_err : forall e, same_item gp (IErr e) (IErr e)
| si_frame : forall pal f4 f1, recoloured skip pal f4 f1 ->
    match f_palette f1 with Some p => pal = p | None => gp = Some pal end -> same_item gp (IFrame f4) (IFrame f1).
(** A frame and the answer from [FrameDecoder]; a refused frame is as it was. *)
Definition same_decoded (gp : option (list N)) (y4 y1 : frame * dres unit) : Prop :=
  snd y4 = snd y1 /\
  match snd y1 with
  | Ok _ => exists pal, recoloured false pal (fst y4) (fst y1) /\
      match f_palette (fst y1) with Some p => pal = p | None => pal = match gp with Some p => p | None => [] end end
  | _ => fst y4 = fst y1
  end.
End D.
