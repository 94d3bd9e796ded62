(** What a reader must see in a file written by the encoder. Uses the specifications of files and
    pictures and the data types of the model only. *)
From Verif Require Import Base Common Lzw Encoder Stream SpecPixels SpecGif SpecEnc.
Open Scope N_scope.

(** The frame a reader gets when frame [f] was written with pixel stream [px] (at least
    [width * height] indices in stored row order). *)
Definition wanted (c : color_output) (gpal : list N) (f : frame) (px : list N) : frame :=
  mk_frame (f_delay f) (f_dispose f) (f_transparent f) (f_needs_user_input f)
    (f_top f) (f_left f) (f_width f) (f_height f) false
    (match f_palette f with Some p => Some (padded p) | None => None end)
    (shown c (padded (match f_palette f with Some p => p | None => gpal end)) (f_transparent f)
       (picture (N.to_nat (f_width f)) (N.to_nat (f_height f)) (f_interlaced f) px)).

(** Frames of a session with the pixel stream they carry. *)
Definition frame_of (o : enc_op) : option frame :=
  match o with OWriteFrame f | OWritePre f => Some f | _ => None end.
Inductive carries {L} (S : lzw_spec L) : enc_op -> list N -> Prop :=
| carries_frame f : carries S (OWriteFrame f) (f_buffer f)
| carries_pre f m data px : f_buffer f = m :: data -> lz_pending S (lz_new L m) data px -> carries S (OWritePre f) px.
Inductive written {L} (S : lzw_spec L) : list enc_op -> list (frame * list N) -> Prop :=
| written_nil : written S [] []
| written_frame o f px ops l : frame_of o = Some f -> carries S o px -> written S ops l -> written S (o :: ops) ((f, px) :: l)
| written_other o ops l : frame_of o = None -> written S ops l -> written S (o :: ops) l.

(** Calls whose result a reader with options [o] accepts (on a [sw] x [sh] screen): known extension
    labels with a payload, extension data and frames within the memory limit, control extensions of
    four bytes, frames on the screen if that is checked, at least one pixel per frame. *)
Definition ext_readable (o : options) (l : N) (payload : list N) : Prop :=
  known_label l /\ payload <> [] /\ (l = 0xF9 -> length payload = 4%nat) /\ fits (o_limit o) (1 + N.of_nat (length payload)).
Definition frame_readable (o : options) (umax sw sh : N) (f : frame) (px : list N) : Prop :=
  fits (o_limit o) 5 /\
  (o_check_frame_consistency o = true -> f_left f + f_width f <= sw /\ f_top f + f_height f <= sh) /\
  0 < f_width f * f_height f <= N.of_nat (length px) /\
  N.of_nat (px_bytes (o_color o)) * (f_width f * f_height f) <= umax / 2 /\
  fits (o_limit o) (N.of_nat (px_bytes (o_color o)) * (f_width f * f_height f)).
Definition call_readable (o : options) (call : enc_op) : Prop :=
  match call with
  | OSetRepeat r | OExt (ERepetitions r) => r = RFinite 0 \/ fits (o_limit o) 15
  | OExt (EControl _ _ _) => fits (o_limit o) 5
  | ORawExt l data => ext_readable o l (concat data)
  | OWriteFrame _ => True
  | OWritePre f => exists m b data, f_buffer f = m :: b :: data
  end.

(** Calls that put a block into the file (only [set_repeat(Finite(0))] does not). *)
Definition writes_block (o : enc_op) : Prop :=
  match o with OSetRepeat (RFinite 0) | OExt (ERepetitions (RFinite 0)) => False | _ => True end.

(** Loop count: the last request other than [Finite(0)] before the first frame. *)
Fixpoint last_repeat (r : repeat_t) (ops : list enc_op) : repeat_t :=
  match ops with
  | [] => r
  | (OSetRepeat n | OExt (ERepetitions n)) :: ops' => last_repeat (match n with RFinite 0 => r | _ => n end) ops'
  | (OWriteFrame _ | OWritePre _) :: _ => r
  | _ :: ops' => last_repeat r ops'
  end.
(** No hand-made application extensions. *)
Definition no_app_ext (o : enc_op) : Prop := match o with ORawExt l _ => l <> 0xFF | _ => True end.
