(** Which GIF blocks the encoder's calls stand for, after the GIF89a specification. Uses the data
    types of the model only (frames, encoder calls), none of its functions. *)
From Verif Require Import Base Common Lzw Encoder Stream SpecGif.
Open Scope N_scope.

(** ** Colour tables *)

(** Whole colours of a palette. *)
Definition colors (p : list N) : nat := (length p / 3)%nat.
(** Smallest size field whose table holds [n] colours. *)
Definition size_field (n : nat) : N :=
  match find (fun k => N.of_nat n <=? 2 ^ (k + 1)) [0; 1; 2; 3; 4; 5; 6; 7] with Some k => k | None => 7 end.
(** The palette cut to whole colours and filled up with black. *)
Definition padded (p : list N) : list N :=
  firstn (3 * colors p) p ++ repeat 0 (3 * (N.to_nat (2 ^ (size_field (colors p) + 1)) - colors p)).

(** ** Image data *)

(** Consecutive pieces of [n] elements, the last one possibly shorter. *)
Fixpoint pieces (fuel n : nat) (l : list N) : list (list N) :=
  match fuel, l with
  | S f, _ :: _ => firstn n l :: pieces f n (skipn n l)
  | _, _ => []
  end.
Definition cut_subs (l : list N) : list (list N) := pieces (length l) 255 l.

(** Smallest LZW code size (at least 2) that can express all pixels. *)
Definition code_bits (px : list N) : N :=
  match find (fun m => forallb (fun b => b <? 2 ^ m) px) [2; 3; 4; 5; 6; 7; 8] with Some m => m | None => 8 end.

(** ** Calls *)
Definition disposal_code (d : disposal) : N :=
  match d with DAny => 0 | DKeep => 1 | DBackground => 2 | DPrevious => 3 end.
Definition control_flags (d : disposal) (ui : bool) (t : option N) : N :=
  (match t with Some _ => 1 | None => 0 end) + (if ui then 2 else 0) + 4 * disposal_code d.
Definition control_blk (flags delay t : N) : blk := BExt 0xF9 [[flags] ++ word delay ++ [t]].
Definition control_of (f : frame) : blk :=
  control_blk (control_flags (f_dispose f) (f_needs_user_input f) (f_transparent f)) (f_delay f)
    (match f_transparent f with Some t => t | None => 0 end).
Definition loop_blk (n : N) : blk := BExt 0xFF [[78; 69; 84; 83; 67; 65; 80; 69; 50; 46; 48]; 1 :: word n].
Definition repeat_blks (r : repeat_t) : list blk :=
  match r with RFinite 0 => [] | RFinite n => [loop_blk n] | RInfinite => [loop_blk 0] end.

(** Image block of frame [f] with code size [m] and compressed data [data]. *)
Definition image_of (f : frame) (m : N) (data : list N) : img :=
  mk_img (f_left f) (f_top f) (f_width f) (f_height f)
    ((if f_interlaced f then 64 else 0) +
     match f_palette f with Some p => 128 + size_field (colors p) | None => 0 end)
    (match f_palette f with Some p => padded p | None => [] end)
    m (cut_subs data).
Definition frame_blks (f : frame) (m : N) (data : list N) : list blk :=
  [control_of f; BImg (image_of f m data)].

Definition op_blocks (L : lzw_codec) (o : enc_op) : list blk :=
  match o with
  | OSetRepeat r => repeat_blks r
  | OExt (ERepetitions r) => repeat_blks r
  | OExt (EControl flags delay t) => [control_blk flags delay t]
  | ORawExt l data => [BExt l (flat_map cut_subs data)]
  | OWriteFrame f => frame_blks f (code_bits (f_buffer f)) (lz_encode L (code_bits (f_buffer f)) (f_buffer f))
  | OWritePre f => match f_buffer f with
                   | [] => frame_blks f 2 []
                   | m :: data => frame_blks f m data
                   end
  end.

(** ** Which calls are refused *)
Definition palette_error (gp : bool) (f : frame) : option efmt :=
  match f_palette f with
  | Some p => if (256 <? colors p)%nat then Some TooManyColors else None
  | None => if gp then None else Some MissingColorPalette
  end.
(** [dbg]: debug assertions are enabled; [gp]: there is a non-empty global palette. *)
Definition op_result (dbg gp : bool) (o : enc_op) : eres unit :=
  match o with
  | OWriteFrame f =>
    if len (f_buffer f) <? f_width f * f_height f then Err (EIo InvalidInput)
    else if dbg && (f_width f * f_height f =? 0) && negb (is_nil (f_buffer f)) then Panic
    else match palette_error gp f with Some e => Err (EFormat e) | None => Ok tt end
  | OWritePre f =>
    match f_buffer f with
    | m :: _ => if (2 <=? m) && (m <=? 11)
                then match palette_error gp f with Some e => Err (EFormat e) | None => Ok tt end
                else Err (EFormat InvalidMinCodeSize)
    | [] => match palette_error gp f with Some e => Err (EFormat e) | None => Ok tt end
    end
  | _ => Ok tt
  end.
(** Bytes written by a call on a faultless writer. A frame refused because of its palette leaves
    its control extension behind. *)
Definition op_bytes (L : lzw_codec) (dbg gp : bool) (o : enc_op) : list N :=
  match op_result dbg gp o with
  | Ok _ => ser_blocks (op_blocks L o)
  | Err (EFormat TooManyColors) | Err (EFormat MissingColorPalette) =>
    match o with OWriteFrame f | OWritePre f => ser_blk (control_of f) | _ => [] end
  | _ => []
  end.

(** The file made by [Encoder::new(w, h, pal)] and the calls [ops]. *)
Definition enc_gif (L : lzw_codec) (w h : N) (pal : list N) (ops : list enc_op) : gif :=
  mk_gif true w h (128 + 16 * size_field (colors pal) + size_field (colors pal)) 0 0
    (padded pal) (flat_map (op_blocks L) ops).

(** Ranges that Rust's types guarantee. *)
Definition frame_rng (f : frame) : Prop :=
  u16_ok (f_delay f) /\ u16_ok (f_left f) /\ u16_ok (f_top f) /\ u16_ok (f_width f) /\ u16_ok (f_height f) /\
  (forall t, f_transparent f = Some t -> byte_ok t) /\ (forall p, f_palette f = Some p -> bytes_ok p) /\
  bytes_ok (f_buffer f).
Definition repeat_rng (r : repeat_t) : Prop := match r with RFinite n => u16_ok n | RInfinite => True end.
Definition op_rng (o : enc_op) : Prop :=
  match o with
  | OSetRepeat r => repeat_rng r
  | OExt (ERepetitions r) => repeat_rng r
  | OExt (EControl flags delay t) => byte_ok flags /\ u16_ok delay /\ byte_ok t
  | ORawExt l data => byte_ok l /\ Forall bytes_ok data
  | OWriteFrame f | OWritePre f => frame_rng f
  end.
