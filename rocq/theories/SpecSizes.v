(** The sizes and palettes a [Decoder] announces, stated from the file or from the dimensions of the frame alone. *)
From Verif Require Import Base Common Lzw Encoder Stream Converter Reader SpecGif SpecPixels DocRead.
Open Scope N_scope.

(** Bytes per pixel. *)
Definition bpp (c : color_output) : N := match c with CIndexed => 1 | CRgba => 4 end.
(** What a [usize] can hold. *)
Definition in_usize (umax n : N) : option N := if n <=? umax then Some n else None.

(** The buffer that the caller gave was too short. *)
Definition buffer_fault {A} (r : dres A) : Prop := r = Err (DFormat BufferTooSmall) \/ r = Err (DFormat OddSizedBuffer).

(** [while let Some(_) = decoder.next_frame_info()? { .. }] with all that the decoder tells about the frame and
    its buffers: [line_length], [buffer_size], [palette]. *)
Fixpoint announce_all (L : lzw_codec) (umax : N) (n : nat) (d : dcd L) : list (N * option N * dres (list N)) * dres bool :=
  match n with
  | O => ([], Ok true)
  | S n' =>
    let '(d1, x) := next_frame_info L d in
    match x with
    | Ok true =>
      let '(l, y) := announce_all L umax n' d1 in
      ((dec_line_length L d1, dec_buffer_size L umax d1, dec_palette L d1) :: l, y)
    | _ => ([], x)
    end
  end.

(** What it should tell about image [i] of the file [g]: width times bytes per pixel, that times the height, and
    the image's own colour table or else the file's. *)
Definition announced (umax : N) (o : options) (g : gif) (i : img) : N * option N * dres (list N) :=
  (im_w i * bpp (o_color o), in_usize umax (im_w i * bpp (o_color o) * im_h i), Ok (pal_of g i)).
