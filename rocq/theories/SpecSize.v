(** How many bytes the encoder's calls write. *)
From Verif Require Import Base Common Lzw Encoder Stream SpecGif SpecEnc.
Open Scope nat_scope.

(** [n] bytes cut into sub-blocks of at most 255, each with its length in front. *)
Definition cut_room (n : nat) : nat := n + (n + 254) / 255.
(** A colour table has a power of two of entries, at least two. *)
Definition table_room (n : nat) : nat := 3 * 2 ^ Nat.max 1 (Nat.log2_up n).
Definition loop_room (r : repeat_t) : nat := match r with RFinite 0 => 0 | _ => 19 end.
(** Control extension, image descriptor, colour table, code size and [n] bytes of image data with the terminator. *)
Definition frame_room (f : frame) (n : nat) : nat :=
  8 + 10 + match f_palette f with Some p => table_room (colors p) | None => 0 end + 1 + cut_room n + 1.

(** What call [o] with result [r] has written. A frame refused because of its palette leaves a control extension. *)
Definition call_room (L : lzw_codec) (o : enc_op) (r : eres unit) : nat :=
  match r with
  | Ok _ =>
    match o with
    | OSetRepeat r | OExt (ERepetitions r) => loop_room r
    | OExt (EControl _ _ _) => 8
    | ORawExt _ data => 3 + list_sum (map (fun d => cut_room (length d)) data)
    | OWriteFrame f => frame_room f (length (lz_encode L (code_bits (f_buffer f)) (f_buffer f)))
    | OWritePre f => frame_room f (length (f_buffer f) - 1)
    end
  | Err (EFormat TooManyColors) | Err (EFormat MissingColorPalette) => 8
  | _ => 0
  end.
Fixpoint calls_room (L : lzw_codec) (ops : list enc_op) (rs : list (eres unit)) : nat :=
  match ops, rs with o :: ops, r :: rs => call_room L o r + calls_room L ops rs | _, _ => 0 end.
