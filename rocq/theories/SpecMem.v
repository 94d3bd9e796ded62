(** Vocabulary for C71: how many bytes of the file's data a decoder keeps. *)
From Verif Require Import Base Common Lzw Encoder Stream Converter Reader ConvInv DecoderSafe.
Open Scope N_scope.

Section Mem.
Variable L : lzw_codec.
Variable umax : N.

Definition opt_len (p : option (list N)) : N := match p with Some l => len l | None => 0 end.

(** A [StreamingDecoder] keeps (src/reader/decoder.rs 407-426): the bytes of a header that arrived in
    part ([internal_buffer]), the global colour table under construction, the data of the last
    extension and the frame under construction. The LZW decoder's tables have a fixed size. *)
Definition held_stream (s : sd L) : N :=
  len (sd_ibuf L s) + len (sd_gct L s) + len (sd_ext_data L s) +
  match sd_current L s with Some f => opt_len (f_palette f) + len (f_buffer f) | None => 0 end.

(** A [Decoder] (src/reader/mod.rs 219-227) also keeps the pixel converter's scratch buffer and global
    palette and the current frame. The reader's own buffer ([BufReader]) is not counted. *)
Definition held (d : dcd L) : N :=
  held_stream (rd_dec L (dc_rd L d)) +
  len (cv_buffer (dc_conv L d)) + opt_len (cv_gpal (dc_conv L d)) +
  opt_len (f_palette (dc_cur L d)) + len (f_buffer (dc_cur L d)).

(** A decoder as its user can have it ([opened]) if no buffer passed to it is longer than [B]. *)
Definition buf_within (B : N) (op : dop) : Prop :=
  match op with OpInto buf | OpFill buf => len buf <= B | _ => True end.
Inductive used_with (B : N) (src : list revent) (o : options) : dcd L -> Prop :=
| us_info d : read_info L src o = Ok d -> used_with B src o d
| us_call d op d' y : used_with B src o d -> op_ok umax op -> buf_within B op ->
    run_dop L umax d op = (d', y) -> used_with B src o d'
| us_taken d : used_with B src o d -> used_with B src o (set_cur L d (snd (frame_take (dc_cur L d))) (dc_ty L d)).

(** src/reader/mod.rs 353: the memory [read_next_frame] asks for before it copies the compressed data of
    the frame just announced ([skip_frame_decoding] only). *)
Definition copy_request (d : dcd L) : N := f_width (dc_cur L d) * f_height (dc_cur L d) / 4.
End Mem.
