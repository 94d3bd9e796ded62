(** What the encoder's calls write and answer when memory may run out; as [op_result] and [op_bytes] of SpecEnc.v. *)
From Verif Require Import Base Common Lzw Encoder Stream SpecGif SpecEnc SpecDamage.
Open Scope N_scope.

(** [ok]: there is memory for the compressed pixels. Only [write_frame] needs any. *)
Definition mem_result (dbg gp ok : bool) (o : enc_op) : eres unit :=
  match o, ok, op_result dbg gp o with
  | OWriteFrame f, false, Ok _ => Err (EIo OutOfMemory)
  | _, _, r => r
  end.
(** A frame for which there is no memory leaves its control extension and its image block up to the colour table. *)
Definition mem_bytes (L : lzw_codec) (dbg gp ok : bool) (o : enc_op) : list N :=
  match o, ok, op_result dbg gp o with
  | OWriteFrame f, false, Ok _ =>
    ser_blk (control_of f) ++ 0x2C :: descriptor (image_of f 0 []) ++ im_lct (image_of f 0 [])
  | _, _, _ => op_bytes L dbg gp o
  end.
