(** Comparing two settings of the decoding options. Only the option record and the error type are used. *)
From Verif Require Import Base Common Lzw Encoder Stream.
Open Scope N_scope.

Definition limit_le (a b : memory_limit) : Prop :=
  match b with None => True | Some m => exists n, a = Some n /\ n <= m end.

(** [o'] allows everything that [o] allows: same colours, same handling of image data, no check more, no lower
    limit. *)
Definition permits (o o' : options) : Prop :=
  o_color o' = o_color o /\ o_skip_frame_decoding o' = o_skip_frame_decoding o /\
  limit_le (o_limit o) (o_limit o') /\
  (o_check_frame_consistency o' = true -> o_check_frame_consistency o = true) /\
  (o_check_for_end_code o' = true -> o_check_for_end_code o = true) /\
  (o_allow_unknown_blocks o = true -> o_allow_unknown_blocks o' = true).

(** The errors by which the stricter setting may refuse. *)
Inductive refusal (o o' : options) : derr -> Prop :=
| rf_bounds : o_check_frame_consistency o <> o_check_frame_consistency o' -> refusal o o' (DFormat FrameOutOfBounds)
| rf_end_code : o_check_for_end_code o <> o_check_for_end_code o' -> refusal o o' (DIo InvalidData)
| rf_unknown : o_allow_unknown_blocks o <> o_allow_unknown_blocks o' -> refusal o o' (DFormat UnknownBlockType)
| rf_extension : o_limit o <> o_limit o' -> refusal o o' (DFormat MemoryLimitReached)
| rf_frame : o_limit o <> o_limit o' -> refusal o o' (DIo OutOfMemory).
