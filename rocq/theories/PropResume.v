(** Property C77: errors of the reader in the middle of an image. *)
From Verif Require Import Base Common Lzw Encoder Stream Converter Reader ConvInv DecoderSafe DecInv SpecPixels SpecGif PixelRead DocAll
  CanonReader Resume LzwRef LzwRefSpec Validate Refuted PropDec.
Open Scope N_scope.

(** A call of [fill_buffer] that fails because of an error or a temporary end of the source ([pause]) has stored some whole
    pixels, not all; a call for the rest of the slice gets what the first would have got without that ([calm]). *)
Theorem C77_fill : forall L, lzw_safe L -> forall umax, 2 ^ 32 - 1 <= umax -> forall src o d,
  src_ok src -> limit_ok umax (o_limit o) -> Forall fitful src -> opened L umax src o d ->
  forall buf d1 b1 x, fill_buffer L d buf = (d1, b1, x) ->
  if paused x
  then exists k, (k = 0 \/ k < length buf)%nat /\ (k mod bpp (o_color o) = 0)%nat /\
     fill_buffer L (calm_dec L d) buf = let '(d2, b, y) := fill_buffer L (calm_dec L d1) (skipn k b1) in (d2, firstn k b1 ++ b, y)
  else fill_buffer L (calm_dec L d) buf = (calm_dec L d1, b1, x).
Proof. exact fill_resumes. Qed.
(** A program that asks for one pixel at a time and repeats every call that failed that way sees nothing of the pauses. *)
Theorem C77_program : forall L, lzw_safe L -> forall umax, 2 ^ 32 - 1 <= umax -> forall src o d n ops,
  src_ok src -> limit_ok umax (o_limit o) -> Forall fitful src -> (pauses src <= n)%nat ->
  read_info L src o = Ok d -> Forall (by_pixel (o_color o)) ops ->
  exists d', read_info L (calm src) o = Ok d' /\ snd (persist_all L umax n d ops) = snd (run_dops L umax d' ops).
Proof. exact persist_program. Qed.
Print Assumptions C77_fill.
Print Assumptions C77_program.

Definition persisting (src : list revent) (ops : list dop) : list dout :=
  match read_info lzw_ref src options_new with Ok d => snd (persist_all lzw_ref umax64 100 d ops) | _ => [] end.
(** With a larger slice the same program misplaces pixels and does not notice: how many were stored before the error is not told. *)
Theorem C77_larger_slice_refuted : exists src f, Forall fitful src /\ frames_of (calm src) options_new = ([f], Ok tt) /\
  f_buffer f = [1; 0; 1; 0] /\
  persisting src [OpInfo; OpFill [9; 9; 9; 9]; OpInfo] = [OutBool (Ok true); OutFill [0; 1; 0; 9] (Ok false); OutBool (Ok false)].
Proof.
  exists (map (fun b => RChunk [b]) (head44 ++ img_desc 0 0 2 2 0 ++ firstn 3 (data_of 2 [1; 0; 1; 0])) ++ RErr (OtherIo 1) ::
    map (fun b => RChunk [b]) (skipn 3 (data_of 2 [1; 0; 1; 0]) ++ [0x3B])).
  eexists. split; [vm_compute; repeat constructor|]. split; [vm_compute; reflexivity|]. split; vm_compute; reflexivity.
Qed.
Print Assumptions C77_larger_slice_refuted.

(** The example file with an error and a temporary end before every byte of its images, read pixel by pixel. *)
Definition dx_fitful : list revent :=
  RChunk (firstn 60 (ser_gif dx_gif [])) :: flat_map (fun b => [RErr (OtherIo 1); RChunk []; RChunk [b]]) (skipn 60 (ser_gif dx_gif [])).
Definition dx_calls : list dop := OpInfo :: repeat (OpFill [9]) 11 ++ OpInfo :: repeat (OpFill [9]) 2 ++ [OpInfo].
Example C77_case : persisting dx_fitful dx_calls =
  OutBool (Ok true) :: map (fun b => OutFill [b] (Ok true)) [0; 1; 2; 0; 1; 2; 3; 3; 3; 3] ++ OutFill [9] (Ok false) ::
  OutBool (Ok true) :: map (fun b => OutFill [b] (Ok true)) [1; 0] ++ [OutBool (Ok false)] /\
  exists d d', read_info lzw_ref dx_fitful options_new = Ok d /\ read_info lzw_ref (calm dx_fitful) options_new = Ok d' /\
    snd (persist_all lzw_ref umax64 100 d dx_calls) = snd (run_dops lzw_ref umax64 d' dx_calls).
Proof.
  split; [vm_compute; reflexivity|].
  assert (X : match read_info lzw_ref dx_fitful options_new with Ok _ => true | _ => false end = true) by (vm_compute; reflexivity).
  destruct (read_info lzw_ref dx_fitful options_new) as [d| | |] eqn:E; try discriminate X. exists d.
  destruct (C77_program lzw_ref (lz_is_safe _ lzw_ref_spec) umax64 dx_umax dx_fitful options_new d 100 dx_calls) as (d' & A & B).
  - apply src_okb. vm_compute. reflexivity.
  - exact dx_limit.
  - vm_compute. repeat constructor.
  - vm_compute. lia.
  - exact E.
  - repeat constructor.
  - exists d'. auto.
Qed.
