(** Properties C81 and C82 with the check for end codes switched on. *)
From Verif Require Import Base Common Lzw LzwErrs Encoder Stream Converter Reader LzwRef LzwRefSpec StreamInv ConvInv DecoderSafe CanonReader DocRead DocAll
  EncLin EncSession SpecGif SpecPixels SpecDamage Validate Refuted PropEnc PropDec SpecAccept SpecSound SpecOptions SpecVerdict PropVerdict PropSound
  Relax Rewrite Transcode Checked.
Open Scope N_scope.

(** C81_sound does not depend on the check: what is read is what the file says. *)
Theorem C81_sound_checked : forall L (S : lzw_spec L) umax, 2 ^ 32 - 1 <= umax -> forall (Z : lzw_errs S) src o d n d' fs,
  src_ok src -> good_src src -> limit_ok umax (o_limit o) -> o_skip_frame_decoding o = false ->
  read_info L src o = Ok d -> read_all L umax n d = (d', fs, Ok false) ->
  exists g tl obs, concat (map ev_bytes src) = ser_gif g tl /\ file_acc true o g tl /\ rd_rest L (dc_rd L d') = unread_tail g tl /\
    Forall2 (data_for Z) (acc_images g) obs /\ Forall2 (fun ci ob => shows umax o (snd ci) (fst ob)) (acc_images g) obs /\
    fs = all_seen o g (acc_images g) (map fst obs).
Proof. exact read_sound_checked. Qed.
Print Assumptions C81_sound_checked.

(** The original may be read with the check; the copy is then to be read without it (C30: the check depends on where the end code
    comes to lie). *)
Theorem C82_pixels_checked : forall L (S : lzw_spec L) umax, 2 ^ 32 - 1 <= umax ->
  forall (Z : lzw_errs S) o1 o2 src1 src2 d1 d1' fs1 d2 d2' fs2 n,
  src_ok src1 -> good_src src1 -> src_ok src2 -> good_src src2 -> concat (map ev_bytes src1) = concat (map ev_bytes src2) ->
  o_color o1 = CIndexed -> o_skip_frame_decoding o1 = false -> limit_ok umax (o_limit o1) ->
  o_skip_frame_decoding o2 = false -> limit_ok umax (o_limit o2) -> fits (o_limit o2) 15 ->
  read_info L src1 o1 = Ok d1 -> read_all L umax n d1 = (d1', fs1, Ok false) ->
  read_info L src2 o2 = Ok d2 -> read_all L umax n d2 = (d2', fs2, Ok false) ->
  fs1 <> [] -> Forall (fun f => 0 < f_width f * f_height f /\ bytes_ok (f_buffer f)) fs1 ->
  forall w dbg, Forall harmless (w_plan w) -> w_out w = [] ->
  exists e1 e2 e3 w3, encoder_new w (dec_width L d1) (dec_height L d1) (or_empty (dec_global_palette L d1)) = (e1, Ok tt) /\
    run_ops L dbg e1 (copy_ops (dec_repeat L d1) fs1) = (e2, Ok tt) /\ into_inner e2 = (e3, Ok w3) /\
    forall src3 tl3, delivers src3 (w_out w3 ++ tl3) ->
    exists d3 d3', read_info L src3 (no_end_check o2) = Ok d3 /\ read_all L umax n d3 = (d3', fs2, Ok false) /\
      dec_width L d3 = dec_width L d2 /\ dec_height L d3 = dec_height L d2 /\ dec_repeat L d3 = dec_repeat L d2 /\
      dec_global_palette L d3 = Some (match dec_global_palette L d2 with Some p => p | None => repeat 0 6 end) /\ rd_rest L (dc_rd L d3') = tl3.
Proof. exact copy_pixels_checked. Qed.
Print Assumptions C82_pixels_checked.

(** The hypotheses of both hold for a file read with the check. *)
Definition strict_src : list revent := [RChunk sample_2x2].
Definition checked (c : color_output) : options := mk_opts (Some 50000000) c false false true false.
Lemma ran {D F : Type} (o : dres D) (f : D -> D * F * dres bool) (ok : F -> bool) :
  match o with Ok d => match f d with (_, fs, Ok false) => ok fs | _ => false end | _ => false end = true ->
  exists d d' fs, o = Ok d /\ f d = (d', fs, Ok false) /\ ok fs = true.
Proof.
  destruct o as [d|e| |]; try discriminate. destruct (f d) as [[d' fs] [[|]|e| |]] eqn:E; try discriminate. intros H. now exists d, d', fs.
Qed.
Example C81_sound_checked_case : exists d d' fs, read_info lzw_ref strict_src (checked CRgba) = Ok d /\
  read_all lzw_ref umax64 3 d = (d', fs, Ok false) /\ (length fs =? 1)%nat = true.
Proof. apply (ran _ (read_all lzw_ref umax64 3)). vm_compute. reflexivity. Qed.
Example C82_pixels_checked_case : exists d d' fs, read_info lzw_ref strict_src (checked CIndexed) = Ok d /\
  read_all lzw_ref umax64 3 d = (d', fs, Ok false) /\
  (length fs =? 1)%nat && forallb (fun f => (0 <? f_width f * f_height f) && forallb (fun b => b <? 256) (f_buffer f)) fs = true.
Proof. apply (ran _ (read_all lzw_ref umax64 3)). vm_compute. reflexivity. Qed.
