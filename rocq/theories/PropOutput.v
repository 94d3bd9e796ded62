(** Property C58: what the streaming decoder puts into the destinations it is given. *)
From Verif Require Import Base Common Lzw Encoder Stream LzwRef LzwRefSpec DecoderSafe SpecGif SpecEnc SpecRound SpecStream
  SpecWatch SpecOutput EncSession RoundProps DocAll StreamOut Validate Refuted PropEnc PropDec.
Open Scope N_scope.

(** ** What a call reports is what it wrote *)
Theorem C58_exact : forall L, lzw_safe L -> forall o s buf tl evs ob s' ob' n d,
  driven L o s (buf ++ tl) evs -> update L s buf ob = (s', ob', Ok (n, d)) ->
  (n <= length buf)%nat /\ length (taken (amount d) ob') = amount d /\ ob' = put ob (taken (amount d) ob') /\
  (forall k, d = DLzwDataCopied k -> ob <> ONone -> exists front, firstn n buf = front ++ taken k ob').
Proof. exact update_exact. Qed.
Print Assumptions C58_exact.

(** ** The pieces put together are the data of the images *)
Theorem C58_collect : forall L (S : lzw_spec L) o g tl outs, gif_ok o g ->
  Forall2 (image_data L S o) (gif_images g) outs ->
  forall s rest obs imgs cur, collected L o (ser_gif g tl) s rest obs imgs cur ->
  right_so_far outs imgs cur /\
  exists missing, file_sights o g = obs ++ missing /\ (missing = [] -> rest = tl /\ imgs = outs /\ cur = None) /\
    (missing <> [] -> rest <> [] /\
       forall buf r ob, rest = buf ++ r -> (cur <> None -> accepted o buf ob) ->
       exists s' ob' n d, update L s buf ob = (s', ob', Ok (n, d)) /\ (d = DNothing -> n = length buf)).
Proof. exact collect_report. Qed.
Theorem C58_complete : forall L (S : lzw_spec L) o g tl outs, gif_ok o g ->
  Forall2 (image_data L S o) (gif_images g) outs ->
  forall s rest obs imgs cur, collected L o (ser_gif g tl) s rest obs imgs cur ->
  exists s', collected L o (ser_gif g tl) s' tl (file_sights o g) outs None.
Proof. exact collect_complete. Qed.
Theorem C58_session : forall L (S : lzw_spec L) umax, 2 ^ 32 - 1 <= umax ->
  forall o w sw sh pal dbg ops e1 e2 e3 w3 frames tl,
  u16_ok sw -> u16_ok sh -> bytes_ok pal -> Forall op_rng ops ->
  encoder_new w sw sh pal = (e1, Ok tt) -> run_ops L dbg e1 ops = (e2, Ok tt) -> into_inner e2 = (e3, Ok w3) ->
  w_out w = [] -> Forall (call_readable o) ops -> written S ops frames -> Exists writes_block ops ->
  Forall (fun p => frame_readable o umax sw sh (fst p) (snd p)) frames ->
  o_check_for_end_code o = false -> o_skip_frame_decoding o = false ->
  (forall s rest obs imgs cur, collected L o (w_out w3 ++ tl) s rest obs imgs cur -> right_so_far (map snd frames) imgs cur) /\
  exists s, collected L o (w_out w3 ++ tl) s tl (file_sights o (enc_gif L sw sh pal ops)) (map snd frames) None.
Proof. exact session_collect. Qed.
Print Assumptions C58_collect.
Print Assumptions C58_complete.
Print Assumptions C58_session.

(** The sample file, with room for three bytes and then for one; with the compressed data appended to vectors. *)
Example C58_exact_case :
  feed lzw_ref (sd_new lzw_ref options_new) sample_2x2 (repeat ONone 7 ++ [OSlice [9; 9; 9]; OSlice [9]; ONone]) =
    [(DBackgroundColor 0, []); (DGlobalPalette [255; 255; 255; 0; 0; 0], []); (DBlockStart BkExtension, []);
     (DBlockFinished 249, []); (DHeaderEnd, []); (DBlockStart BkImage, []); (DFrameMetadata FPixels, []);
     (DBytesDecoded 3, [1; 0; 0]); (DBytesDecoded 1, [1]); (DDataEnd, [])] /\
  skipn 7 (feed lzw_ref (sd_new lzw_ref raw_opts) sample_2x2 (repeat ONone 7 ++ [OSlice [9; 9]; OVec [7]; ONone])) =
    [(DLzwDataCopied 2, [12; 16]); (DLzwDataCopied 1, [5]); (DDataEnd, [])].
Proof. split; vm_compute; reflexivity. Qed.
Lemma dx_data : Forall2 (image_data lzw_ref lzw_ref_spec rgba_opts) (gif_images dx_gif) dx_outs.
Proof.
  constructor; [|constructor; [|constructor]]; (split; [reflexivity|]); [exact dx_pending1|exact dx_pending2].
Qed.
Example C58_collect_case : exists s,
  collected lzw_ref rgba_opts (ser_gif dx_gif dx_tail) s dx_tail (file_sights rgba_opts dx_gif) dx_outs None.
Proof.
  exact (C58_complete lzw_ref lzw_ref_spec rgba_opts dx_gif dx_tail dx_outs (dx_ok _ (or_introl eq_refl)) dx_data
    _ _ _ _ _ (co_new lzw_ref rgba_opts _)).
Qed.
Example C58_raw_case : exists s,
  collected lzw_ref raw_opts (ser_gif dx_gif dx_tail) s dx_tail (file_sights raw_opts dx_gif)
    (map (fun ci => payload (im_subs (snd ci))) (gif_images dx_gif)) None.
Proof.
  assert (H : Forall2 (image_data lzw_ref lzw_ref_spec raw_opts) (gif_images dx_gif)
    (map (fun ci => payload (im_subs (snd ci))) (gif_images dx_gif))).
  { induction (gif_images dx_gif); constructor; [reflexivity|assumption]. }
  exact (C58_complete lzw_ref lzw_ref_spec raw_opts dx_gif dx_tail _ (dx_ok _ (or_intror (or_intror eq_refl))) H
    _ _ _ _ _ (co_new lzw_ref raw_opts _)).
Qed.
Example C58_session_case : exists s,
  collected lzw_ref rgba_opts (ex_file ++ [65; 66]) s [65; 66] (file_sights rgba_opts (enc_gif lzw_ref 4 4 ex_pal ex_ops))
    (map snd ex_frames) None.
Proof.
  destruct ex_runs as (e3 & w3 & H1 & H2 & H3 & H4).
  assert (Hu : 2 ^ 32 - 1 <= umax64) by (vm_compute; discriminate).
  assert (Hp : bytes_ok ex_pal) by crush_rng.
  destruct (C58_session lzw_ref lzw_ref_spec umax64 Hu rgba_opts ex_w 4 4 ex_pal true ex_ops ex_e1 ex_e2 e3 w3 ex_frames
     [65; 66] eq_refl eq_refl Hp ex_rng H1 H2 H3 eq_refl (proj1 ex_readable) ex_written ex_block (proj2 ex_readable) eq_refl eq_refl) as (_ & s & H).
  rewrite H4 in H. exists s. exact H.
Qed.

(** Without the condition on the destinations the data need not be complete: one call with an empty slice,
    and the picture is gone, although no call fails. *)
Theorem C58_empty_slice_refuted : exists (L : lzw_codec) (_ : lzw_spec L) file dests1 dests2 evs,
  map fst (feed L (sd_new L options_new) file (dests1 ++ dests2)) = evs ++ [DBytesDecoded 4; DDataEnd] /\
  concat (map snd (feed L (sd_new L options_new) file (dests1 ++ dests2))) = [1; 0; 0; 1] /\
  map fst (feed L (sd_new L options_new) file (dests1 ++ [OSlice []] ++ dests2)) = evs ++ [DDataEnd; DBlockStart BkTrailer; DNothing] /\
  concat (map snd (feed L (sd_new L options_new) file (dests1 ++ [OSlice []] ++ dests2))) = [].
Proof.
  exists lzw_ref, lzw_ref_spec, sample_2x2, (repeat ONone 7), (repeat (OSlice [9; 9; 9; 9]) 2).
  exists [DBackgroundColor 0; DGlobalPalette [255; 255; 255; 0; 0; 0]; DBlockStart BkExtension; DBlockFinished 249;
     DHeaderEnd; DBlockStart BkImage; DFrameMetadata FPixels].
  split; [vm_compute; reflexivity|]. split; [vm_compute; reflexivity|]. split; vm_compute; reflexivity.
Qed.
Print Assumptions C58_empty_slice_refuted.
