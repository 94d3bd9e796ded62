(** Properties C32, C33, C37, C38, C44: frames outside a file - FrameDecoder, frames written back without
    decoding them, and the frame constructors. *)
From Verif Require Import Base Common Lzw Encoder Stream Converter Reader LzwRef LzwRefSpec ConvInv SpecGif SpecPixels
  SpecEnc SpecRound EncLin EncSpec EncSession DocAll FrameProps FrameInv Rewrite Validate Refuted PropEnc PropDec.
Open Scope N_scope.

(** ** C32 *)
Theorem C32_inverts : forall L (S : lzw_spec L) umax, lzw_eager S -> 2 ^ 32 - 1 <= umax ->
  forall fd f, fd_fit L S fd -> bytes_ok (f_buffer f) ->
  0 < f_width f * f_height f <= N.of_nat (length (f_buffer f)) ->
  N.of_nat (px_bytes (cv_color (fd_conv L fd))) * (f_width f * f_height f) <= umax / 2 ->
  fits (cv_limit (fd_conv L fd)) (N.of_nat (px_bytes (cv_color (fd_conv L fd))) * (f_width f * f_height f)) ->
  exists fd', decode_lzw_encoded_frame L umax fd (make_lzw_pre_encoded L f) =
    (fd', set_interlaced (set_buffer f
            (shown (cv_color (fd_conv L fd)) (match f_palette f, cv_gpal (fd_conv L fd) with Some p, _ | None, Some p => p | None, None => [] end) (f_transparent f)
               (picture (N.to_nat (f_width f)) (N.to_nat (f_height f)) (f_interlaced f) (f_buffer f)))) false, Ok tt) /\
    fd_fit L S fd' /\ same_settings (fd_conv L fd) (fd_conv L fd').
Proof. exact decode_pre_encoded. Qed.
Theorem C32_unread : forall L (S : lzw_spec L) umax, 2 ^ 32 - 1 <= umax -> lzw_eager S ->
  forall o1 o2 g tl1 tl2 src1 src2 outs n, gif_ok o1 g -> gif_ok o2 g ->
  delivers src1 (ser_gif g tl1) -> delivers src2 (ser_gif g tl2) ->
  o_skip_frame_decoding o1 = true -> o_skip_frame_decoding o2 = false -> o_check_for_end_code o2 = false ->
  Forall (fun ci => fits (o_limit o1) (1 + len (payload (im_subs (snd ci))))) (gif_images g) ->
  Forall2 (holds L S umax o2) (gif_images g) outs -> (length outs < n)%nat ->
  exists d1 d1' d2 d2' raw fs fd,
    read_info L src1 o1 = Ok d1 /\ read_all L umax n d1 = (d1', raw, Ok false) /\
    read_info L src2 o2 = Ok d2 /\ read_all L umax n d2 = (d2', fs, Ok false) /\
    length fs = length outs /\ decode_each L umax (fd_for_file L o2 (dec_global_palette L d1)) raw = (fd, fs, Ok tt).
Proof. exact unread_decodes. Qed.
Print Assumptions C32_inverts.
Print Assumptions C32_unread.
Example C32_case : exists fd', decode_lzw_encoded_frame lzw_ref umax64 (fd_new lzw_ref options_new) (make_lzw_pre_encoded lzw_ref ex_f1)
  = (fd', set_interlaced (set_buffer ex_f1 [0; 1; 1; 2; 2; 0]) false, Ok tt).
Proof.
  destruct (C32_inverts lzw_ref lzw_ref_spec umax64 lzw_ref_eager dx_umax (fd_new lzw_ref options_new) ex_f1
    (fd_fit_new lzw_ref lzw_ref_spec options_new eq_refl)) as (fd' & E & _).
  - apply bytes_by. reflexivity.
  - vm_compute. split; [reflexivity|discriminate].
  - vm_compute. discriminate.
  - vm_compute. discriminate.
  - exists fd'. exact E.
Qed.
Example C32_unread_case : exists d1 d1' d2 d2' raw fs fd,
    read_info lzw_ref dx_src raw_opts = Ok d1 /\ read_all lzw_ref umax64 3 d1 = (d1', raw, Ok false) /\
    read_info lzw_ref dx_src rgba_opts = Ok d2 /\ read_all lzw_ref umax64 3 d2 = (d2', fs, Ok false) /\
    length fs = length dx_outs /\
    decode_each lzw_ref umax64 (fd_for_file lzw_ref rgba_opts (dec_global_palette lzw_ref d1)) raw = (fd, fs, Ok tt).
Proof.
  apply (C32_unread lzw_ref lzw_ref_spec umax64 dx_umax lzw_ref_eager raw_opts rgba_opts dx_gif dx_tail dx_tail dx_src dx_src dx_outs 3
    (dx_ok _ (or_intror (or_intror eq_refl))) (dx_ok _ (or_introl eq_refl)) dx_delivers dx_delivers eq_refl eq_refl eq_refl).
  - repeat constructor; vm_compute; discriminate.
  - exact (dx_holds _ (or_introl eq_refl)).
  - cbn. lia.
Qed.

(** ** C33 *)
Theorem C33_rewrite : forall L (S : lzw_spec L) umax, 2 ^ 32 - 1 <= umax ->
  forall o1 o2 g tl1 tl2 src1 src2 outs n, gif_ok o1 g -> gif_ok o2 g ->
  delivers src1 (ser_gif g tl1) -> delivers src2 (ser_gif g tl2) ->
  o_skip_frame_decoding o1 = true -> o_skip_frame_decoding o2 = false -> o_check_for_end_code o2 = false ->
  Forall (fun ci => fits (o_limit o1) (1 + len (payload (im_subs (snd ci))))) (gif_images g) ->
  Forall2 (holds L S umax o2) (gif_images g) outs -> (length outs < n)%nat ->
  gif_images g <> [] -> Forall (fun ci => 2 <= im_mcs (snd ci)) (gif_images g) -> fits (o_limit o2) 15 ->
  exists d1 d1' d2 d2' raw fs,
    read_info L src1 o1 = Ok d1 /\ read_all L umax n d1 = (d1', raw, Ok false) /\
    read_info L src2 o2 = Ok d2 /\ read_all L umax n d2 = (d2', fs, Ok false) /\ length fs = length outs /\
    forall w dbg, Forall harmless (w_plan w) -> w_out w = [] ->
    exists e1 e2 e3 w3,
      encoder_new w (dec_width L d1) (dec_height L d1) (or_empty (dec_global_palette L d1)) = (e1, Ok tt) /\
      run_ops L dbg e1 (rewrite_ops (dec_repeat L d1) raw) = (e2, Ok tt) /\ into_inner e2 = (e3, Ok w3) /\
      forall src3 tl3, delivers src3 (w_out w3 ++ tl3) ->
      exists d3 d3', read_info L src3 o2 = Ok d3 /\ read_all L umax n d3 = (d3', fs, Ok false) /\
        dec_width L d3 = dec_width L d2 /\ dec_height L d3 = dec_height L d2 /\ dec_repeat L d3 = dec_repeat L d2 /\
        (dec_global_palette L d2 <> None -> dec_global_palette L d3 = dec_global_palette L d2).
Proof. exact rewrite_file. Qed.
Theorem C33_rewrite_code_size_1_refuted :
  exists src f g, frames_of src raw_opts = ([f], Ok tt) /\ frames_of src options_new = ([g], Ok tt) /\
    forall w h pal, snd (write_lzw_pre_encoded_frame (fst (encoder_new fresh w h pal)) f) = Err (EFormat InvalidMinCodeSize).
Proof. exact rewrite_code_size_1_refuted. Qed.
Print Assumptions C33_rewrite.
Print Assumptions C33_rewrite_code_size_1_refuted.
Example C33_case : gif_images dx_gif <> [] /\ Forall (fun ci => 2 <= im_mcs (snd ci)) (gif_images dx_gif) /\ fits (o_limit rgba_opts) 15.
Proof. split; [discriminate|]. split; [repeat constructor; vm_compute; discriminate|vm_compute; discriminate]. Qed.

(** ** C37 *)
Theorem C37_rgba_panics : forall q w h px speed,
  from_rgba_speed q w h px speed = None <-> len px <> w * h * 4 \/ ~ (1 <= speed <= 30)%Z.
Proof. exact from_rgba_panics. Qed.
Theorem C37_rgba_exact : forall q w h px speed ps f, from_rgba_speed q w h px speed = Some (ps, f) ->
  few_colors 256 px (N.to_nat (w * h)) ->
  f = mk_frame 0 DKeep (f_transparent f) false 0 0 w h false (f_palette f) (f_buffer f) /\ len (f_buffer f) = w * h /\
  exists pal t, f_palette f = Some pal /\ (length pal <= 768)%nat /\ marked px (N.to_nat (w * h)) t /\
    (t = None <-> f_transparent f = None) /\
    forall k, (k < N.to_nat (w * h))%nat -> let '(r, g, b, _) := px_at px k in
      exists a, rgba_of pal (f_transparent f) (nth k (f_buffer f) 0) = Some [r; g; b; a] /\
        (t = Some (px_at px k) -> a = 0) /\ (t <> Some (px_at px k) -> a = 255).
Proof. exact from_rgba_colors. Qed.
Theorem C37_rgba_alpha : forall q w h px speed ps f, from_rgba_speed q w h px speed = Some (ps, f) ->
  few_colors 256 px (N.to_nat (w * h)) -> one_transparent px (N.to_nat (w * h)) ->
  exists pal, f_palette f = Some pal /\
    forall k, (k < N.to_nat (w * h))%nat ->
      rgba_of pal (f_transparent f) (nth k (f_buffer f) 0) = Some (rgba_list (flat (px_at px k))).
Proof. exact from_rgba_alpha. Qed.
(** What happens to the caller's pixels: alpha becomes 0 or 255. *)
Theorem C37_rgba_buffer : forall q w h px speed ps f, from_rgba_speed q w h px speed = Some (ps, f) ->
  length ps = N.to_nat (w * h) /\ forall k, (k < N.to_nat (w * h))%nat -> nth k ps (0, 0, 0, 0) = flat (px_at px k).
Proof. exact from_rgba_buffer. Qed.
Theorem C37_rgb_panics : forall q w h px speed,
  from_rgb_speed q w h px speed = None <-> len px <> w * h * 3 \/ ~ (1 <= speed <= 30)%Z.
Proof. exact from_rgb_panics. Qed.
Theorem C37_rgb_exact : forall q w h px speed f, from_rgb_speed q w h px speed = Some f ->
  few_rgb 256 px (N.to_nat (w * h)) ->
  f = mk_frame 0 DKeep None false 0 0 w h false (f_palette f) (f_buffer f) /\ len (f_buffer f) = w * h /\
  exists pal, f_palette f = Some pal /\ (length pal <= 768)%nat /\
    forall k, (k < N.to_nat (w * h))%nat -> let '(r, g, b) := rgb_at px k in
      rgba_of pal None (nth k (f_buffer f) 0) = Some [r; g; b; 255].
Proof. exact from_rgb_exact. Qed.
Theorem C37_two_transparent_refuted :
  exists px ps f, forall q, from_rgba q 2 1 px = Some (ps, f) /\
    px = [1; 2; 3; 0; 9; 9; 9; 0] /\ f_transparent f = Some 1 /\ f_buffer f = [0; 1].
Proof. exact two_transparent_refuted. Qed.
Print Assumptions C37_rgba_panics.
Print Assumptions C37_rgba_exact.
Print Assumptions C37_rgba_alpha.
Print Assumptions C37_rgba_buffer.
Print Assumptions C37_rgb_panics.
Print Assumptions C37_rgb_exact.
Print Assumptions C37_two_transparent_refuted.
Definition px4 : list N := [9; 9; 9; 100; 1; 2; 3; 0; 9; 9; 9; 255; 1; 2; 3; 0].
Example C37_case : exists ps f, from_rgba_speed nq0 2 2 px4 10 = Some (ps, f) /\ few_colors 256 px4 (N.to_nat (2 * 2)) /\
  one_transparent px4 (N.to_nat (2 * 2)) /\ f_palette f = Some [1; 2; 3; 9; 9; 9] /\ f_transparent f = Some 0 /\ f_buffer f = [1; 0; 1; 0].
Proof.
  do 2 eexists. split; [vm_compute; reflexivity|]. split; [|split; [|repeat split]].
  - exists [(9, 9, 9, 255); (1, 2, 3, 0)]. split; [cbn; lia|]. intros k Hk.
    change (N.to_nat (2 * 2)) with 4%nat in Hk. do 4 (destruct k as [|k]; [vm_compute; auto|]). lia.
  - intros i j Hi Hj. change (N.to_nat (2 * 2)) with 4%nat in *.
    do 4 (destruct i as [|i]; [do 4 (destruct j as [|j]; [vm_compute; congruence|]); lia|]). lia.
Qed.

(** ** C38 *)
Theorem C38_palette_pixels : forall w h px pal t,
  (from_palette_pixels w h px pal t = None <-> len px <> w * h \/ 768 < len pal) /\
  forall f, from_palette_pixels w h px pal t = Some f -> f = mk_frame 0 DKeep t false 0 0 w h false (Some pal) px.
Proof. exact from_palette_pixels_spec. Qed.
Theorem C38_indexed_pixels : forall w h px t,
  (from_indexed_pixels w h px t = None <-> len px <> w * h) /\
  forall f, from_indexed_pixels w h px t = Some f -> f = mk_frame 0 DKeep t false 0 0 w h false None px.
Proof. exact from_indexed_pixels_spec. Qed.
Print Assumptions C38_palette_pixels.
Print Assumptions C38_indexed_pixels.
Example C38_case : from_palette_pixels 2 1 [0; 1] [1; 2; 3; 4; 5; 6] None <> None /\ from_palette_pixels 2 1 [0] [1; 2; 3] None = None /\
  from_indexed_pixels 1 1 [7] (Some 7) <> None.
Proof. repeat split; discriminate. Qed.

(** ** C35 (refuted parts), C44 *)
Theorem C35_empty_extension_refuted :
  exists label, read_back [ORawExt label [[65]]; OWriteFrame dot] options_new = Some (1%nat, Ok tt) /\
    read_back [ORawExt label []; OWriteFrame dot] options_new = Some (0%nat, Err (DIo UnexpectedEof)).
Proof. exact empty_extension_refuted. Qed.
Theorem C35_unknown_label_refuted :
  exists label, read_back [ORawExt label [[65]]; OWriteFrame dot] lenient_opts = Some (0%nat, Err (DFormat UnknownBlockType)).
Proof. exact unknown_label_refuted. Qed.
Theorem C44_zero_size_frame_refuted :
  exists f, read_back [OWriteFrame f; OWriteFrame dot] options_new = Some (0%nat, Err (DFormat ImageTruncated)).
Proof. exact zero_size_frame_refuted. Qed.
Print Assumptions C35_empty_extension_refuted.
Print Assumptions C35_unknown_label_refuted.
Print Assumptions C44_zero_size_frame_refuted.
