(** Properties C50 and following: true-colour pictures through the whole library, images with too few
    or no pixels. *)
From Verif Require Import Base Common Lzw Encoder Stream Converter Reader LzwRef LzwRefSpec ConvInv SpecGif SpecPixels
  SpecEnc SpecRound EncLin EncSpec EncSession DocAll FrameProps Truecolor Ranges DecoderSafe CanonReader StreamInv DecInv DecProps
  Pixels DocTrace DocBlocks PixelRead DocRead ShortData ZeroSize Unknown Validate Refuted PropEnc PropDec PropFrame.
Open Scope N_scope.

(** ** C50 *)
Theorem C50_truecolor : forall L (S : lzw_spec L) umax, 2 ^ 32 - 1 <= umax ->
  forall q speed o w sw sh pal dbg pics frames,
  Forall pic_ok pics -> pics <> [] -> Forall2 (made q speed) pics frames ->
  u16_ok sw -> u16_ok sh -> bytes_ok pal -> (colors pal <= 256)%nat -> Forall harmless (w_plan w) -> w_out w = [] ->
  o_color o = CRgba -> o_skip_frame_decoding o = false -> o_check_for_end_code o = false ->
  Forall (fun p => 4 * (p_w p * p_h p) <= umax / 2 /\ fits (o_limit o) (4 * (p_w p * p_h p))) pics -> fits (o_limit o) 5 ->
  (o_check_frame_consistency o = true ->
     Forall (fun f => f_left f + f_width f <= sw /\ f_top f + f_height f <= sh) frames) ->
  exists e1 e2 e3 w3,
    encoder_new w sw sh pal = (e1, Ok tt) /\ run_ops L dbg e1 (map OWriteFrame frames) = (e2, Ok tt) /\ into_inner e2 = (e3, Ok w3) /\
    forall src tl n, delivers src (w_out w3 ++ tl) -> (length pics < n)%nat ->
    exists d d' fs, read_info L src o = Ok d /\ read_all L umax n d = (d', fs, Ok false) /\
      Forall2 (fun p f => f_width f = p_w p /\ f_height f = p_h p /\ f_buffer f = solid p) pics fs /\
      Forall2 (fun g f => f_delay f = f_delay g /\ f_dispose f = f_dispose g /\ f_needs_user_input f = f_needs_user_input g /\
                          f_top f = f_top g /\ f_left f = f_left g) frames fs.
Proof. exact truecolor_round_trip. Qed.
Theorem C50_truecolor_exact : forall L (S : lzw_spec L) umax, 2 ^ 32 - 1 <= umax ->
  forall q speed o w sw sh pal dbg pics frames,
  Forall pic_ok pics -> Forall crisp pics -> pics <> [] -> Forall2 (made q speed) pics frames ->
  u16_ok sw -> u16_ok sh -> bytes_ok pal -> (colors pal <= 256)%nat -> Forall harmless (w_plan w) -> w_out w = [] ->
  o_color o = CRgba -> o_skip_frame_decoding o = false -> o_check_for_end_code o = false ->
  Forall (fun p => 4 * (p_w p * p_h p) <= umax / 2 /\ fits (o_limit o) (4 * (p_w p * p_h p))) pics -> fits (o_limit o) 5 ->
  (o_check_frame_consistency o = true ->
     Forall (fun f => f_left f + f_width f <= sw /\ f_top f + f_height f <= sh) frames) ->
  exists e1 e2 e3 w3,
    encoder_new w sw sh pal = (e1, Ok tt) /\ run_ops L dbg e1 (map OWriteFrame frames) = (e2, Ok tt) /\ into_inner e2 = (e3, Ok w3) /\
    forall src tl n, delivers src (w_out w3 ++ tl) -> (length pics < n)%nat ->
    exists d d' fs, read_info L src o = Ok d /\ read_all L umax n d = (d', fs, Ok false) /\ map f_buffer fs = map p_px pics.
Proof. exact truecolor_exact. Qed.
Print Assumptions C50_truecolor.
Print Assumptions C50_truecolor_exact.
(** Two pictures, one of them with partly and fully transparent pixels. *)
Definition pic_a : pic := mk_pic 2 2 px4.
Definition pic_b : pic := mk_pic 1 1 [7; 8; 9; 255].
Definition made_frame (p : pic) (delay left : N) : frame :=
  match from_rgba_speed nq0 (p_w p) (p_h p) (p_px p) 10 with
  | Some (_, f) => mk_frame delay DBackground (f_transparent f) false 0 left (f_width f) (f_height f) (f_interlaced f) (f_palette f) (f_buffer f)
  | None => dot
  end.
Definition pics2 : list pic := [pic_a; pic_b].
Definition frames2 : list frame := [made_frame pic_a 5 0; made_frame pic_b 6 1].
Lemma pics2_ok : Forall pic_ok pics2.
Proof.
  repeat constructor; try (apply bytes_by; reflexivity); try (vm_compute; congruence).
  - exists [(9, 9, 9, 255); (1, 2, 3, 0)]. split; [cbn; lia|]. intros k Hk.
    change (p_count pic_a) with 4%nat in Hk. do 4 (destruct k as [|k]; [vm_compute; auto|]). lia.
  - intros i j Hi Hj. change (p_count pic_a) with 4%nat in *.
    do 4 (destruct i as [|i]; [do 4 (destruct j as [|j]; [vm_compute; congruence|]); lia|]). lia.
  - exists [(7, 8, 9, 255)]. split; [cbn; lia|]. intros k Hk.
    change (p_count pic_b) with 1%nat in Hk. destruct k as [|k]; [vm_compute; auto|]. lia.
  - intros i j Hi Hj. change (p_count pic_b) with 1%nat in *. replace i with j by lia. reflexivity.
Qed.
Lemma frames2_made : Forall2 (made nq0 10) pics2 frames2.
Proof.
  repeat constructor; do 2 eexists; (split; [vm_compute; reflexivity|]); (split; [vm_compute; reflexivity|]); repeat split; vm_compute; congruence.
Qed.
Example C50_case : exists e1 e2 e3 w3,
    encoder_new fresh 2 2 [] = (e1, Ok tt) /\ run_ops lzw_ref true e1 (map OWriteFrame frames2) = (e2, Ok tt) /\ into_inner e2 = (e3, Ok w3) /\
    forall src tl n, delivers src (w_out w3 ++ tl) -> (2 < n)%nat ->
    exists d d' fs, read_info lzw_ref src rgba_opts = Ok d /\ read_all lzw_ref umax64 n d = (d', fs, Ok false) /\
      Forall2 (fun p f => f_width f = p_w p /\ f_height f = p_h p /\ f_buffer f = solid p) pics2 fs /\
      Forall2 (fun g f => f_delay f = f_delay g /\ f_dispose f = f_dispose g /\ f_needs_user_input f = f_needs_user_input g /\
                          f_top f = f_top g /\ f_left f = f_left g) frames2 fs.
Proof.
  assert (H1 : (colors [] <= 256)%nat) by (cbn; lia).
  assert (H2 : Forall (fun p => 4 * (p_w p * p_h p) <= umax64 / 2 /\ fits (o_limit rgba_opts) (4 * (p_w p * p_h p))) pics2).
  { repeat constructor; vm_compute; discriminate. }
  assert (H3 : fits (o_limit rgba_opts) 5) by (vm_compute; discriminate).
  assert (H4 : o_check_frame_consistency rgba_opts = true ->
     Forall (fun f => f_left f + f_width f <= 2 /\ f_top f + f_height f <= 2) frames2) by discriminate.
  assert (H5 : u16_ok 2) by reflexivity.
  assert (H6 : pics2 <> []) by discriminate.
  assert (H7 : bytes_ok []) by constructor.
  assert (H8 : Forall harmless (w_plan fresh)) by constructor.
  exact (C50_truecolor lzw_ref lzw_ref_spec umax64 dx_umax nq0 10 rgba_opts fresh 2 2 [] true pics2 frames2 pics2_ok H6 frames2_made
    H5 H5 H7 H1 H8 eq_refl eq_refl eq_refl eq_refl H2 H3 H4).
Qed.
Example C50_crisp_case : crisp pic_b /\ ~ crisp pic_a.
Proof.
  split.
  - intros k Hk. change (p_count pic_b) with 1%nat in Hk. destruct k as [|k]; [right; reflexivity|lia].
  - intros H. specialize (H O ltac:(vm_compute; lia)). vm_compute in H. destruct H; discriminate.
Qed.

(** ** C51 *)
Theorem C51_short_frames : forall L (S : lzw_spec L) umax, 2 ^ 32 - 1 <= umax ->
  forall o g tl src outs n, gif_ok o g -> delivers src (ser_gif g tl) ->
  o_skip_frame_decoding o = false -> o_check_for_end_code o = false ->
  Forall2 (sized L S umax o) (gif_images g) outs -> (length outs < n)%nat ->
  exists d d', read_info L src o = Ok d /\ read_on L umax n d = (d', views o g (gif_images g) outs, Ok false) /\
    rd_rest L (dc_rd L d') = tl.
Proof. exact file_short. Qed.
Theorem C51_short_iter : forall L (S : lzw_spec L) umax, 2 ^ 32 - 1 <= umax ->
  forall o g tl src l1 ci l2 outs out k, gif_ok o g -> delivers src (ser_gif g tl) ->
  o_skip_frame_decoding o = false -> o_check_for_end_code o = false ->
  gif_images g = l1 ++ ci :: l2 -> Forall2 (holds L S umax o) l1 outs -> sized L S umax o ci out ->
  (length out < im_pixels (snd ci))%nat ->
  exists d it, read_info L src o = Ok d /\
    iter_all L umax (length outs + Datatypes.S k) (mk_iter L d false) =
      (it, map IFrame (all_seen o g l1 outs) ++ IErr (DFormat ImageTruncated) :: repeat INone k).
Proof. exact file_short_iter. Qed.
Theorem C51_short_fill : forall L (S : lzw_spec L) umax, 2 ^ 32 - 1 <= umax ->
  forall o g tl src c1 i l out buf n, gif_ok o g -> delivers src (ser_gif g tl) ->
  o_skip_frame_decoding o = false -> o_check_for_end_code o = false ->
  gif_images g = (c1, i) :: l -> lz_pending S (lz_new L (im_mcs i)) (payload (im_subs i)) out ->
  (length out < n)%nat -> length buf = (px_bytes (o_color o) * n)%nat ->
  exists d d1 d2, read_info L src o = Ok d /\ next_frame_info L d = (d1, Ok true) /\
    fill_buffer L d1 buf =
      (d2, shown_over (o_color o) (pal_of g i) (c_transparent c1) out buf ++ skipn (px_bytes (o_color o) * length out) buf, Ok false).
Proof. exact file_fill_short. Qed.
Print Assumptions C51_short_frames.
Print Assumptions C51_short_iter.
Print Assumptions C51_short_fill.
(** The example file of PropDec.v, with data for three of the six pixels of the first image. *)
Definition sx_img1 : img := mk_img 1 0 2 3 0xC1 [10; 11; 12; 13; 14; 15; 16; 17; 18; 19; 20; 21] 2 [[68; 84]].
Definition sx_gif : gif :=
  mk_gif true 4 4 0x80 1 0 [1; 2; 3; 4; 5; 6] [BExt 0xF9 [[9; 7; 0; 2]]; BImg sx_img1; BImg dx_img2].
Definition sx_outs : list (list N) := [[0; 1; 2]; [1; 0]].
Definition sx_src : list revent := bytewise (ser_gif sx_gif dx_tail).
Lemma sx_ok : gif_ok rgba_opts sx_gif.
Proof.
  split; [reflexivity|]. split; [reflexivity|]. split; [reflexivity|]. split; [reflexivity|]. split; [reflexivity|].
  split; [split; [crush_rng|reflexivity]|]. split; [discriminate|].
  split; [|exact I].
  unfold sx_gif at 2. cbn [g_blocks]. constructor; [|constructor; [|constructor; [|constructor]]].
  - split; [right; left; reflexivity|]. split; [split; [discriminate|crush_rng]|]. split; [reflexivity|vm_compute; discriminate].
  - split; [reflexivity|]. split; [reflexivity|]. split; [reflexivity|]. split; [reflexivity|]. split; [reflexivity|].
    split; [split; [crush_rng|reflexivity]|]. split; [vm_compute; split; discriminate|]. split; [split; [discriminate|crush_rng]|].
    split; [vm_compute; split; discriminate|left; reflexivity].
  - split; [reflexivity|]. split; [reflexivity|]. split; [reflexivity|]. split; [reflexivity|]. split; [reflexivity|].
    split; [split; [crush_rng|reflexivity]|]. split; [vm_compute; split; discriminate|]. split; [split; [discriminate|crush_rng]|].
    split; [vm_compute; split; discriminate|right; reflexivity].
Qed.
Lemma sx_delivers : delivers sx_src (ser_gif sx_gif dx_tail).
Proof. apply bytewise_delivers, bytes_by. vm_compute. reflexivity. Qed.
Lemma sx_pending : lz_pending lzw_ref_spec (lz_new lzw_ref 2) [68; 84] [0; 1; 2].
Proof.
  assert (E : lz_encode lzw_ref 2 [0; 1; 2] = [68; 84]) by (vm_compute; reflexivity).
  rewrite <- E. apply (lz_encode_pending lzw_ref lzw_ref_spec); [lia|]. repeat constructor.
Qed.
Lemma sx_sized : Forall2 (sized lzw_ref lzw_ref_spec umax64 rgba_opts) (gif_images sx_gif) sx_outs.
Proof.
  constructor; [|constructor; [|constructor]].
  - split; [exact sx_pending|]. split; [cbn; lia|]. split; vm_compute; discriminate.
  - split; [exact dx_pending2|]. split; [cbn; lia|]. split; vm_compute; discriminate.
Qed.
Example C51_case : exists d d', read_info lzw_ref sx_src rgba_opts = Ok d /\
  read_on lzw_ref umax64 3 d = (d', [None; Some (mk_frame 0 DKeep None false 0 0 2 1 false None [4; 5; 6; 255; 1; 2; 3; 255])], Ok false) /\
  rd_rest lzw_ref (dc_rd lzw_ref d') = [65; 66].
Proof.
  assert (X : views rgba_opts sx_gif (gif_images sx_gif) sx_outs
    = [None; Some (mk_frame 0 DKeep None false 0 0 2 1 false None [4; 5; 6; 255; 1; 2; 3; 255])]) by (vm_compute; reflexivity).
  rewrite <- X. assert (Hn : (length sx_outs < 3)%nat) by (cbn; lia).
  exact (C51_short_frames lzw_ref lzw_ref_spec umax64 dx_umax rgba_opts sx_gif dx_tail sx_src sx_outs 3 sx_ok sx_delivers eq_refl eq_refl sx_sized Hn).
Qed.
Example C51_fill_case : exists d d1 d2, read_info lzw_ref sx_src rgba_opts = Ok d /\ next_frame_info lzw_ref d = (d1, Ok true) /\
  fill_buffer lzw_ref d1 (repeat 9 16) = (d2, [10; 11; 12; 255; 13; 14; 15; 255; 16; 17; 18; 0; 9; 9; 9; 9], Ok false).
Proof.
  assert (Hn : (length [0; 1; 2] < 4)%nat) by (cbn; lia).
  destruct (C51_short_fill lzw_ref lzw_ref_spec umax64 dx_umax rgba_opts sx_gif dx_tail sx_src _ _ _ [0; 1; 2] (repeat 9 16) 4
    sx_ok sx_delivers eq_refl eq_refl eq_refl sx_pending Hn eq_refl) as (d & d1 & d2 & E1 & E2 & E3).
  exists d, d1, d2. split; [exact E1|]. split; [exact E2|]. rewrite E3. f_equal; f_equal; vm_compute; reflexivity.
Qed.

(** ** C44, C28: images of no pixels *)
Theorem C44_no_pixels : forall L umax, lzw_safe L -> 2 ^ 32 - 1 <= umax ->
  forall src o, src_ok src -> limit_ok umax (o_limit o) ->
  forall d d1, opened L umax src o d -> next_frame_info L d = (d1, Ok true) -> dc_ty L d1 = FPixels ->
  f_width (dc_cur L d1) * f_height (dc_cur L d1) = 0 ->
  exists d2 r, read_next_frame L umax d = (d2, r) /\ f_buffer (dc_cur L d2) = [] /\
    if f_interlaced (dc_cur L d1) && (f_height (dc_cur L d1) =? 0) then r = Ok true
    else exists e, r = Err e /\ zero_err (o_color o) e.
Proof. exact zero_frame. Qed.
Theorem C28_none : forall L umax, lzw_safe L -> 2 ^ 32 - 1 <= umax ->
  forall src o, src_ok src -> limit_ok umax (o_limit o) ->
  forall d it, opened L umax src o d -> iter_next L umax (mk_iter L d false) = (it, INone) ->
  (it_ended L it = true /\ exists d1, next_frame_info L d = (d1, Ok false)) \/ (it_ended L it = false /\ rowless L d).
Proof. exact iter_none. Qed.
Theorem C28_rowless : forall L umax, lzw_safe L -> 2 ^ 32 - 1 <= umax ->
  forall src o, src_ok src -> limit_ok umax (o_limit o) ->
  forall d, opened L umax src o d -> rowless L d ->
  exists it, iter_next L umax (mk_iter L d false) = (it, INone) /\ it_ended L it = false.
Proof. exact iter_rowless. Qed.
Theorem C28_ended : forall L umax it n, it_ended L it = true -> iter_calls L umax it n = (it, repeat INone n).
Proof. exact iter_ended. Qed.
Theorem C44_frame_size : forall L umax, lzw_safe L -> 2 ^ 32 - 1 <= umax ->
  forall src o, src_ok src -> limit_ok umax (o_limit o) ->
  forall d d1 d2, opened L umax src o d -> next_frame_info L d = (d1, Ok true) -> read_next_frame L umax d = (d2, Ok true) ->
  match dc_ty L d1 with
  | FPixels => len (f_buffer (dc_cur L d2)) = f_width (dc_cur L d1) * f_height (dc_cur L d1) * match o_color o with CIndexed => 1 | CRgba => 4 end
  | FLzw m => exists w, f_buffer (dc_cur L d2) = m :: w
  end.
Proof. exact read_next_frame_size. Qed.
Print Assumptions C44_no_pixels.
Print Assumptions C44_frame_size.
Print Assumptions C28_none.
Print Assumptions C28_rowless.
Print Assumptions C28_ended.
(** The witness of [C28_iterator_fused_refuted] is such a frame, and the second [None] is the end. *)
Example C28_case : match read_info lzw_ref [RChunk holey] options_new with
  | Ok d => match next_frame_info lzw_ref d with
            | (d1, Ok true) => dc_ty lzw_ref d1 = FPixels /\ f_interlaced (dc_cur lzw_ref d1) = true /\
                 f_height (dc_cur lzw_ref d1) = 0 /\ f_width (dc_cur lzw_ref d1) = 2
            | _ => False
            end
  | _ => False
  end.
Proof. vm_compute. repeat split. Qed.
Example C28_end_case : match read_info lzw_ref [RChunk holey] options_new with
  | Ok d => map (fun y => match y with IFrame _ => 1 | IErr _ => 2 | INone => 3 | _ => 4 end)
              (snd (iter_calls lzw_ref umax64 (mk_iter lzw_ref d false) 5)) = [3; 1; 3; 3; 3]
  | _ => False
  end.
Proof. vm_compute. reflexivity. Qed.
(** Without interlacing the same frame is an error, in both colour modes. *)
Definition flat_holey : list N :=
  head44 ++ img_desc 0 0 2 0 0 ++ data_of 2 [0] ++ img_desc 0 0 1 1 0 ++ data_of 2 [1] ++ [0x3B].
Example C44_case :
  summary (frames_of [RChunk flat_holey] options_new) = (0%nat, Err (DFormat ImageTruncated)) /\
  summary (frames_of [RChunk flat_holey] rgba_opts) = (0%nat, Err (DFormat OddSizedBuffer)).
Proof. vm_compute. split; reflexivity. Qed.

(** ** C36: tolerated unknown blocks change none of the pictures. [gif_ok] admits an unknown block only if the
    last extension before it is not a control extension ([unknown_ok]); see [C36_unknown_block_skipped_refuted]. *)
Theorem C36_frames : forall L (S : lzw_spec L) umax, 2 ^ 32 - 1 <= umax ->
  forall o g tl src src0 outs n, gif_ok o g -> g_blocks (drop_unknown g) <> [] ->
  delivers src (ser_gif g tl) -> delivers src0 (ser_gif (drop_unknown g) tl) ->
  o_skip_frame_decoding o = false -> o_check_for_end_code o = false ->
  Forall2 (holds L S umax o) (gif_images g) outs -> (length outs < n)%nat ->
  exists d d' d0 d0' fs, read_info L src o = Ok d /\ read_info L src0 o = Ok d0 /\
    read_all L umax n d = (d', fs, Ok false) /\ read_all L umax n d0 = (d0', fs, Ok false) /\
    length fs = length (gif_images g) /\
    dec_width L d = dec_width L d0 /\ dec_height L d = dec_height L d0 /\
    dec_global_palette L d = dec_global_palette L d0 /\ dec_bg_color L d = dec_bg_color L d0.
Proof. exact unknown_frames. Qed.
Theorem C36_scan : forall L (S : lzw_spec L) umax, 2 ^ 32 - 1 <= umax ->
  forall o g tl src src0 n, gif_ok o g -> g_blocks (drop_unknown g) <> [] ->
  delivers src (ser_gif g tl) -> delivers src0 (ser_gif (drop_unknown g) tl) ->
  scannable o -> (length (gif_images g) < n)%nat ->
  exists d d' d0 d0' fs, read_info L src o = Ok d /\ read_info L src0 o = Ok d0 /\
    scan_all L n d = (d', fs, Ok false) /\ scan_all L n d0 = (d0', fs, Ok false) /\
    length fs = length (gif_images g).
Proof. exact unknown_scan. Qed.
Print Assumptions C36_frames.
Print Assumptions C36_scan.
(** Unknown blocks at the start, after a comment and after an image; none follows a control extension. *)
Definition ux_gif : gif :=
  mk_gif true 4 4 0x80 1 0 [1; 2; 3; 4; 5; 6]
    [BUnk 0x42 [[65; 66]]; BImg dx_img2; BUnk 0 [[1]; [2; 3]]; BExt 0xFE [[72]; [105]]; BUnk 0x77 [[9]]; BImg dx_img2].
Definition ux_opts : options := mk_opts (Some 50000000) CRgba false false false true.
Lemma ux_ok : gif_ok ux_opts ux_gif.
Proof.
  assert (Hu : forall t subs, byte_ok t -> t <> 0x2C /\ t <> 0x21 /\ t <> 0x3B -> subs_ok subs -> blk_ok ux_opts ux_gif (BUnk t subs)).
  { intros t subs H1 (H2 & H3 & H4) H5. repeat split; try assumption; apply H5. }
  assert (Hi : blk_ok ux_opts ux_gif (BImg dx_img2)).
  { split; [reflexivity|]. split; [reflexivity|]. split; [reflexivity|]. split; [reflexivity|]. split; [reflexivity|].
    split; [split; [crush_rng|reflexivity]|]. split; [vm_compute; split; discriminate|]. split; [split; [discriminate|crush_rng]|].
    split; [vm_compute; split; discriminate|right; reflexivity]. }
  split; [reflexivity|]. split; [reflexivity|]. split; [reflexivity|]. split; [reflexivity|]. split; [reflexivity|].
  split; [split; [crush_rng|reflexivity]|]. split; [discriminate|]. split.
  - unfold ux_gif at 2. cbn [g_blocks].
    constructor; [apply Hu; [reflexivity|repeat split; discriminate|split; [discriminate|crush_rng]]|].
    constructor; [exact Hi|].
    constructor; [apply Hu; [reflexivity|repeat split; discriminate|split; [discriminate|crush_rng]]|].
    constructor; [split; [right; right; left; reflexivity|]; split; [split; [discriminate|crush_rng]|]; split; [discriminate|vm_compute; discriminate]|].
    constructor; [apply Hu; [reflexivity|repeat split; discriminate|split; [discriminate|crush_rng]]|].
    constructor; [exact Hi|constructor].
  - vm_compute. repeat split; discriminate.
Qed.
Lemma ux_holds : Forall2 (holds lzw_ref lzw_ref_spec umax64 ux_opts) (gif_images ux_gif) [[1; 0]; [1; 0]].
Proof.
  constructor; [|constructor; [|constructor]];
    (split; [exact dx_pending2|]; split; [cbn; lia|]; split; vm_compute; discriminate).
Qed.
Example C36_case : exists d d' d0 d0' fs,
    read_info lzw_ref (bytewise (ser_gif ux_gif [])) ux_opts = Ok d /\
    read_info lzw_ref (bytewise (ser_gif (drop_unknown ux_gif) [])) ux_opts = Ok d0 /\
    read_all lzw_ref umax64 3 d = (d', fs, Ok false) /\ read_all lzw_ref umax64 3 d0 = (d0', fs, Ok false) /\ length fs = 2%nat.
Proof.
  assert (D1 : delivers (bytewise (ser_gif ux_gif [])) (ser_gif ux_gif [])) by (apply bytewise_delivers, bytes_by; vm_compute; reflexivity).
  assert (D2 : delivers (bytewise (ser_gif (drop_unknown ux_gif) [])) (ser_gif (drop_unknown ux_gif) []))
    by (apply bytewise_delivers, bytes_by; vm_compute; reflexivity).
  assert (Hne : g_blocks (drop_unknown ux_gif) <> []) by (vm_compute; discriminate).
  assert (Hn : (length [[1; 0]; [1; 0]] < 3)%nat) by (cbn; lia).
  destruct (C36_frames lzw_ref lzw_ref_spec umax64 dx_umax ux_opts ux_gif [] _ _ _ 3 ux_ok Hne D1 D2 eq_refl eq_refl ux_holds Hn)
    as (d & d' & d0 & d0' & fs & A & B & C & D & E & _).
  exists d, d', d0, d0', fs. split; [exact A|]. split; [exact B|]. split; [exact C|]. split; [exact D|exact E].
Qed.
