(** Properties C14-C31, C34, C36, C39-C43, C45, C46: the decoder. Each theorem is proved elsewhere and
    only restated here; beside it a concrete case that meets its hypotheses. *)
From Verif Require Import Base Common Lzw Encoder Stream Converter Reader LzwRef LzwRefSpec ConvInv Ranges DecoderSafe
  CanonReader Interlace SpecGif SpecPixels SpecEnc SpecRound SpecStream StreamInv DocAll StreamProps DecInv DecProps
  FrameDec Collect Mixed ExtSrc EncSession RoundProps Validate Refuted PropEnc.
From Coq Require Import Permutation.
Open Scope N_scope.

(** ** The example file: a comment in two sub-blocks, a loop count, a control extension, an interlaced
    image with its own palette whose data (in one-byte sub-blocks) hold four pixels too many, and an image
    that uses the global palette and has no control extension. *)
Definition dx_img1 : img := mk_img 1 0 2 3 0xC1 [10; 11; 12; 13; 14; 15; 16; 17; 18; 19; 20; 21] 2 [[68]; [100]; [50]; [59]; [5]].
Definition dx_img2 : img := mk_img 0 0 2 1 0 [] 2 [[12; 10]].
Definition dx_loop : list (list N) := [[78; 69; 84; 83; 67; 65; 80; 69; 50; 46; 48]; [1; 5; 0]].
Definition dx_gif : gif :=
  mk_gif true 4 4 0x80 1 0 [1; 2; 3; 4; 5; 6]
    [BExt 0xFE [[72]; [105]]; BExt 0xFF dx_loop; BExt 0xF9 [[9; 7; 0; 2]]; BImg dx_img1; BImg dx_img2].
Definition dx_outs : list (list N) := [[0; 1; 2; 0; 1; 2; 3; 3; 3; 3]; [1; 0]].
Definition dx_tail : list N := [65; 66].
Definition dx_src : list revent := bytewise (ser_gif dx_gif dx_tail).

Lemma dx_ok o : o = rgba_opts \/ o = options_new \/ o = raw_opts -> gif_ok o dx_gif.
Proof.
  intros Ho.
  assert (Hf : forall n, n <= 15 -> fits (o_limit o) n).
  { intros n Hn. destruct Ho as [->|[->| ->]]; cbn; lia. }
  split; [reflexivity|]. split; [reflexivity|]. split; [reflexivity|]. split; [reflexivity|]. split; [reflexivity|].
  split; [split; [crush_rng|reflexivity]|]. split; [discriminate|].
  split; [|exact I].
  unfold dx_gif at 2. cbn [g_blocks]. constructor; [|constructor; [|constructor; [|constructor; [|constructor; [|constructor]]]]].
  - split; [right; right; left; reflexivity|]. split; [split; [discriminate|crush_rng]|]. split; [discriminate|apply Hf; vm_compute; discriminate].
  - split; [right; right; right; reflexivity|]. split; [split; [discriminate|crush_rng]|]. split; [discriminate|apply Hf; vm_compute; discriminate].
  - split; [right; left; reflexivity|]. split; [split; [discriminate|crush_rng]|]. split; [reflexivity|apply Hf; vm_compute; discriminate].
  - split; [reflexivity|]. split; [reflexivity|]. split; [reflexivity|]. split; [reflexivity|]. split; [reflexivity|].
    split; [split; [crush_rng|reflexivity]|]. split; [vm_compute; split; discriminate|]. split; [split; [discriminate|crush_rng]|].
    split; [vm_compute; split; discriminate|left; reflexivity].
  - split; [reflexivity|]. split; [reflexivity|]. split; [reflexivity|]. split; [reflexivity|]. split; [reflexivity|].
    split; [split; [crush_rng|reflexivity]|]. split; [vm_compute; split; discriminate|]. split; [split; [discriminate|crush_rng]|].
    split; [vm_compute; split; discriminate|right; reflexivity].
Qed.
Lemma bytewise_delivers bs : bytes_ok bs -> delivers (bytewise bs) bs.
Proof.
  intros H. unfold delivers, src_ok, bytewise, good_src. rewrite map_map.
  induction H as [|b bs Hb Hbs (I1 & I2 & I3)]; [repeat split; constructor|].
  split; [|split].
  - constructor; [constructor; [exact Hb|constructor]|exact I1].
  - constructor; [exact I|exact I2].
  - cbn. f_equal. exact I3.
Qed.
Lemma bytes_by bs : bytes_okb bs = true -> bytes_ok bs.
Proof. intros H. apply Forall_forall. intros b Hb. unfold bytes_okb in H. rewrite forallb_forall in H. apply N.ltb_lt. exact (H b Hb). Qed.
Lemma dx_delivers : delivers dx_src (ser_gif dx_gif dx_tail).
Proof. apply bytewise_delivers, bytes_by. vm_compute. reflexivity. Qed.
Lemma dx_umax : 2 ^ 32 - 1 <= umax64.
Proof. vm_compute. discriminate. Qed.
Lemma dx_limit : limit_ok umax64 (o_limit rgba_opts).
Proof. left. vm_compute. discriminate. Qed.
Lemma dx_pending1 : lz_pending lzw_ref_spec (lz_new lzw_ref 2) [68; 100; 50; 59; 5] [0; 1; 2; 0; 1; 2; 3; 3; 3; 3].
Proof.
  assert (E : lz_encode lzw_ref 2 [0; 1; 2; 0; 1; 2; 3; 3; 3; 3] = [68; 100; 50; 59; 5]) by (vm_compute; reflexivity).
  rewrite <- E. apply (lz_encode_pending lzw_ref lzw_ref_spec); [lia|]. repeat constructor.
Qed.
Lemma dx_pending2 : lz_pending lzw_ref_spec (lz_new lzw_ref 2) [12; 10] [1; 0].
Proof.
  assert (E : lz_encode lzw_ref 2 [1; 0] = [12; 10]) by (vm_compute; reflexivity).
  rewrite <- E. apply (lz_encode_pending lzw_ref lzw_ref_spec); [lia|]. repeat constructor.
Qed.
Lemma dx_holds o : o = rgba_opts \/ o = options_new -> Forall2 (holds lzw_ref lzw_ref_spec umax64 o) (gif_images dx_gif) dx_outs.
Proof.
  intros Ho. constructor; [|constructor; [|constructor]].
  - split; [exact dx_pending1|]. split; [cbn; lia|]. destruct Ho as [->| ->]; (split; vm_compute; discriminate).
  - split; [exact dx_pending2|]. split; [cbn; lia|]. destruct Ho as [->| ->]; (split; vm_compute; discriminate).
Qed.
Lemma dx_scannable : scannable rgba_opts.
Proof. right. reflexivity. Qed.

(** ** C14, C15: no call panics, no call runs for ever *)
Theorem C14_C15_decoder : forall L umax, lzw_safe L -> 2 ^ 32 - 1 <= umax ->
  forall src o os, src_ok src -> limit_ok umax (o_limit o) -> Forall (op_ok umax) os ->
  returns (read_info L src o) /\
  forall d, read_info L src o = Ok d -> Forall out_returns (snd (run_dops L umax d os)).
Proof. exact decoder_returns. Qed.
Theorem C14_C15_iterator : forall L umax, lzw_safe L -> 2 ^ 32 - 1 <= umax ->
  forall src o n, src_ok src -> limit_ok umax (o_limit o) ->
  forall it, opened L umax src o (it_dec L it) -> Forall item_returns (snd (iter_calls L umax it n)).
Proof. exact iterator_returns. Qed.
Theorem C14_C15_frame_decoder : forall L umax, lzw_safe L -> 2 ^ 32 - 1 <= umax ->
  forall fd f fd' f' x, u16_ok (f_width f) -> u16_ok (f_height f) -> limit_ok umax (cv_limit (fd_conv L fd)) ->
  decode_lzw_encoded_frame L umax fd f = (fd', f', x) ->
  returns x /\ same_settings (fd_conv L fd) (fd_conv L fd') /\
  match x with
  | Ok _ => f_interlaced f' = false /\ f_width f' = f_width f /\ f_height f' = f_height f /\
      len (f_buffer f') = line_length (fd_conv L fd) f * f_height f /\
      match cv_limit (fd_conv L fd) with Some l => len (f_buffer f') <= l | None => True end
  | _ => f' = f
  end.
Proof. exact decode_lzw_encoded_frame_returns. Qed.
Theorem C14_C15_frame_decoder_into : forall L umax, lzw_safe L -> 2 ^ 32 - 1 <= umax ->
  forall fd f buf fd' b x, u16_ok (f_width f) -> len buf <= umax / 2 ->
  decode_lzw_encoded_frame_into_buffer L umax fd f buf = (fd', b, x) ->
  returns x /\ length b = length buf /\ same_settings (fd_conv L fd) (fd_conv L fd').
Proof. exact decode_into_buffer_returns. Qed.
(** On 32-bit platforms without a memory limit the decoder does panic. *)
Theorem C14_panic_32bit_refuted : forall L,
  exists src d, read_info L src unlimited = Ok d /\ snd (read_next_frame L umax32 d) = Panic.
Proof. exact panic_32bit_refuted. Qed.
Theorem C14_buffer_size_32bit_refuted : forall L,
  exists src d d', read_info L src rgba_opts = Ok d /\ next_frame_info L d = (d', Ok true) /\ dec_buffer_size L umax32 d' = None.
Proof. exact buffer_size_32bit_refuted. Qed.
Print Assumptions C14_C15_decoder.
Print Assumptions C14_C15_iterator.
Print Assumptions C14_C15_frame_decoder.
Print Assumptions C14_C15_frame_decoder_into.
Print Assumptions C14_panic_32bit_refuted.
Print Assumptions C14_buffer_size_32bit_refuted.
(** A read error in the middle of the first image; the caller goes on. *)
Example C14_C15_case :
  let src := bytewise (firstn 75 (ser_gif dx_gif [])) ++ RErr (OtherIo 3) :: bytewise (skipn 75 (ser_gif dx_gif [])) in
  let os := [OpFrame; OpInto (repeat 0 100); OpFill [1; 2; 3]; OpInfo; OpFrame; OpFrame] in
  src_ok src /\ limit_ok umax64 (o_limit rgba_opts) /\ Forall (op_ok umax64) os /\
  match read_info lzw_ref src rgba_opts with
  | Ok d => map (fun y => match y with OutBool (Err _) | OutInto _ (Err _) | OutFill _ (Err _) => true | _ => false end)
              (snd (run_dops lzw_ref umax64 d os)) = [true; true; true; false; false; false]
  | _ => False
  end.
Proof.
  split; [|split; [exact dx_limit|split; [|vm_compute; reflexivity]]].
  - apply Forall_app. split; [|constructor; [constructor|]]; apply bytewise_delivers, bytes_by; vm_compute; reflexivity.
  - repeat constructor; vm_compute; discriminate.
Qed.

(** ** C16 *)
Theorem C16_update_returns : forall L, lzw_safe L ->
  forall o s buf tl evs ob, driven L o s (buf ++ tl) evs -> ~ In (DBlockStart BkTrailer) evs -> returns (snd (update L s buf ob)).
Proof. exact update_returns. Qed.
Theorem C16_update_after_trailer : forall L, lzw_safe L ->
  forall o s buf tl evs ob fuel total, driven L o s (buf ++ tl) evs -> In (DBlockStart BkTrailer) evs -> buf <> [] ->
  snd (update_loop L fuel s buf ob total) = Hang.
Proof. exact update_after_trailer. Qed.
Theorem C16_update_returns_refuted : forall L,
  exists s rest evs, drive 20 (sd_new L options_new) commented = (s, rest, evs) /\ rest = [] /\
    evs = [DBackgroundColor 0; DGlobalPalette []; DBlockStart BkExtension; DBlockFinished 0xFE; DHeaderEnd; DBlockStart BkTrailer] /\
    forall fuel b t ob, snd (update_loop L fuel s (b :: t) ob (length (b :: t))) = Hang.
Proof. exact update_returns_refuted. Qed.
Print Assumptions C16_update_returns.
Print Assumptions C16_update_after_trailer.
Print Assumptions C16_update_returns_refuted.
(** A caller that passes all it has left, with the destination [None], is one of those meant by [driven]. *)
Lemma drive_driven o : forall fuel s buf tl evs s' rest l, driven lzw_ref o s (buf ++ tl) evs -> ~ In (DBlockStart BkTrailer) evs ->
  drive fuel s buf = (s', rest, l) -> driven lzw_ref o s' (rest ++ tl) (evs ++ l).
Proof.
  induction fuel as [|fuel IH]; intros s buf tl evs s' rest l Hd Hn E.
  - injection E as <- <- <-. now rewrite app_nil_r.
  - destruct buf as [|b buf]; [injection E as <- <- <-; now rewrite app_nil_r|].
    cbn [drive] in E. pose proof (update_returns lzw_ref (lz_is_safe _ lzw_ref_spec) o s (b :: buf) tl evs ONone Hd Hn) as Hr.
    destruct (update lzw_ref s (b :: buf) ONone) as [[s1 ob1] r] eqn:Eu. cbn [snd] in Hr.
    destruct r as [[n d]|e| | ]; [|injection E as <- <- <-; rewrite app_nil_r; eapply dr_err; eassumption|easy|easy].
    pose proof (dr_ok _ _ _ _ _ _ _ _ _ _ _ Hd Eu) as Hd1.
    assert (Hgo : (d = DBlockStart BkTrailer /\ (s1, skipn n (b :: buf), [d]) = (s', rest, l)) \/
      (d <> DBlockStart BkTrailer /\ exists l2, drive fuel s1 (skipn n (b :: buf)) = (s', rest, l2) /\ l = d :: l2)).
    { destruct d as [| | | | |bk| | | | | | ]; try (right; split; [discriminate|]; destruct (drive fuel s1 (skipn n (b :: buf))) as [[s2 b2] l2];
        injection E as <- <- <-; eauto; fail).
      destruct bk; try (right; split; [discriminate|]; destruct (drive fuel s1 (skipn n (b :: buf))) as [[s2 b2] l2];
        injection E as <- <- <-; eauto; fail). left. auto. }
    destruct Hgo as [(-> & [= <- <- <-])|(Hd2 & l2 & E2 & ->)]; [exact Hd1|].
    replace (evs ++ d :: l2) with ((evs ++ [d]) ++ l2) by (rewrite <- app_assoc; reflexivity).
    eapply IH; [exact Hd1| |exact E2]. intros Hi. apply in_app_or in Hi. destruct Hi as [Hi|[Hi|[]]]; [exact (Hn Hi)|congruence].
Qed.
Definition dx_run (fuel n : nat) := drive fuel (sd_new lzw_ref options_new) (firstn n (ser_gif dx_gif [])).
Lemma dx_run_driven fuel n :
  driven lzw_ref options_new (fst (fst (dx_run fuel n))) (snd (fst (dx_run fuel n)) ++ skipn n (ser_gif dx_gif [])) (snd (dx_run fuel n)).
Proof.
  unfold dx_run. destruct (drive fuel (sd_new lzw_ref options_new) (firstn n (ser_gif dx_gif []))) as [[s rest] l] eqn:E. cbn [fst snd].
  apply (drive_driven options_new fuel (sd_new lzw_ref options_new) (firstn n (ser_gif dx_gif [])) _ [] s rest l); [apply dr_new|intros []|exact E].
Qed.
(** In the middle of the first image. *)
Example C16_case : exists evs, driven lzw_ref options_new (fst (fst (dx_run 50 75))) (skipn 75 (ser_gif dx_gif [])) evs /\
  ~ In (DBlockStart BkTrailer) evs /\ evs <> [].
Proof.
  assert (H : snd (fst (dx_run 50 75)) = []) by (vm_compute; reflexivity).
  pose proof (dx_run_driven 50 75) as D. rewrite H in D. exists (snd (dx_run 50 75)). split; [exact D|].
  split; [|vm_compute; discriminate]. intros Hi.
  assert (E : existsb (fun d => match d with DBlockStart BkTrailer => true | _ => false end) (snd (dx_run 50 75)) = false) by (vm_compute; reflexivity).
  apply (eq_true_false_abs _ (proj2 (existsb_exists _ _) (ex_intro _ _ (conj Hi eq_refl))) E).
Qed.

(** ** C17, C18: metadata and compressed data do not depend on the read boundaries *)
Theorem C17_C18_scan : forall L, lzw_safe L -> forall umax, 2 ^ 32 - 1 <= umax ->
  forall src1 src2 o os, src_ok src1 -> src_ok src2 -> good_src src1 -> good_src src2 ->
  concat (map ev_bytes src1) = concat (map ev_bytes src2) ->
  (In true os -> o_skip_frame_decoding o = true) ->
  scan L umax src1 o os = scan L umax src2 o os.
Proof. exact scan_chunk_independent. Qed.
Print Assumptions C17_C18_scan.
(** The example file without its last two bytes, read with [skip_frame_decoding] in one piece and byte by byte. *)
Example C17_C18_case : let bs := removelast (removelast (ser_gif dx_gif [])) in
  scan lzw_ref umax64 (bytewise bs) raw_opts [true; false; true] = scan lzw_ref umax64 [RChunk bs] raw_opts [true; false; true].
Proof.
  cbv zeta. set (bs := removelast _).
  destruct (bytewise_delivers bs) as (A & B & C); [apply bytes_by; vm_compute; reflexivity|].
  apply (C17_C18_scan lzw_ref (lz_is_safe _ lzw_ref_spec) umax64 dx_umax); [exact A| |exact B| | |reflexivity].
  - constructor; [|constructor]. apply bytes_by. vm_compute. reflexivity.
  - constructor; [vm_compute; exact I|constructor].
  - rewrite C. cbn [map concat ev_bytes]. now rewrite app_nil_r.
Qed.

(** ** C19, C25, C26, C42, C43: a well-formed file is read as what it denotes, however it is delivered *)
Theorem C19_frames : forall L (S : lzw_spec L) umax, 2 ^ 32 - 1 <= umax ->
  forall o g tl src outs n, gif_ok o g -> delivers src (ser_gif g tl) ->
  o_skip_frame_decoding o = false -> o_check_for_end_code o = false ->
  Forall2 (holds L S umax o) (gif_images g) outs -> (length outs < n)%nat ->
  exists d d', read_info L src o = Ok d /\
    read_all L umax n d = (d', all_seen o g (gif_images g) outs, Ok false) /\ rd_rest L (dc_rd L d') = tl.
Proof. exact file_frames. Qed.
Theorem C19_info : forall L, lzw_spec L -> forall umax, 2 ^ 32 - 1 <= umax ->
  forall o g tl src, gif_ok o g -> delivers src (ser_gif g tl) ->
  exists d, read_info L src o = Ok d /\ dec_width L d = g_w g /\ dec_height L d = g_h g /\
    dec_global_palette L d = gif_palette g /\ dec_bg_color L d = gif_bg g /\ dec_repeat L d = gif_repeat g.
Proof. exact file_info. Qed.
Theorem C19_iterator : forall L (S : lzw_spec L) umax, 2 ^ 32 - 1 <= umax ->
  forall o g tl src outs k, gif_ok o g -> delivers src (ser_gif g tl) ->
  o_skip_frame_decoding o = false -> o_check_for_end_code o = false ->
  Forall2 (holds L S umax o) (gif_images g) outs ->
  exists d it, read_info L src o = Ok d /\
    iter_all L umax (length outs + k) (mk_iter L d false) = (it, map IFrame (all_seen o g (gif_images g) outs) ++ repeat INone k).
Proof. exact file_iter. Qed.
Theorem C19_raw : forall L, lzw_spec L -> forall umax, 2 ^ 32 - 1 <= umax ->
  forall o g tl src n, gif_ok o g -> delivers src (ser_gif g tl) -> o_skip_frame_decoding o = true ->
  Forall (fun ci => fits (o_limit o) (1 + len (payload (im_subs (snd ci))))) (gif_images g) ->
  (length (gif_images g) < n)%nat ->
  exists d d', read_info L src o = Ok d /\
    read_all L umax n d = (d', map raw_seen (gif_images g), Ok false) /\ rd_rest L (dc_rd L d') = tl.
Proof. exact file_raw. Qed.
Theorem C19_scan : forall L (S : lzw_spec L) umax, 2 ^ 32 - 1 <= umax ->
  forall o g tl src n, gif_ok o g -> delivers src (ser_gif g tl) ->
  scannable o -> (length (gif_images g) < n)%nat ->
  exists d d', read_info L src o = Ok d /\
    scan_all L n d = (d', map meta_seen (gif_images g), Ok false) /\ rd_rest L (dc_rd L d') = tl.
Proof. exact file_scan. Qed.
Print Assumptions C19_frames.
Print Assumptions C19_info.
Print Assumptions C19_iterator.
Print Assumptions C19_raw.
Print Assumptions C19_scan.
(** The frames of the example file, written out: colours from the right table, index 2 transparent, rows in
    display order, the control data on the first image only, the superfluous pixels gone. *)
Definition dx_frame1 : frame := mk_frame 7 DBackground (Some 2) false 0 1 2 3 false (Some (im_lct dx_img1))
  [10; 11; 12; 255; 13; 14; 15; 255; 13; 14; 15; 255; 16; 17; 18; 0; 16; 17; 18; 0; 10; 11; 12; 255].
Definition dx_frame2 : frame := mk_frame 0 DKeep None false 0 0 2 1 false None [4; 5; 6; 255; 1; 2; 3; 255].
Example C19_case : exists d d', read_info lzw_ref dx_src rgba_opts = Ok d /\
  read_all lzw_ref umax64 3 d = (d', [dx_frame1; dx_frame2], Ok false) /\
  dec_width lzw_ref d = 4 /\ dec_repeat lzw_ref d = RFinite 5 /\ dec_bg_color lzw_ref d = Some 1 /\
  fst (dec_into_inner lzw_ref d') ++ src_bytes (snd (dec_into_inner lzw_ref d')) = dx_tail.
Proof.
  assert (Hn : (length dx_outs < 3)%nat) by (cbn; lia).
  destruct (C19_frames lzw_ref lzw_ref_spec umax64 dx_umax rgba_opts dx_gif dx_tail dx_src dx_outs 3 (dx_ok _ (or_introl eq_refl))
    dx_delivers eq_refl eq_refl (dx_holds _ (or_introl eq_refl)) Hn) as (d & d' & E & F & R).
  destruct (C19_info lzw_ref lzw_ref_spec umax64 dx_umax rgba_opts dx_gif dx_tail dx_src (dx_ok _ (or_introl eq_refl))
    dx_delivers) as (d0 & E0 & H1 & H2 & H3 & H4 & H5).
  rewrite E in E0. injection E0 as <-.
  assert (X : all_seen rgba_opts dx_gif (gif_images dx_gif) dx_outs = [dx_frame1; dx_frame2]) by (vm_compute; reflexivity).
  rewrite X in F. exists d, d'. split; [exact E|]. split; [exact F|]. split; [exact H1|]. split; [exact H5|]. split; [exact H4|]. exact R.
Qed.
Example C19_scan_case : exists d d', read_info lzw_ref dx_src rgba_opts = Ok d /\
  scan_all lzw_ref 3 d = (d', map meta_seen (gif_images dx_gif), Ok false).
Proof.
  assert (Hn : (length (gif_images dx_gif) < 3)%nat) by (cbn; lia).
  destruct (C19_scan lzw_ref lzw_ref_spec umax64 dx_umax rgba_opts dx_gif dx_tail dx_src 3 (dx_ok _ (or_introl eq_refl))
    dx_delivers dx_scannable Hn) as (d & d' & E & F & _). eauto.
Qed.
Example C19_raw_case : exists d d', read_info lzw_ref dx_src raw_opts = Ok d /\
  read_all lzw_ref umax64 3 d = (d', map raw_seen (gif_images dx_gif), Ok false).
Proof.
  assert (Hn : (length (gif_images dx_gif) < 3)%nat) by (cbn; lia).
  destruct (C19_raw lzw_ref lzw_ref_spec umax64 dx_umax raw_opts dx_gif dx_tail dx_src 3 (dx_ok _ (or_intror (or_intror eq_refl)))
    dx_delivers eq_refl) as (d & d' & E & F & _); [repeat constructor; vm_compute; discriminate|exact Hn|]. eauto.
Qed.

(** ** C25 on its own: what [shown] (used in [seen]) means, pixel by pixel *)
Theorem C25_pixel : forall pal t px k, (k < length px)%nat ->
  firstn 4 (skipn (4 * k) (shown CRgba pal t px)) =
  match rgba_of pal t (nth k px 0) with Some c => c | None => [0; 0; 0; 0] end.
Proof. exact shown_pixel. Qed.
Theorem C25_size : forall pal t px, length (shown CRgba pal t px) = (4 * length px)%nat.
Proof. exact shown_size. Qed.
Print Assumptions C25_pixel.
Print Assumptions C25_size.
Example C25_case : shown CRgba [1; 2; 3; 4; 5; 6] (Some 0) [1; 0; 2] = [4; 5; 6; 255; 1; 2; 3; 0; 0; 0; 0; 0].
Proof. reflexivity. Qed.

(** ** C20 *)
Theorem C20_clean_end : forall L umax, lzw_safe L -> 2 ^ 32 - 1 <= umax ->
  forall src o d d', src_ok src -> limit_ok umax (o_limit o) -> opened L umax src o d ->
  next_frame_info L d = (d', Ok false) \/ read_next_frame L umax d = (d', Ok false) ->
  exists p q, (length q <= 1)%nat /\
    src_bytes src = p ++ 0x3B :: q ++ fst (dec_into_inner L d') ++ src_bytes (snd (dec_into_inner L d')).
Proof. exact clean_end. Qed.
Theorem C20_truncated_frames : forall L (S : lzw_spec L) umax, 2 ^ 32 - 1 <= umax ->
  forall o g p q src outs n, gif_ok o g -> limit_ok umax (o_limit o) -> ser_gif g [] = p ++ q -> q <> [] -> delivers src p ->
  o_skip_frame_decoding o = false -> o_check_for_end_code o = false ->
  Forall2 (holds L S umax o) (gif_images g) outs -> (length outs < n)%nat ->
  read_info L src o = Err (DIo UnexpectedEof) \/
  exists d d' fs missing, read_info L src o = Ok d /\
    read_all L umax n d = (d', fs, Err (DIo UnexpectedEof)) /\ all_seen o g (gif_images g) outs = fs ++ missing.
Proof. exact truncated_frames. Qed.
Theorem C20_truncated_scan : forall L (S : lzw_spec L) umax, 2 ^ 32 - 1 <= umax ->
  forall o g p q src n, gif_ok o g -> ser_gif g [] = p ++ q -> q <> [] -> delivers src p ->
  scannable o -> (length (gif_images g) < n)%nat ->
  read_info L src o = Err (DIo UnexpectedEof) \/
  exists d d' fs missing, read_info L src o = Ok d /\
    scan_all L n d = (d', fs, Err (DIo UnexpectedEof)) /\ map meta_seen (gif_images g) = fs ++ missing.
Proof. exact truncated_scan. Qed.
Print Assumptions C20_clean_end.
Print Assumptions C20_truncated_frames.
Print Assumptions C20_truncated_scan.
(** Cut just before the trailer. *)
Example C20_case : let p := removelast (ser_gif dx_gif []) in
  ser_gif dx_gif [] = p ++ [0x3B] /\ delivers (bytewise p) p /\
  (read_info lzw_ref (bytewise p) rgba_opts = Err (DIo UnexpectedEof) \/
   exists d d' fs missing, read_info lzw_ref (bytewise p) rgba_opts = Ok d /\
    read_all lzw_ref umax64 3 d = (d', fs, Err (DIo UnexpectedEof)) /\ [dx_frame1; dx_frame2] = fs ++ missing).
Proof.
  cbv zeta. set (p := removelast _).
  assert (Ep : ser_gif dx_gif [] = p ++ [0x3B]) by (vm_compute; reflexivity).
  assert (Hp : delivers (bytewise p) p) by (apply bytewise_delivers, bytes_by; vm_compute; reflexivity).
  split; [exact Ep|]. split; [exact Hp|].
  assert (X : all_seen rgba_opts dx_gif (gif_images dx_gif) dx_outs = [dx_frame1; dx_frame2]) by (vm_compute; reflexivity).
  rewrite <- X. assert (Hn : (length dx_outs < 3)%nat) by (cbn; lia).
  exact (C20_truncated_frames lzw_ref lzw_ref_spec umax64 dx_umax rgba_opts dx_gif p [0x3B] (bytewise p) dx_outs 3
    (dx_ok _ (or_introl eq_refl)) dx_limit Ep ltac:(discriminate) Hp eq_refl eq_refl (dx_holds _ (or_introl eq_refl)) Hn).
Qed.

(** ** C21 *)
Theorem C21_frame : forall L umax, lzw_safe L -> 2 ^ 32 - 1 <= umax ->
  forall src o d d' n, src_ok src -> limit_ok umax (o_limit o) -> opened L umax src o d -> o_limit o = Some n -> 1 <= n ->
  read_next_frame L umax d = (d', Ok true) -> len (f_buffer (dc_cur L d')) <= n.
Proof. exact frame_within_limit. Qed.
Theorem C21_item : forall L umax, lzw_safe L -> 2 ^ 32 - 1 <= umax ->
  forall src o it it' f n, src_ok src -> limit_ok umax (o_limit o) -> opened L umax src o (it_dec L it) -> o_limit o = Some n -> 1 <= n ->
  iter_next L umax it = (it', IFrame f) -> len (f_buffer f) <= n.
Proof. exact item_within_limit. Qed.
Theorem C21_extension : forall L, lzw_safe L ->
  forall o s rest evs n, driven L o s rest evs -> o_limit o = Some n -> len (snd (fst (last_ext L s))) <= N.max n 1.
Proof. exact ext_limit. Qed.
Print Assumptions C21_frame.
Print Assumptions C21_item.
Print Assumptions C21_extension.
(** The example file with a limit of 20 bytes: its extensions fit, the first frame (24 bytes) does not. *)
Definition dx_tight : options := mk_opts (Some 20) CRgba false false false false.
Example C21_case : limit_ok umax64 (o_limit dx_tight) /\
  match read_info lzw_ref dx_src dx_tight with
  | Ok d => let '(d1, x) := read_next_frame lzw_ref umax64 d in
            let '(d2, y) := read_next_frame lzw_ref umax64 d1 in
            x = Err (DIo OutOfMemory) /\ y = Ok true /\ len (f_buffer (dc_cur lzw_ref d2)) = 8
  | _ => False
  end.
Proof. split; [left; vm_compute; discriminate|]. vm_compute. auto. Qed.

(** ** C22 *)
Theorem C22_kept : forall L, lzw_safe L ->
  forall o s buf tl ob s' ob' n t evs, driven L o s (buf ++ tl) evs ->
  update L s buf ob = (s', ob', Ok (n, DFrameMetadata t)) -> o_check_frame_consistency o = true ->
  exists f, sd_current L s' = Some f /\ in_bounds (sd_width L s') (sd_height L s') f.
Proof. exact consistency_kept. Qed.
Theorem C22_refused : forall L, lzw_safe L ->
  forall o s buf tl ob s' ob' evs, driven L o s (buf ++ tl) evs ->
  update L s buf ob = (s', ob', Err (DFormat FrameOutOfBounds)) ->
  o_check_frame_consistency o = true /\ exists f, sd_current L s' = Some f /\ ~ in_bounds (sd_width L s') (sd_height L s') f.
Proof. exact consistency_refused. Qed.
Theorem C22_decoder_kept : forall L umax, lzw_safe L -> 2 ^ 32 - 1 <= umax ->
  forall src o, src_ok src -> limit_ok umax (o_limit o) ->
  forall d d', opened L umax src o d -> o_check_frame_consistency o = true ->
  next_frame_info L d = (d', Ok true) \/ read_next_frame L umax d = (d', Ok true) ->
  in_bounds (dec_width L d') (dec_height L d') (dc_cur L d').
Proof. exact frame_in_bounds. Qed.
Theorem C22_decoder_refused : forall L umax, lzw_safe L -> 2 ^ 32 - 1 <= umax ->
  forall src o, src_ok src -> limit_ok umax (o_limit o) ->
  forall d d', opened L umax src o d -> next_frame_info L d = (d', Err (DFormat FrameOutOfBounds)) ->
  o_check_frame_consistency o = true /\
  exists f, sd_current L (rd_dec L (dc_rd L d')) = Some f /\ ~ in_bounds (dec_width L d') (dec_height L d') f.
Proof. exact refused_out_of_bounds. Qed.
Print Assumptions C22_kept.
Print Assumptions C22_refused.
Print Assumptions C22_decoder_kept.
Print Assumptions C22_decoder_refused.
(** On a 4 x 4 screen: an image that just fits, and one that is a column too wide. *)
Definition dx_checked : options := mk_opts (Some 50000000) CIndexed true false false false.
Definition first_info (bs : list N) : dres bool :=
  match read_info lzw_ref (bytewise bs) dx_checked with Ok d => snd (next_frame_info lzw_ref d) | Err e => Err e | Panic => Panic | Hang => Hang end.
Example C22_case :
  first_info (head44 ++ img_desc 1 1 3 3 0 ++ data_of 2 [0]) = Ok true /\
  first_info (head44 ++ img_desc 2 1 3 3 0 ++ data_of 2 [0]) = Err (DFormat FrameOutOfBounds).
Proof. split; vm_compute; reflexivity. Qed.

(** ** C23, C24 *)
Theorem C23_order : forall h, interlace_rows h = gif_row_order (N.to_nat h).
Proof. exact interlace_rows_order. Qed.
(** However often the iterator is asked, it gives these rows and no more. *)
Theorem C23_exhausted : forall h fuel, (h <= fuel)%nat -> il_collect fuel (mk_il h 0 0) = gif_row_order h.
Proof. exact il_collect_order. Qed.
(** The look-up in the table and the assertion of the inner loop do not fail. *)
Theorem C23_total : forall h n p, (0 < h)%nat -> (p < 4)%nat -> exists x, il_while 5 h n p = Some x.
Proof. exact il_while_total. Qed.
Theorem C23_permutation : forall h, Permutation (gif_row_order h) (seq 0 h).
Proof. exact row_order_permutation. Qed.
Theorem C24_rows : forall w h px k c, (k < h)%nat -> (c < w)%nat ->
  nth (nth k (gif_row_order h) 0 * w + c)%nat (deinterlace w h px) 0 = nth (k * w + c) px 0.
Proof. exact deinterlace_rows. Qed.
Theorem C24_length : forall w h px, length (deinterlace w h px) = (w * h)%nat.
Proof. exact deinterlace_length. Qed.
Print Assumptions C23_order.
Print Assumptions C23_exhausted.
Print Assumptions C23_total.
Print Assumptions C23_permutation.
Print Assumptions C24_rows.
Print Assumptions C24_length.
Example C23_case : interlace_rows 11 = [0; 8; 4; 2; 6; 10; 1; 3; 5; 7; 9]%nat.
Proof. vm_compute. reflexivity. Qed.
Example C24_case : deinterlace 2 5 [1; 2; 3; 4; 5; 6; 7; 8; 9; 10] = [1; 2; 7; 8; 5; 6; 9; 10; 3; 4].
Proof. vm_compute. reflexivity. Qed.

(** ** C27 *)
Theorem C27_retry : forall L, lzw_safe L -> forall umax, 2 ^ 32 - 1 <= umax ->
  forall src1 src2 o n k d, src_ok src1 -> src_ok src2 -> Forall flaky_ev src1 -> good_src src2 ->
  concat (map ev_bytes src1) = concat (map ev_bytes src2) -> (bad_evs src1 <= n)%nat ->
  read_info L src1 o = Ok d -> retry_scan L n src1 o k = scan L umax src2 o (repeat false k).
Proof. exact retry_scan_transparent. Qed.
(** With [read_next_frame] instead, the interrupted frame is lost without an error. *)
Theorem C27_frame_lost_refuted :
  exists src f g, two_reads src = Some (Err (DIo (OtherIo 4)), Ok true, g) /\
    frames_of (without_errors src) options_new = ([f; g], Ok tt).
Proof. exact frame_lost_refuted. Qed.
Print Assumptions C27_retry.
Print Assumptions C27_frame_lost_refuted.
Lemma src_okb src : forallb (fun e => bytes_okb (ev_bytes e)) src = true -> src_ok src.
Proof.
  intros H. apply Forall_forall. intros e He. rewrite forallb_forall in H. apply bytes_by. exact (H e He).
Qed.
(** An error after every byte from the first image on. *)
Definition dx_flaky : list revent :=
  RChunk (firstn 60 (ser_gif dx_gif [])) :: flat_map (fun b => [RErr (OtherIo 1); RChunk [b]]) (skipn 60 (ser_gif dx_gif [])).
Example C27_case : exists d, read_info lzw_ref dx_flaky options_new = Ok d /\
  retry_scan lzw_ref 100 dx_flaky options_new 3 = scan lzw_ref umax64 [RChunk (ser_gif dx_gif [])] options_new (repeat false 3).
Proof.
  destruct (read_info lzw_ref dx_flaky options_new) as [d| | |] eqn:E.
  - exists d. split; [reflexivity|].
    apply (C27_retry lzw_ref (lz_is_safe _ lzw_ref_spec) umax64 dx_umax dx_flaky [RChunk (ser_gif dx_gif [])] options_new 100 3 d).
    + apply src_okb. vm_compute. reflexivity.
    + apply src_okb. vm_compute. reflexivity.
    + vm_compute. repeat constructor.
    + repeat constructor.
    + vm_compute. reflexivity.
    + vm_compute. lia.
    + exact E.
  - exfalso. assert (X : match read_info lzw_ref dx_flaky options_new with Ok _ => true | _ => false end = true) by (vm_compute; reflexivity).
    rewrite E in X. discriminate X.
  - exfalso. assert (X : match read_info lzw_ref dx_flaky options_new with Ok _ => true | _ => false end = true) by (vm_compute; reflexivity).
    rewrite E in X. discriminate X.
  - exfalso. assert (X : match read_info lzw_ref dx_flaky options_new with Ok _ => true | _ => false end = true) by (vm_compute; reflexivity).
    rewrite E in X. discriminate X.
Qed.

(** ** C28, C29, C30 *)
Theorem C28_iterator_fused_refuted :
  exists src f, two_items src = Some (INone, IFrame f) /\ f_width f = 1 /\ f_buffer f = [1].
Proof. exact iterator_fused_refuted. Qed.
Theorem C29_stops : forall L umax it it1 e n,
  iter_next L umax it = (it1, IErr e) -> iter_calls L umax it1 n = (it1, repeat INone n).
Proof. exact iter_stops. Qed.
Theorem C30_end_code_skip_refuted :
  exists src, snd (frames_of src strict_opts) = Ok tt /\
    skip_then_read src strict_opts = Err (DIo InvalidData) /\ skip_then_read src options_new = Ok true.
Proof. exact end_code_skip_refuted. Qed.
Theorem C30_end_code_bytewise_refuted :
  exists bytes, snd (frames_of [RChunk bytes] strict_opts) = Ok tt /\
    snd (frames_of (bytewise bytes) strict_opts) = Err (DIo InvalidData) /\ snd (frames_of (bytewise bytes) options_new) = Ok tt.
Proof. exact end_code_bytewise_refuted. Qed.
Print Assumptions C28_iterator_fused_refuted.
Print Assumptions C29_stops.
Print Assumptions C30_end_code_skip_refuted.
Print Assumptions C30_end_code_bytewise_refuted.
Example C29_case : match read_info lzw_ref (bytewise (removelast (ser_gif dx_gif []))) rgba_opts with
  | Ok d => map (fun y => match y with IFrame _ => 1 | IErr _ => 2 | INone => 3 | _ => 4 end)
              (snd (iter_calls lzw_ref umax64 (mk_iter lzw_ref d false) 5)) = [1; 1; 2; 3; 3]
  | _ => False
  end.
Proof. vm_compute. reflexivity. Qed.

(** ** C31 *)
Theorem C31_mixed : forall L (S : lzw_spec L) umax, 2 ^ 32 - 1 <= umax ->
  forall o g tl src ms outs, gif_ok o g -> delivers src (ser_gif g tl) ->
  o_skip_frame_decoding o = false -> o_check_for_end_code o = false -> length ms = length outs ->
  Forall2 (fun p ci => readable L S umax o (fst p) ci (snd p)) (combine ms outs) (gif_images g) ->
  exists d d', read_info L src o = Ok d /\
    read_mixed L umax d ms
    = (d', map (fun q => outcome o g (fst (fst q)) (snd q) (snd (fst q))) (combine (combine ms outs) (gif_images g)), Ok false) /\
    rd_rest L (dc_rd L d') = tl.
Proof. exact file_mixed. Qed.
Print Assumptions C31_mixed.
Example C31_case : exists d d', read_info lzw_ref dx_src options_new = Ok d /\
  read_mixed lzw_ref umax64 d [HInto (repeat 9 8); HPieces [[0]; [0]]]
  = (d', [(meta_seen (nth 0 (gif_images dx_gif) (ctl_none, dx_img2)), [0; 1; 1; 2; 2; 0; 9; 9]);
          (meta_seen (nth 1 (gif_images dx_gif) (ctl_none, dx_img2)), [1; 0])], Ok false).
Proof.
  destruct (C31_mixed lzw_ref lzw_ref_spec umax64 dx_umax options_new dx_gif dx_tail dx_src [HInto (repeat 9 8); HPieces [[0]; [0]]] dx_outs
    (dx_ok _ (or_intror (or_introl eq_refl))) dx_delivers eq_refl eq_refl eq_refl) as (d & d' & E & F & _).
  - constructor; [|constructor; [|constructor]].
    + split; [intros _; exact dx_pending1|]. split; [cbn; lia|]. split; [cbn; lia|vm_compute; discriminate].
    + split; [intros _; exact dx_pending2|]. split; [|cbn; lia]. repeat constructor; exists 1%nat; cbn; lia.
  - exists d, d'. split; [exact E|]. rewrite F. f_equal.
Qed.

(** ** C34 *)
Theorem C34_bg_color : forall L umax, lzw_safe L -> 2 ^ 32 - 1 <= umax ->
  forall src o, src_ok src -> limit_ok umax (o_limit o) ->
  forall d b p, opened L umax src o d -> dec_bg_color L d = Some b -> dec_global_palette L d = Some p -> b < len p / 3.
Proof. exact bg_color_valid. Qed.
Theorem C34_bg_color_refuted : forall L,
  exists src d, read_info L src options_new = Ok d /\ dec_bg_color L d = Some 77 /\ dec_global_palette L d = None.
Proof. exact bg_color_valid_refuted. Qed.
Print Assumptions C34_bg_color.
Print Assumptions C34_bg_color_refuted.
Example C34_case : match read_info lzw_ref dx_src rgba_opts with
  | Ok d => dec_bg_color lzw_ref d = Some 1 /\ dec_global_palette lzw_ref d = Some [1; 2; 3; 4; 5; 6]
  | _ => False
  end.
Proof. vm_compute. auto. Qed.

(** ** C36 *)
Theorem C36_unknown_block_skipped_refuted :
  exists blk, summary (frames_of [RChunk (with_block [])] lenient_opts) = (1%nat, Ok tt) /\
    summary (frames_of [RChunk (with_block blk)] lenient_opts) = (0%nat, Err (DFormat ControlWrongLength)).
Proof. exact unknown_block_skipped_refuted. Qed.
Print Assumptions C36_unknown_block_skipped_refuted.

(** ** C39 *)
Theorem C39_palettes : forall L umax, lzw_safe L -> 2 ^ 32 - 1 <= umax ->
  forall src o, src_ok src -> limit_ok umax (o_limit o) ->
  forall d, opened L umax src o d ->
  match f_palette (dc_cur L d) with Some p => pal_size (length p) | None => True end /\
  match dec_global_palette L d with Some p => pal_size (length p) | None => True end.
Proof. exact palette_sizes. Qed.
Theorem C39_screen_data : forall L umax, lzw_safe L -> 2 ^ 32 - 1 <= umax ->
  forall src o, src_ok src -> limit_ok umax (o_limit o) ->
  forall d, opened L umax src o d -> exists d0, read_info L src o = Ok d0 /\ screen_data L d = screen_data L d0.
Proof. exact screen_data_fixed. Qed.
Print Assumptions C39_palettes.
Print Assumptions C39_screen_data.
(** The decoder of the example file after its first frame. *)
Example C39_case : exists d d', opened lzw_ref umax64 dx_src rgba_opts d' /\ read_info lzw_ref dx_src rgba_opts = Ok d /\
  dc_cur lzw_ref d' = dx_frame1.
Proof.
  assert (Hn : (length dx_outs < 3)%nat) by (cbn; lia).
  destruct (C19_frames lzw_ref lzw_ref_spec umax64 dx_umax rgba_opts dx_gif dx_tail dx_src dx_outs 3 (dx_ok _ (or_introl eq_refl))
    dx_delivers eq_refl eq_refl (dx_holds _ (or_introl eq_refl)) Hn) as (d & d' & E & F & R).
  assert (X : all_seen rgba_opts dx_gif (gif_images dx_gif) dx_outs = [dx_frame1; dx_frame2]) by (vm_compute; reflexivity).
  rewrite X in F. cbn [read_all] in F. destruct (read_next_frame lzw_ref umax64 d) as [d1 x] eqn:E1.
  destruct x as [b|e| |]; [|discriminate F|discriminate F|discriminate F]. destruct b; [|discriminate F].
  exists d, d1. split; [|split; [exact E|]].
  - eapply (op_call lzw_ref umax64 dx_src rgba_opts d OpFrame d1 (OutBool (Ok true))).
    + now apply op_info.
    + exact I.
    + cbn [run_dop]. rewrite E1. reflexivity.
  - destruct (read_next_frame lzw_ref umax64 d1) as [d2 x]. destruct x as [[|]|e| |]; try discriminate F.
    + destruct (read_next_frame lzw_ref umax64 d2) as [d3 x]. destruct x as [[|]|e| |]; congruence.
Qed.

(** ** C40: with the caller's own buffers nothing overflows, whatever the platform and the memory limit *)
Theorem C40_own_buffers : forall L umax, lzw_safe L -> 2 ^ 32 - 1 <= umax ->
  forall src o os, src_ok src -> Forall (fun op => op <> OpFrame /\ op_ok umax op) os ->
  forall d, read_info L src o = Ok d ->
  Forall out_returns (snd (run_dops L umax d os)) /\
  Forall2 (fun op y => match op, y with
                       | OpInto buf, OutInto b _ | OpFill buf, OutFill b _ => length b = length buf
                       | OpInfo, OutBool _ => True
                       | _, _ => False
                       end) os (snd (run_dops L umax d os)).
Proof. exact own_buffers_return. Qed.
Print Assumptions C40_own_buffers.
(** The 65535 x 65535 image that makes [read_next_frame] panic on 32-bit platforms without a limit. *)
Example C40_case : match read_info lzw_ref [RChunk huge] unlimited with
  | Ok d => snd (run_dops lzw_ref umax32 d [OpInfo; OpInto [1; 2; 3]])
            = [OutBool (Ok true); OutInto [1; 2; 3] (Err (DFormat BufferTooSmall))]
  | _ => False
  end.
Proof. vm_compute. reflexivity. Qed.

(** ** C41 *)
Theorem C41_grammar : forall L, lzw_safe L ->
  forall o s rest evs, driven L o s rest evs -> exists p, phase_run (o_allow_unknown_blocks o) PStart evs = Some p.
Proof. exact driven_grammar. Qed.
Theorem C41_header_once : forall unk evs p, phase_run unk PStart evs = Some p -> (length (filter is_header_end evs) <= 1)%nat.
Proof. exact grammar_header. Qed.
Theorem C41_after_header : forall unk a d b p, phase_run unk PStart (a ++ d :: b) = Some p ->
  d = DBlockStart BkImage \/ d = DBlockStart BkTrailer \/ (exists t, d = DFrameMetadata t) \/
  (exists k, d = DBytesDecoded k) \/ (exists k, d = DLzwDataCopied k) \/ d = DDataEnd -> In DHeaderEnd a.
Proof. exact grammar_after_header. Qed.
Theorem C41_trailer_last : forall unk a b p, phase_run unk PStart (a ++ DBlockStart BkTrailer :: b) = Some p -> Forall (eq DNothing) b.
Proof. exact grammar_trailer_last. Qed.
Print Assumptions C41_grammar.
Print Assumptions C41_header_once.
Print Assumptions C41_after_header.
Print Assumptions C41_trailer_last.
Example C41_case : driven lzw_ref options_new (fst (fst (dx_run 50 200))) [] (snd (dx_run 50 200)) /\
  snd (dx_run 50 200) =
  [DBackgroundColor 1; DGlobalPalette [1; 2; 3; 4; 5; 6]; DBlockStart BkExtension; DSubBlockFinished 0xFE; DBlockFinished 0xFE;
   DBlockStart BkExtension; DSubBlockFinished 0xFF; DBlockFinished 0xFF; DRepetitions (RFinite 5); DBlockStart BkExtension;
   DBlockFinished 0xF9; DHeaderEnd; DBlockStart BkImage; DFrameMetadata FPixels; DDataEnd; DBlockStart BkImage; DFrameMetadata FPixels;
   DDataEnd; DBlockStart BkTrailer].
Proof.
  split; [|vm_compute; reflexivity].
  assert (H : snd (fst (dx_run 50 200)) = []) by (vm_compute; reflexivity).
  pose proof (dx_run_driven 50 200) as D. rewrite H in D. exact D.
Qed.

(** ** C45: an animation without frames but with some extension can be read *)
Theorem C45_empty_animation : forall L, lzw_spec L -> forall umax, 2 ^ 32 - 1 <= umax ->
  forall o w sw sh pal dbg ops e1 e2 e3 w3 tl src,
  u16_ok sw -> u16_ok sh -> bytes_ok pal -> Forall op_rng ops ->
  encoder_new w sw sh pal = (e1, Ok tt) -> run_ops L dbg e1 ops = (e2, Ok tt) -> into_inner e2 = (e3, Ok w3) ->
  w_out w = [] -> delivers src (w_out w3 ++ tl) ->
  Forall (call_readable o) ops -> Forall (fun c => frame_of c = None) ops -> Exists writes_block ops ->
  o_skip_frame_decoding o = false -> o_check_for_end_code o = false ->
  exists d d', read_info L src o = Ok d /\ read_next_frame L umax d = (d', Ok false).
Proof. exact empty_animation. Qed.
Theorem C45_empty_animation_refuted :
  match session [] with
  | Some b => match read_info lzw_ref [RChunk b] options_new with Err (DIo UnexpectedEof) => True | _ => False end
  | None => False
  end.
Proof. exact empty_animation_refuted. Qed.
Print Assumptions C45_empty_animation.
Print Assumptions C45_empty_animation_refuted.
Example C45_case : match session [OSetRepeat (RFinite 3)] with
  | Some b => match read_info lzw_ref (bytewise b) options_new with
              | Ok d => snd (read_next_frame lzw_ref umax64 d) = Ok false
              | _ => False
              end
  | None => False
  end.
Proof. vm_compute. reflexivity. Qed.

(** ** C46: more input never changes what has been reported *)
Theorem C46_longer_input : forall L umax, lzw_safe L -> 2 ^ 32 - 1 <= umax ->
  forall src more o d os d' ys, src_ok src -> limit_ok umax (o_limit o) -> Forall (op_ok umax) os ->
  read_info L src o = Ok d -> run_dops L umax d os = (d', ys) -> Forall out_not_eof ys ->
  exists d2 d2', read_info L (src ++ more) o = Ok d2 /\ run_dops L umax d2 os = (d2', ys) /\
    dec_into_inner L d2' = (fst (dec_into_inner L d'), snd (dec_into_inner L d') ++ more).
Proof. exact longer_input. Qed.
Theorem C46_longer_input_info : forall L src more o e, src_ok src -> e <> DIo UnexpectedEof ->
  read_info L src o = Err e -> read_info L (src ++ more) o = Err e.
Proof. exact longer_input_info. Qed.
Print Assumptions C46_longer_input.
Print Assumptions C46_longer_input_info.
Example C46_case : match read_info lzw_ref dx_src rgba_opts with
  | Ok d => let ys := snd (run_dops lzw_ref umax64 d [OpFrame; OpInfo; OpFill (repeat 0 4); OpInfo]) in
            Forall out_not_eof ys /\ length ys = 4%nat
  | _ => False
  end.
Proof. vm_compute. split; [repeat constructor; discriminate|reflexivity]. Qed.
