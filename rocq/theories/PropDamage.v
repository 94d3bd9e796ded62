(** Properties C52 and C53: what is read of damaged files, and what is refused. *)
From Verif Require Import Base Common Lzw Encoder Stream Converter Reader LzwRef LzwRefSpec ConvInv SpecGif SpecPixels
  SpecEnc SpecDamage DocAll DecoderSafe CanonReader StreamInv DecInv DecProps Pixels DocTrace DocBlocks PixelRead DocRead Damage
  Validate Refuted PropEnc PropDec.
Open Scope N_scope.

(** ** C52: the frames of the intact beginning *)
(** Whatever bytes [tz] follow. *)
Theorem C52_frames : forall L (S : lzw_spec L) umax, 2 ^ 32 - 1 <= umax ->
  forall o g tz, part_ok o g -> forall src, delivers src (ser_cut g tz) ->
  forall outs n, o_skip_frame_decoding o = false -> o_check_for_end_code o = false ->
  Forall2 (holds L S umax o) (gif_images g) outs -> (0 < n <= length outs)%nat ->
  exists d d', read_info L src o = Ok d /\ read_all L umax n d = (d', firstn n (all_seen o g (gif_images g) outs), Ok true).
Proof. exact intact_frames. Qed.
Theorem C52_iter : forall L (S : lzw_spec L) umax, 2 ^ 32 - 1 <= umax ->
  forall o g tz, part_ok o g -> forall src, delivers src (ser_cut g tz) ->
  forall outs n, o_skip_frame_decoding o = false -> o_check_for_end_code o = false ->
  Forall2 (holds L S umax o) (gif_images g) outs -> (0 < n <= length outs)%nat ->
  exists d it, read_info L src o = Ok d /\
    iter_all L umax n (mk_iter L d false) = (it, firstn n (map IFrame (all_seen o g (gif_images g) outs))).
Proof. exact intact_iter. Qed.
Theorem C52_raw : forall L (S : lzw_spec L) umax, 2 ^ 32 - 1 <= umax ->
  forall o g tz, part_ok o g -> forall src, delivers src (ser_cut g tz) ->
  forall n, o_skip_frame_decoding o = true ->
  Forall (fun ci => fits (o_limit o) (1 + len (payload (im_subs (snd ci))))) (gif_images g) -> (0 < n <= length (gif_images g))%nat ->
  exists d d', read_info L src o = Ok d /\ read_all L umax n d = (d', firstn n (map raw_seen (gif_images g)), Ok true).
Proof. exact intact_raw. Qed.
Theorem C52_scan : forall L (S : lzw_spec L) umax, 2 ^ 32 - 1 <= umax ->
  forall o g tz, part_ok o g -> forall src, delivers src (ser_cut g tz) ->
  forall n, scannable o -> (0 < n <= length (gif_images g))%nat ->
  exists d d', read_info L src o = Ok d /\ scan_all L n d = (d', firstn n (map meta_seen (gif_images g)), Ok true).
Proof. exact intact_scan. Qed.
Print Assumptions C52_frames.
Print Assumptions C52_iter.
Print Assumptions C52_raw.
Print Assumptions C52_scan.
(** Behind two images comes rubbish. *)
Definition mx_tz : list N := [0x2C; 0; 0; 77; 33; 0; 59; 255; 0x21; 0xF9].
Lemma mx_delivers tz : bytes_okb (ser_cut dx_gif tz) = true -> delivers (bytewise (ser_cut dx_gif tz)) (ser_cut dx_gif tz).
Proof. intros H. apply bytewise_delivers, bytes_by, H. Qed.
Lemma mx_ok : part_ok rgba_opts dx_gif.
Proof. exact (gif_part_ok _ _ (dx_ok _ (or_introl eq_refl))). Qed.
Lemma mx_seen : all_seen rgba_opts dx_gif (gif_images dx_gif) dx_outs = [dx_frame1; dx_frame2].
Proof. vm_compute. reflexivity. Qed.
Example C52_case : exists d d', read_info lzw_ref (bytewise (ser_cut dx_gif mx_tz)) rgba_opts = Ok d /\
  read_all lzw_ref umax64 2 d = (d', [dx_frame1; dx_frame2], Ok true).
Proof.
  assert (D : delivers (bytewise (ser_cut dx_gif mx_tz)) (ser_cut dx_gif mx_tz)) by (apply mx_delivers; vm_compute; reflexivity).
  assert (Hn : (0 < 2 <= length dx_outs)%nat) by (cbn; lia).
  pose proof (C52_frames lzw_ref lzw_ref_spec umax64 dx_umax rgba_opts dx_gif mx_tz mx_ok _ D dx_outs 2 eq_refl eq_refl
    (dx_holds _ (or_introl eq_refl)) Hn) as H.
  rewrite mx_seen in H. exact H.
Qed.

(** ** C53: the error names the damage *)
Theorem C53_frames : forall L (S : lzw_spec L) umax, 2 ^ 32 - 1 <= umax ->
  forall o g tz e, part_ok o g -> damage o g tz e ->
  forall src, delivers src (ser_cut g tz) -> ~ noticed_by_read_info g tz ->
  forall outs n, o_skip_frame_decoding o = false -> o_check_for_end_code o = false ->
  Forall2 (holds L S umax o) (gif_images g) outs -> (length outs < n)%nat ->
  exists d d', read_info L src o = Ok d /\ read_all L umax n d = (d', all_seen o g (gif_images g) outs, Err e).
Proof. exact damage_frames. Qed.
Theorem C53_iter : forall L (S : lzw_spec L) umax, 2 ^ 32 - 1 <= umax ->
  forall o g tz e, part_ok o g -> damage o g tz e ->
  forall src, delivers src (ser_cut g tz) -> ~ noticed_by_read_info g tz ->
  forall outs k, o_skip_frame_decoding o = false -> o_check_for_end_code o = false ->
  Forall2 (holds L S umax o) (gif_images g) outs ->
  exists d it, read_info L src o = Ok d /\
    iter_all L umax (length outs + Datatypes.S k) (mk_iter L d false) =
      (it, map IFrame (all_seen o g (gif_images g) outs) ++ IErr e :: repeat INone k).
Proof. exact damage_iter. Qed.
Theorem C53_raw : forall L (S : lzw_spec L) umax, 2 ^ 32 - 1 <= umax ->
  forall o g tz e, part_ok o g -> damage o g tz e ->
  forall src, delivers src (ser_cut g tz) -> ~ noticed_by_read_info g tz ->
  forall n, o_skip_frame_decoding o = true ->
  Forall (fun ci => fits (o_limit o) (1 + len (payload (im_subs (snd ci))))) (gif_images g) -> (length (gif_images g) < n)%nat ->
  exists d d', read_info L src o = Ok d /\ read_all L umax n d = (d', map raw_seen (gif_images g), Err e).
Proof. exact damage_raw. Qed.
Theorem C53_scan : forall L (S : lzw_spec L) umax, 2 ^ 32 - 1 <= umax ->
  forall o g tz e, part_ok o g -> damage o g tz e ->
  forall src, delivers src (ser_cut g tz) -> ~ noticed_by_read_info g tz ->
  forall n, scannable o -> (length (gif_images g) < n)%nat ->
  exists d d', read_info L src o = Ok d /\ scan_all L n d = (d', map meta_seen (gif_images g), Err e).
Proof. exact damage_scan. Qed.
Theorem C53_refused : forall L (S : lzw_spec L) umax, 2 ^ 32 - 1 <= umax ->
  forall o g tz e, part_ok o g -> damage o g tz e ->
  forall src, delivers src (ser_cut g tz) -> noticed_by_read_info g tz -> read_info L src o = Err e.
Proof. exact damage_refused. Qed.
Theorem C53_header_cut : forall L (S : lzw_spec L) umax, 2 ^ 32 - 1 <= umax ->
  forall o g p q src, part_ok o g -> p ++ q = ser_head g -> delivers src p ->
  read_info L src o = Err (DIo UnexpectedEof).
Proof. exact header_cut. Qed.
Theorem C53_signature : forall L (S : lzw_spec L) umax, 2 ^ 32 - 1 <= umax ->
  forall o bytes src, (6 <= length bytes)%nat -> firstn 6 bytes <> [71; 73; 70; 56; 55; 97] -> firstn 6 bytes <> [71; 73; 70; 56; 57; 97] ->
  delivers src bytes -> read_info L src o = Err (DFormat MalformedHeader).
Proof. exact bad_signature. Qed.
Print Assumptions C53_frames.
Print Assumptions C53_iter.
Print Assumptions C53_raw.
Print Assumptions C53_scan.
Print Assumptions C53_refused.
Print Assumptions C53_header_cut.
Print Assumptions C53_signature.

(** Each kind of damage, behind the two images of [dx_gif]. *)
Lemma mx_unnoticed tz : ~ noticed_by_read_info dx_gif tz.
Proof. intros [H _]. rewrite Forall_forall in H. apply (H (BImg dx_img1)). cbn. tauto. Qed.
Definition mx_out : img := mk_img 3 3 2 2 0 [] 2 [[12; 10]].
Definition mx_bare : img := mk_img 0 0 2 1 0 [] 2 [[12; 10]].
Definition mx_cases : list (list N * derr) :=
  [ ([0x44; 0; 0x3B], DFormat UnknownBlockType);
    ([0x21; 0x55; 1; 0; 0; 0x3B], DFormat UnknownBlockType);
    ([0x21; 0xF9; 3; 0; 0; 0; 0; 0x3B], DFormat ControlWrongLength);
    ([0x2C; 0; 0; 0; 0; 2; 0; 1; 0; 0; 12; 2; 12; 10; 0; 0x3B], DFormat InvalidMinimalCodeSize);
    ([], DIo UnexpectedEof);
    ([0x21; 0xFE; 3; 72; 105], DIo UnexpectedEof);
    ([0x2C; 0; 0; 0; 0; 2], DIo UnexpectedEof);
    ([0x2C; 0; 0; 0; 0; 2; 0; 1; 0; 0; 12], DIo UnexpectedEof);
    ([0x44], DIo UnexpectedEof);
    ([0x21; 0xF9; 5; 1; 2; 3; 4; 5], DIo UnexpectedEof) ].
Lemma mx_damage : Forall (fun te => damage rgba_opts dx_gif (fst te) (snd te)) mx_cases.
Proof.
  unfold mx_cases. constructor; [|constructor; [|constructor; [|constructor; [|constructor; [|constructor; [|constructor; [|constructor; [|constructor; [|constructor; [|constructor]]]]]]]]]]; cbn [fst snd].
  - apply dmg_block; [reflexivity|]. repeat split; discriminate.
  - apply dmg_label. intros [H|[H|[H|H]]]; discriminate.
  - apply (dmg_control rgba_opts dx_gif [[0; 0; 0]] [0x3B]); [split; [discriminate|crush_rng]|discriminate|vm_compute; discriminate].
  - apply (dmg_code_size rgba_opts dx_gif (mk_img 0 0 2 1 0 [] 12 []) 2 [12; 10; 0; 0x3B]).
    + repeat split.
    + split; [crush_rng|reflexivity].
    + discriminate.
    + cbn. lia.
  - apply dmg_end.
  - apply (dmg_cut_data rgba_opts dx_gif 0xFE [] 3 [72; 105]); [right; right; left; reflexivity| |vm_compute; discriminate].
    split; [constructor|]. split; [lia|vm_compute; discriminate].
  - apply (dmg_cut_image rgba_opts dx_gif dx_img2 _ [0; 1; 0; 0; 2]); [repeat split|split; [crush_rng|reflexivity]|discriminate|reflexivity].
  - apply (dmg_cut_image rgba_opts dx_gif (mk_img 0 0 2 1 0 [] 12 []) _ []); [repeat split|split; [crush_rng|reflexivity]|discriminate|reflexivity].
  - apply dmg_cut_block. repeat split; discriminate.
  - apply (dmg_cut_data rgba_opts dx_gif 0xF9 [] 5 [1; 2; 3; 4; 5]); [right; left; reflexivity| |vm_compute; discriminate].
    split; [constructor|]. split; [lia|vm_compute; discriminate].
Qed.
Example C53_case : Forall (fun te => exists d d',
    read_info lzw_ref (bytewise (ser_cut dx_gif (fst te))) rgba_opts = Ok d /\
    read_all lzw_ref umax64 3 d = (d', [dx_frame1; dx_frame2], Err (snd te))) mx_cases.
Proof.
  assert (Hb : Forall (fun te => delivers (bytewise (ser_cut dx_gif (fst te))) (ser_cut dx_gif (fst te))) mx_cases).
  { apply Forall_forall. intros te Hi. apply mx_delivers.
    assert (H : forallb (fun te => bytes_okb (ser_cut dx_gif (fst te))) mx_cases = true) by (vm_compute; reflexivity).
    rewrite forallb_forall in H. exact (H te Hi). }
  pose proof mx_damage as Hd. assert (Hn : (length dx_outs < 3)%nat) by (cbn; lia).
  rewrite Forall_forall in *. intros te Hi. rewrite <- mx_seen.
  exact (C53_frames lzw_ref lzw_ref_spec umax64 dx_umax rgba_opts dx_gif _ _ mx_ok (Hd te Hi) _ (Hb te Hi) (mx_unnoticed _) dx_outs 3
    eq_refl eq_refl (dx_holds _ (or_introl eq_refl)) Hn).
Qed.
(** The remaining kinds need other options or another header. *)
Definition strict_opts : options := mk_opts (Some 20) CRgba true false false false.
Definition bare_gif : gif := mk_gif true 4 4 0 0 0 [] [BExt 0xFE [[72]; [105]]].
Example C53_more :
  damage strict_opts bare_gif (0x2C :: descriptor mx_out ++ [2]) (DFormat FrameOutOfBounds) /\
  damage strict_opts bare_gif (0x21 :: 0xFE :: ser_subs [repeat 65 20] ++ [0x3B]) (DFormat MemoryLimitReached) /\
  damage strict_opts bare_gif (0x21 :: 0xFE :: 12 :: repeat 65 12 ++ 200 :: repeat 65 8) (DFormat MemoryLimitReached) /\
  damage strict_opts bare_gif (ser_img mx_bare ++ [0x3B]) (DFormat NoColorTable) /\
  part_ok strict_opts bare_gif /\ noticed_by_read_info bare_gif (0x21 :: 0xFE :: ser_subs [repeat 65 20] ++ [0x3B]) /\
  ~ noticed_by_read_info bare_gif (ser_img mx_bare ++ [0x3B]).
Proof.
  split; [|split; [|split; [|split; [|split; [|split]]]]].
  - apply dmg_bounds; [reflexivity|repeat split|]. intros [H _]. vm_compute in H. congruence.
  - apply (dmg_memory strict_opts bare_gif 0xFE [] 20 (repeat 65 20) [0; 0x3B]); [right; right; left; reflexivity| |discriminate|].
    + split; [constructor|]. split; [lia|vm_compute; discriminate].
    + vm_compute. congruence.
  - apply (dmg_memory strict_opts bare_gif 0xFE [repeat 65 12] 200 (repeat 65 8) []); [right; right; left; reflexivity| |discriminate|].
    + split; [crush_rng|]. split; [lia|vm_compute; discriminate].
    + vm_compute. congruence.
  - apply (dmg_colors strict_opts bare_gif mx_bare [0x3B]); try reflexivity.
    + repeat split.
    + split; [crush_rng|reflexivity].
    + intros _. vm_compute. split; discriminate.
    + vm_compute. split; discriminate.
    + split; [discriminate|crush_rng].
  - unfold part_ok. split; [reflexivity|]. split; [reflexivity|]. split; [reflexivity|]. split; [reflexivity|]. split; [reflexivity|].
    split; [split; [crush_rng|reflexivity]|]. split; [|exact I]. constructor; [|constructor].
    split; [right; right; left; reflexivity|]. split; [split; [discriminate|crush_rng]|]. split; [discriminate|vm_compute; discriminate].
  - split; [constructor; [exact I|constructor]|right; reflexivity].
  - intros [_ [H|H]]; [vm_compute in H; lia|discriminate].
Qed.
Example C53_signature_case : read_info lzw_ref (bytewise [71; 73; 70; 56; 56; 97; 1; 0]) rgba_opts = Err (DFormat MalformedHeader).
Proof.
  assert (D : delivers (bytewise [71; 73; 70; 56; 56; 97; 1; 0]) [71; 73; 70; 56; 56; 97; 1; 0]) by (apply bytewise_delivers, bytes_by; reflexivity).
  apply (C53_signature lzw_ref lzw_ref_spec umax64 dx_umax rgba_opts _ _) in D; [exact D|cbn; lia|discriminate|discriminate].
Qed.
