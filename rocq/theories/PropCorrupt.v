(** Property C79: invalid LZW codes in image data are reported. *)
From Verif Require Import Base Common Lzw LzwErrs Encoder Stream Converter Reader LzwRef LzwRefSpec ConvInv SpecGif SpecPixels
  DocRead DocAll Mixed SpecVerdict Verdict SpecCorrupt CorruptDoc Validate Refuted PropEnc PropDec PropMore PropVerdict.
Open Scope N_scope.

(** A caller reads the images of a file one after the other, each in one of four ways. The images up to one whose data have
    an invalid code are reported as if it were not there. For that image the caller is told [DIo InvalidData], unless
    the pixels before the invalid code are enough; and if they are more than enough it gets exactly those pixels. *)
Theorem C79_reported : forall L (S : lzw_spec L) (Z : lzw_errs S) umax, 2 ^ 32 - 1 <= umax ->
  forall o g tl src l1 ci l2 mos m out, gif_ok o g -> delivers src (ser_gif g tl) ->
  o_skip_frame_decoding o = false -> o_check_for_end_code o = false -> limit_ok umax (o_limit o) ->
  gif_images g = l1 ++ ci :: l2 -> Forall2 (asked L S umax o) l1 mos ->
  lz_fails Z (lz_new L (im_mcs (snd ci))) (payload (im_subs (snd ci))) out -> feasible umax o m (snd ci) ->
  exists d d' rs r y, read_info L src o = Ok d /\ read_each L umax d (map fst mos ++ [m]) = (d', rs ++ [r], y) /\
    Forall2 (fun cm r => told umax o g (fst (snd cm)) (fst cm) (snd (snd cm)) r) (combine l1 mos) rs /\ told_bad o g m ci out r.
Proof. exact file_corrupt. Qed.
Print Assumptions C79_reported.

(** The iterator yields the frames before such an image, the error and then nothing more. *)
Theorem C79_iterator : forall L (S : lzw_spec L) (Z : lzw_errs S) umax, 2 ^ 32 - 1 <= umax ->
  forall o g tl src l1 ci l2 outs out k, gif_ok o g -> delivers src (ser_gif g tl) ->
  o_skip_frame_decoding o = false -> o_check_for_end_code o = false ->
  gif_images g = l1 ++ ci :: l2 -> Forall2 (holds L S umax o) l1 outs ->
  lz_fails Z (lz_new L (im_mcs (snd ci))) (payload (im_subs (snd ci))) out -> feasible umax o HFrame (snd ci) ->
  (length out < im_pixels (snd ci))%nat ->
  exists d it, read_info L src o = Ok d /\
    iter_all L umax (length outs + Datatypes.S k) (mk_iter L d false) =
      (it, map IFrame (all_seen o g l1 outs) ++ IErr (DIo InvalidData) :: repeat INone k).
Proof. exact file_corrupt_iter. Qed.
Print Assumptions C79_iterator.

(** Whatever bytes are in the sub-blocks of an image, reading it gives the picture they stand for, or says that they are
    too few, or that they are invalid. *)
Theorem C79_any_data : forall L (S : lzw_spec L) (Z : lzw_errs S) umax, 2 ^ 32 - 1 <= umax ->
  forall o g tl src ci l, gif_ok o g -> delivers src (ser_gif g tl) ->
  o_skip_frame_decoding o = false -> o_check_for_end_code o = false -> limit_ok umax (o_limit o) ->
  gif_images g = ci :: l -> feasible umax o HFrame (snd ci) ->
  exists d d' x out, read_info L src o = Ok d /\ read_next_frame L umax d = (d', x) /\
    ((lz_pending S (lz_new L (im_mcs (snd ci))) (payload (im_subs (snd ci))) out /\
      ((x = Ok true /\ (im_pixels (snd ci) <= length out)%nat /\ dc_cur L d' = seen o g ci out) \/
       (x = Err (DFormat ImageTruncated) /\ (length out < im_pixels (snd ci))%nat))) \/
     (lz_fails Z (lz_new L (im_mcs (snd ci))) (payload (im_subs (snd ci))) out /\
      ((x = Ok true /\ (im_pixels (snd ci) <= length out)%nat /\ dc_cur L d' = seen o g ci out) \/
       (x = Err (DIo InvalidData) /\ (length out <= im_pixels (snd ci))%nat)))).
Proof. exact file_any_data. Qed.
Print Assumptions C79_any_data.

(** ** The hypotheses can be met *)
(** The codes of [vc_img] are: clear, 0, 7; and 7 does not exist yet. *)
Lemma vc_fails : lz_fails lzw_ref_errs (lz_new lzw_ref 2) (payload (im_subs vc_img)) [0].
Proof.
  split; [reflexivity|]. split; [reflexivity|]. exists [0]. split; [reflexivity|].
  apply B_clear; [apply Nat.leb_le; vm_compute; reflexivity|vm_compute; reflexivity|].
  change [0] with ([0] ++ [] : list N).
  apply B_word; [apply Nat.leb_le; vm_compute; reflexivity|vm_compute; reflexivity|].
  apply B_bad; [apply Nat.leb_le; vm_compute; reflexivity|vm_compute; reflexivity].
Qed.
Lemma vc_split : gif_images vc_gif = firstn 1 (gif_images vc_gif) ++ (ctl_none, vc_img) :: skipn 2 (gif_images vc_gif).
Proof. reflexivity. Qed.
Lemma vc_asked : Forall2 (asked lzw_ref lzw_ref_spec umax64 rgba_opts) (firstn 1 (gif_images vc_gif)) [(HFrame, [1; 0])].
Proof. constructor; [|constructor]. split; [intros _; exact dx_pending2|]. cbn. lia. Qed.

Example C79_frame_case : exists d d' r1 r2 y, read_info lzw_ref [RChunk (ser_gif vc_gif [])] rgba_opts = Ok d /\
  read_each lzw_ref umax64 d [HFrame; HFrame] = (d', [r1; r2], y) /\ snd r1 = Ok true /\ snd r2 = Err (DIo InvalidData).
Proof.
  destruct (C79_reported lzw_ref lzw_ref_spec lzw_ref_errs umax64 dx_umax rgba_opts vc_gif [] _ _ _ _ _ HFrame [0] vc_ok vc_chunk
    eq_refl eq_refl dx_limit vc_split vc_asked vc_fails) as (d & d' & rs & [[f b] x] & y & E1 & E2 & T & Tb).
  { cbn [snd feasible]. repeat split; cbn; try lia; try (intros H; discriminate H). }
  inversion T as [|? [[f1 b1] x1] ? ? T1 T']; subst; clear T. inversion T'; subst. exists d, d', (f1, b1, x1), (f, b, x), y.
  split; [exact E1|]. split; [exact E2|]. split; [apply T1|].
  destruct Tb as [[-> _]|(_ & H & _)]; [reflexivity|]. vm_compute in H. lia.
Qed.

(** Clear, 0, clear, 1, 7: two pixels, then an invalid code. *)
Definition vb_img : img := mk_img 0 0 2 3 0 [] 2 [[4]; [115; 255]].
Definition vb_gif : gif := mk_gif true 4 4 0x80 1 0 [1; 2; 3; 4; 5; 6] [BImg vb_img].
Lemma vb_ok : gif_ok rgba_opts vb_gif.
Proof.
  split; [reflexivity|]. split; [reflexivity|]. split; [reflexivity|]. split; [reflexivity|]. split; [reflexivity|].
  split; [split; [crush_rng|reflexivity]|]. split; [discriminate|].
  split; [|exact I].
  unfold vb_gif at 2. cbn [g_blocks]. constructor; [|constructor]. vx_image.
Qed.
Lemma vb_bytes : bytes_ok (ser_gif vb_gif []).
Proof. apply bytes_by. vm_compute. reflexivity. Qed.
Lemma vb_chunk : delivers [RChunk (ser_gif vb_gif [])] (ser_gif vb_gif []).
Proof. split; [constructor; [exact vb_bytes|constructor]|split; [constructor; [exact I|constructor]|reflexivity]]. Qed.
Lemma vb_fails : lz_fails lzw_ref_errs (lz_new lzw_ref 2) (payload (im_subs vb_img)) [0; 1].
Proof.
  split; [reflexivity|]. split; [reflexivity|]. exists [0; 1]. split; [reflexivity|].
  apply B_clear; [apply Nat.leb_le; vm_compute; reflexivity|vm_compute; reflexivity|].
  change [0; 1] with ([0] ++ [1] : list N).
  apply B_word; [apply Nat.leb_le; vm_compute; reflexivity|vm_compute; reflexivity|].
  apply B_clear; [apply Nat.leb_le; vm_compute; reflexivity|vm_compute; reflexivity|].
  change [1] with ([1] ++ [] : list N).
  apply B_word; [apply Nat.leb_le; vm_compute; reflexivity|vm_compute; reflexivity|].
  apply B_bad; [apply Nat.leb_le; vm_compute; reflexivity|vm_compute; reflexivity].
Qed.
(** The first pixel is read on its own, and is right; then the error comes. *)
Example C79_pieces_case : exists d d' f b y, read_info lzw_ref [RChunk (ser_gif vb_gif [])] rgba_opts = Ok d /\
  read_each lzw_ref umax64 d [HPieces [repeat 9 4; repeat 9 8; repeat 9 8]] = (d', [(f, b, Err (DIo InvalidData))], y) /\
  firstn 4 b = [1; 2; 3; 255].
Proof.
  destruct (C79_reported lzw_ref lzw_ref_spec lzw_ref_errs umax64 dx_umax rgba_opts vb_gif [] _ [] (ctl_none, vb_img) [] []
    (HPieces [repeat 9 4; repeat 9 8; repeat 9 8]) [0; 1] vb_ok vb_chunk
    eq_refl eq_refl dx_limit eq_refl (Forall2_nil _) vb_fails) as (d & d' & rs & [[f b] x] & y & E1 & E2 & T & Tb).
  { constructor; [exists 1%nat; cbn; lia|]. constructor; [exists 2%nat; cbn; lia|]. constructor; [exists 2%nat; cbn; lia|constructor]. }
  inversion T; subst. exists d, d', f, b, y.
  split; [exact E1|]. destruct Tb as (_ & [(-> & pre & cur & post & q1 & q2 & Eb & -> & Hl & ->)|(_ & H & _)]); [|vm_compute in H; lia].
  split; [exact E2|]. destruct pre as [|p [|p2 pre]].
  - injection Eb as <- _. vm_compute in Hl. lia.
  - injection Eb as <- _ _. reflexivity.
  - injection Eb as <- <- _. exfalso. cbn [concat length] in Hl. rewrite !app_length in Hl. cbn in Hl. lia.
Qed.
Example C79_iterator_case : exists d it, read_info lzw_ref [RChunk (ser_gif vb_gif [])] rgba_opts = Ok d /\
  iter_all lzw_ref umax64 3 (mk_iter lzw_ref d false) = (it, [IErr (DIo InvalidData); INone; INone]).
Proof.
  apply (C79_iterator lzw_ref lzw_ref_spec lzw_ref_errs umax64 dx_umax rgba_opts vb_gif [] _ [] (ctl_none, vb_img) [] []
    [0; 1] 2 vb_ok vb_chunk eq_refl eq_refl eq_refl (Forall2_nil _) vb_fails).
  - cbn [snd feasible]. repeat split; cbn; try lia; try (intros H; discriminate H).
  - cbn. lia.
Qed.

(** If the pixels before the invalid code are exactly those of the image, the outcome is not settled by the file: it
    depends on the pieces in which the reader delivers it. So [<=] cannot be [<] in the above. *)
Definition ve_img : img := mk_img 0 0 1 1 0 [] 2 [[196; 255; 255]].
Definition ve_gif : gif := mk_gif true 4 4 0x80 1 0 [1; 2; 3; 4; 5; 6] [BImg ve_img].
Lemma ve_ok : gif_ok rgba_opts ve_gif.
Proof.
  split; [reflexivity|]. split; [reflexivity|]. split; [reflexivity|]. split; [reflexivity|]. split; [reflexivity|].
  split; [split; [crush_rng|reflexivity]|]. split; [discriminate|].
  split; [|exact I].
  unfold ve_gif at 2. cbn [g_blocks]. constructor; [|constructor]. vx_image.
Qed.
Lemma ve_bytes : bytes_ok (ser_gif ve_gif []).
Proof. apply bytes_by. vm_compute. reflexivity. Qed.
Lemma ve_chunk : delivers [RChunk (ser_gif ve_gif [])] (ser_gif ve_gif []).
Proof. split; [constructor; [exact ve_bytes|constructor]|split; [constructor; [exact I|constructor]|reflexivity]]. Qed.
Lemma ve_fails : lz_fails lzw_ref_errs (lz_new lzw_ref 2) (payload (im_subs ve_img)) [0].
Proof. exact vc_fails. Qed.
Theorem C79_settled_refuted : exists o g src1 src2,
  gif_ok o g /\ delivers src1 (ser_gif g []) /\ delivers src2 (ser_gif g []) /\
  match read_info lzw_ref src1 o, read_info lzw_ref src2 o with
  | Ok d1, Ok d2 =>
    snd (read_next_frame lzw_ref umax64 d1) = Err (DIo InvalidData) /\
    snd (read_next_frame lzw_ref umax64 d2) = Ok true
  | _, _ => False
  end.
Proof.
  exists rgba_opts, ve_gif, [RChunk (ser_gif ve_gif [])], (bytewise (ser_gif ve_gif [])).
  split; [exact ve_ok|]. split; [exact ve_chunk|]. split; [exact (bytewise_delivers _ ve_bytes)|].
  vm_compute. split; reflexivity.
Qed.
Print Assumptions C79_settled_refuted.
