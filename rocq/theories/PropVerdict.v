(** Property C59: every frame of a file gets its own verdict, and a refused frame costs nothing but itself. *)
From Verif Require Import Base Common Lzw Encoder Stream Converter Reader LzwRef LzwRefSpec ConvInv SpecGif SpecPixels
  DocRead DocAll Mixed SpecVerdict Verdict Validate Refuted PropEnc PropDec PropMore.
Open Scope N_scope.

(** A caller reads the images of a file one after the other, each in one of four ways, and goes on after every error.
    What it is told about an image follows from that image, the limit and the caller's buffer alone; after the last
    image the caller is told that there are no more. *)
Theorem C59_verdicts : forall L (S : lzw_spec L) umax, 2 ^ 32 - 1 <= umax ->
  forall o g tl src mos, gif_ok o g -> delivers src (ser_gif g tl) ->
  o_skip_frame_decoding o = false -> o_check_for_end_code o = false -> limit_ok umax (o_limit o) ->
  Forall2 (asked L S umax o) (gif_images g) mos ->
  exists d d' rs, read_info L src o = Ok d /\ read_each L umax d (map fst mos) = (d', rs, Ok false) /\
    rd_rest L (dc_rd L d') = tl /\
    Forall2 (fun cm r => told umax o g (fst (snd cm)) (fst cm) (snd (snd cm)) r) (combine (gif_images g) mos) rs.
Proof. exact file_verdicts. Qed.
Print Assumptions C59_verdicts.

(** The iterator: the frames before the first refused one, the error, nothing more. *)
Theorem C59_iter : forall L (S : lzw_spec L) umax, 2 ^ 32 - 1 <= umax ->
  forall o g tl src outs k, gif_ok o g -> delivers src (ser_gif g tl) ->
  o_skip_frame_decoding o = false -> o_check_for_end_code o = false -> limit_ok umax (o_limit o) ->
  Forall2 (one_frame L S) (gif_images g) outs ->
  exists d it, read_info L src o = Ok d /\
    iter_all L umax (length (iter_told umax o g (gif_images g) outs) + k) (mk_iter L d false) =
      (it, iter_told umax o g (gif_images g) outs ++ repeat INone k).
Proof. exact file_iter_verdicts. Qed.
Print Assumptions C59_iter.

(** Compressed frames: those before the first one over the limit, then the error. *)
Theorem C59_raw : forall L (S : lzw_spec L) umax, 2 ^ 32 - 1 <= umax ->
  forall o g tl src pre ci post n, gif_ok o g -> delivers src (ser_gif g tl) -> o_skip_frame_decoding o = true ->
  gif_images g = pre ++ ci :: post -> (length pre < n)%nat ->
  Forall (fun ci => fits (o_limit o) (1 + len (payload (im_subs (snd ci))))) pre ->
  payload (im_subs (snd ci)) <> [] -> ~ fits (o_limit o) (1 + len (payload (im_subs (snd ci)))) ->
  exists d d', read_info L src o = Ok d /\ read_all L umax n d = (d', map raw_seen pre, Err (DFormat MemoryLimitReached)).
Proof. exact file_raw_over. Qed.
Print Assumptions C59_raw.

(** ** A file of four images *)
(** Bytes over 20 are refused; the first image has data for half of its pixels only. *)
Definition vx_opts : options := mk_opts (Some 20) CRgba false false false false.
Definition vx_gif : gif :=
  mk_gif true 4 4 0x80 1 0 [1; 2; 3; 4; 5; 6]
    [BExt 0xF9 [[9; 7; 0; 2]]; BImg sx_img1; BImg dx_img1; BImg dx_img1; BImg dx_img2; BImg dx_img2].
Definition vx_src : list revent := bytewise (ser_gif vx_gif dx_tail).
Definition vx_mos : list (how * list N) :=
  [(HInto (repeat 9 24), [0; 1; 2]); (HFrame, [0; 1; 2; 0; 1; 2; 3; 3; 3; 3]);
   (HInto (repeat 9 16), [0; 1; 2; 0; 1; 2; 3; 3; 3; 3]); (HInto (repeat 9 7), [1; 0]); (HFrame, [1; 0])].
Ltac vx_image := repeat (split; [reflexivity|]); split; [split; [crush_rng|reflexivity]|];
    split; [vm_compute; split; discriminate|]; split; [split; [discriminate|crush_rng]|];
    split; [vm_compute; split; discriminate|first [left; reflexivity|right; reflexivity]].
Lemma vx_ok : gif_ok vx_opts vx_gif.
Proof.
  split; [reflexivity|]. split; [reflexivity|]. split; [reflexivity|]. split; [reflexivity|]. split; [reflexivity|].
  split; [split; [crush_rng|reflexivity]|]. split; [discriminate|].
  split; [|exact I].
  unfold vx_gif at 2. cbn [g_blocks]. constructor; [|constructor; [|constructor; [|constructor; [|constructor; [|constructor; [|constructor]]]]]].
  - split; [right; left; reflexivity|]. split; [split; [discriminate|crush_rng]|]. split; [reflexivity|vm_compute; discriminate].
  - vx_image.
  - vx_image.
  - vx_image.
  - vx_image.
  - vx_image.
Qed.
Lemma vx_delivers : delivers vx_src (ser_gif vx_gif dx_tail).
Proof. apply bytewise_delivers, bytes_by. vm_compute. reflexivity. Qed.
Lemma vx_limit : limit_ok umax64 (o_limit vx_opts).
Proof. left. vm_compute. discriminate. Qed.
Lemma vx_asked : Forall2 (asked lzw_ref lzw_ref_spec umax64 vx_opts) (gif_images vx_gif) vx_mos.
Proof.
  constructor; [|constructor; [|constructor; [|constructor; [|constructor; [|constructor]]]]].
  - split; [intros _; exact sx_pending|]. split; [cbn; lia|]. split; vm_compute; discriminate.
  - split; [intros _; exact dx_pending1|]. cbn. lia.
  - split; [intros _; exact dx_pending1|]. split; [cbn; lia|]. split; vm_compute; discriminate.
  - split; [intros _; exact dx_pending2|]. split; [cbn; lia|]. split; vm_compute; discriminate.
  - split; [intros _; exact dx_pending2|]. cbn. lia.
Qed.
(** Too little data; more bytes than allowed; a buffer that lacks the last row; a buffer that lacks a byte; and a frame. *)
Example C59_verdicts_case : exists d d' rs, read_info lzw_ref vx_src vx_opts = Ok d /\
  read_each lzw_ref umax64 d (map fst vx_mos) = (d', rs, Ok false) /\
  map snd rs = [Err (DFormat ImageTruncated); Err (DIo OutOfMemory); Err (DFormat BufferTooSmall);
                Err (DFormat BufferTooSmall); Ok true].
Proof.
  destruct (C59_verdicts lzw_ref lzw_ref_spec umax64 dx_umax vx_opts vx_gif dx_tail vx_src vx_mos vx_ok vx_delivers eq_refl eq_refl vx_limit vx_asked)
    as (d & d' & rs & E1 & E2 & _ & T). exists d, d', rs. split; [exact E1|]. split; [exact E2|]. clear E1 E2.
  inversion T as [|? [[f1 b1] x1] ? ? T1 T']; subst; clear T. inversion T' as [|? [[f2 b2] x2] ? ? T2 T]; subst; clear T'.
  inversion T as [|? [[f3 b3] x3] ? ? T3 T']; subst; clear T. inversion T' as [|? [[f4 b4] x4] ? ? T4 T]; subst; clear T'.
  inversion T as [|? [[f5 b5] x5] ? ? T5 T']; subst; clear T. inversion T'; subst.
  destruct T1 as (_ & _ & T1 & _). destruct T3 as (_ & _ & T3 & _). destruct T4 as (_ & _ & T4 & _). destruct T5 as (T5 & _).
  cbn [map snd]. rewrite T1, T2, T3, T4, T5. reflexivity.
Qed.
(** The iterator over the two last images and the first one. *)
Definition vy_gif : gif :=
  mk_gif true 4 4 0x80 1 0 [1; 2; 3; 4; 5; 6] [BExt 0xF9 [[9; 7; 0; 2]]; BImg dx_img2; BImg dx_img2; BImg dx_img1; BImg dx_img2].
Definition vy_src : list revent := bytewise (ser_gif vy_gif dx_tail).
Lemma vy_ok : gif_ok vx_opts vy_gif.
Proof.
  split; [reflexivity|]. split; [reflexivity|]. split; [reflexivity|]. split; [reflexivity|]. split; [reflexivity|].
  split; [split; [crush_rng|reflexivity]|]. split; [discriminate|].
  split; [|exact I].
  unfold vy_gif at 2. cbn [g_blocks]. constructor; [|constructor; [|constructor; [|constructor; [|constructor; [|constructor]]]]].
  - split; [right; left; reflexivity|]. split; [split; [discriminate|crush_rng]|]. split; [reflexivity|vm_compute; discriminate].
  - vx_image.
  - vx_image.
  - vx_image.
  - vx_image.
Qed.
Example C59_iter_case : exists d it f1 f2, read_info lzw_ref vy_src vx_opts = Ok d /\
  iter_all lzw_ref umax64 6 (mk_iter lzw_ref d false) = (it, [IFrame f1; IFrame f2; IErr (DIo OutOfMemory); INone; INone; INone]) /\
  f_buffer f1 = [4; 5; 6; 255; 1; 2; 3; 255] /\ f_delay f1 = 7 /\ f_delay f2 = 0.
Proof.
  assert (Hd : delivers vy_src (ser_gif vy_gif dx_tail)) by (apply bytewise_delivers, bytes_by; vm_compute; reflexivity).
  assert (Hf : Forall2 (one_frame lzw_ref lzw_ref_spec) (gif_images vy_gif) [[1; 0]; [1; 0]; [0; 1; 2; 0; 1; 2; 3; 3; 3; 3]; [1; 0]]).
  { constructor; [|constructor; [|constructor; [|constructor; [|constructor]]]]; (split; [|cbn; lia]);
      first [exact dx_pending1|exact dx_pending2]. }
  destruct (C59_iter lzw_ref lzw_ref_spec umax64 dx_umax vx_opts vy_gif dx_tail vy_src _ 3 vy_ok Hd eq_refl eq_refl vx_limit Hf) as (d & it & E1 & E2).
  do 4 eexists. split; [exact E1|]. split; [exact E2|]. vm_compute. auto.
Qed.

(** ** Compressed frames over the limit *)
Definition vr_opts : options := mk_opts (Some 5) CIndexed false true false false.
Definition vr_img1 : img := mk_img 1 0 2 3 0x41 [] 2 [[68; 100]; [50; 59; 5]].
Definition vr_gif : gif :=
  mk_gif true 4 4 0x80 1 0 [1; 2; 3; 4; 5; 6] [BExt 0xF9 [[9; 7; 0; 2]]; BImg dx_img2; BImg vr_img1; BImg dx_img2].
Lemma vr_ok : gif_ok vr_opts vr_gif.
Proof.
  split; [reflexivity|]. split; [reflexivity|]. split; [reflexivity|]. split; [reflexivity|]. split; [reflexivity|].
  split; [split; [crush_rng|reflexivity]|]. split; [discriminate|].
  split; [|exact I].
  unfold vr_gif at 2. cbn [g_blocks]. constructor; [|constructor; [|constructor; [|constructor; [|constructor]]]].
  - split; [right; left; reflexivity|]. split; [split; [discriminate|crush_rng]|]. split; [reflexivity|vm_compute; discriminate].
  - vx_image.
  - vx_image.
  - vx_image.
Qed.
Lemma vr_bytes : bytes_ok (ser_gif vr_gif []).
Proof. apply bytes_by. vm_compute. reflexivity. Qed.
Example C59_raw_case : exists d d' f, read_info lzw_ref (bytewise (ser_gif vr_gif [])) vr_opts = Ok d /\
  read_all lzw_ref umax64 9 d = (d', [f], Err (DFormat MemoryLimitReached)) /\ f_buffer f = [2; 12; 10].
Proof.
  assert (Hn : (1 < 9)%nat) by lia.
  assert (Hp : Forall (fun ci : ctl * img => fits (o_limit vr_opts) (1 + len (payload (im_subs (snd ci))))) [(ctl_of [9; 7; 0; 2], dx_img2)]).
  { constructor; [|constructor]. vm_compute. discriminate. }
  assert (Hl : ~ fits (o_limit vr_opts) (1 + len (payload (im_subs vr_img1)))) by (intros H; vm_compute in H; congruence).
  assert (Hne : payload (im_subs vr_img1) <> []) by discriminate.
  destruct (C59_raw lzw_ref lzw_ref_spec umax64 dx_umax vr_opts vr_gif [] _ [(ctl_of [9; 7; 0; 2], dx_img2)] (ctl_none, vr_img1) [(ctl_none, dx_img2)] 9 vr_ok
    (bytewise_delivers _ vr_bytes) eq_refl eq_refl Hn Hp Hne Hl) as (d & d' & E1 & E2).
  do 3 eexists. split; [exact E1|]. split; [exact E2|]. reflexivity.
Qed.
(** What happens after that error depends on the pieces in which the reader delivered the file: the byte with the length
    of the sub-block that did not fit has been used but is still in the reader's buffer. One caller gets the last frame,
    another one with the same file gets errors only. *)
Theorem C59_raw_recovery_refuted : exists o g src1 src2,
  gif_ok o g /\ delivers src1 (ser_gif g []) /\ delivers src2 (ser_gif g []) /\ length (gif_images g) = 3%nat /\
  match read_info lzw_ref src1 o, read_info lzw_ref src2 o with
  | Ok d1, Ok d2 =>
    let told d := let '(_, rs, x) := read_each lzw_ref umax64 d [HFrame; HFrame; HFrame] in (map snd rs, x) in
    told d1 = ([Ok true; Err (DFormat MemoryLimitReached); Ok true], Ok false) /\
    told d2 = ([Ok true; Err (DFormat MemoryLimitReached); Err (DFormat UnknownBlockType)], Err (DFormat UnknownBlockType))
  | _, _ => False
  end.
Proof.
  exists vr_opts, vr_gif, (bytewise (ser_gif vr_gif [])), [RChunk (ser_gif vr_gif [])].
  split; [exact vr_ok|]. split; [exact (bytewise_delivers _ vr_bytes)|].
  split; [split; [constructor; [exact vr_bytes|constructor]|split; [constructor; [exact I|constructor]|reflexivity]]|].
  split; [reflexivity|]. vm_compute. split; reflexivity.
Qed.
Print Assumptions C59_raw_recovery_refuted.

(** ** Corrupt image data
    Data that are no LZW stream do not matter if the frame is skipped. *)
Definition vc_img : img := mk_img 1 0 2 3 0x41 [] 2 [[196]; [255; 255]].
Definition vc_gif : gif :=
  mk_gif true 4 4 0x80 1 0 [1; 2; 3; 4; 5; 6] [BExt 0xF9 [[9; 7; 0; 2]]; BImg dx_img2; BImg vc_img; BImg dx_img2].
Lemma vc_ok : gif_ok rgba_opts vc_gif.
Proof.
  split; [reflexivity|]. split; [reflexivity|]. split; [reflexivity|]. split; [reflexivity|]. split; [reflexivity|].
  split; [split; [crush_rng|reflexivity]|]. split; [discriminate|].
  split; [|exact I].
  unfold vc_gif at 2. cbn [g_blocks]. constructor; [|constructor; [|constructor; [|constructor; [|constructor]]]].
  - split; [right; left; reflexivity|]. split; [split; [discriminate|crush_rng]|]. split; [reflexivity|vm_compute; discriminate].
  - vx_image.
  - vx_image.
  - vx_image.
Qed.
Lemma vc_bytes : bytes_ok (ser_gif vc_gif []).
Proof. apply bytes_by. vm_compute. reflexivity. Qed.
Lemma vc_chunk : delivers [RChunk (ser_gif vc_gif [])] (ser_gif vc_gif []).
Proof. split; [constructor; [exact vc_bytes|constructor]|split; [constructor; [exact I|constructor]|reflexivity]]. Qed.
Example C59_skip_case : exists d d' rs, read_info lzw_ref [RChunk (ser_gif vc_gif [])] rgba_opts = Ok d /\
  read_each lzw_ref umax64 d [HFrame; HSkip; HFrame] = (d', rs, Ok false) /\ map snd rs = [Ok true; Ok true; Ok true].
Proof.
  assert (Ha : Forall2 (asked lzw_ref lzw_ref_spec umax64 rgba_opts) (gif_images vc_gif) [(HFrame, [1; 0]); (HSkip, []); (HFrame, [1; 0])]).
  { constructor; [|constructor; [|constructor; [|constructor]]].
    - split; [intros _; exact dx_pending2|]. cbn. lia.
    - split; [intros H; exfalso; apply H; reflexivity|exact I].
    - split; [intros _; exact dx_pending2|]. cbn. lia. }
  destruct (C59_verdicts lzw_ref lzw_ref_spec umax64 dx_umax rgba_opts vc_gif [] [RChunk (ser_gif vc_gif [])] _ vc_ok vc_chunk eq_refl eq_refl dx_limit Ha)
    as (d & d' & rs & E1 & E2 & _ & T). exists d, d', rs. split; [exact E1|]. split; [exact E2|]. clear E1 E2.
  inversion T as [|? [[f1 b1] x1] ? ? T1 T']; subst; clear T. inversion T' as [|? [[f2 b2] x2] ? ? T2 T]; subst; clear T'.
  inversion T as [|? [[f3 b3] x3] ? ? T3 T']; subst; clear T. inversion T'; subst.
  destruct T1 as (T1 & _). destruct T2 as (T2 & _). destruct T3 as (T3 & _). subst. reflexivity.
Qed.
(** If the frame is read, its error is reported; but the frames behind it are lost, and what is reported for them depends on
    the pieces in which the reader delivered the file. (With the reference codec, in which an invalid code is never
    forgotten. The contract says nothing about a codec that has met an invalid code.) *)
Theorem C59_corrupt_recovery_refuted : exists o g src1 src2,
  gif_ok o g /\ delivers src1 (ser_gif g []) /\ delivers src2 (ser_gif g []) /\ length (gif_images g) = 3%nat /\
  match read_info lzw_ref src1 o, read_info lzw_ref src2 o with
  | Ok d1, Ok d2 =>
    let told d := let '(_, rs, x) := read_each lzw_ref umax64 d [HFrame; HFrame; HFrame] in (map snd rs, x) in
    told d1 = ([Ok true; Err (DIo InvalidData); Err (DIo InvalidData)], Err (DIo InvalidData)) /\
    told d2 = ([Ok true; Err (DIo InvalidData); Err (DIo UnexpectedEof)], Err (DIo UnexpectedEof))
  | _, _ => False
  end.
Proof.
  exists rgba_opts, vc_gif, (bytewise (ser_gif vc_gif [])), [RChunk (ser_gif vc_gif [])].
  split; [exact vc_ok|]. split; [exact (bytewise_delivers _ vc_bytes)|].
  split; [exact vc_chunk|]. split; [reflexivity|]. vm_compute. split; reflexivity.
Qed.
Print Assumptions C59_corrupt_recovery_refuted.

(** Nor do they matter to a scan of the metadata (C19). *)
Example C19_corrupt_scan_case : exists d d', read_info lzw_ref [RChunk (ser_gif vc_gif [])] rgba_opts = Ok d /\
  scan_all lzw_ref 4 d = (d', map meta_seen (gif_images vc_gif), Ok false).
Proof.
  assert (Hn : (length (gif_images vc_gif) < 4)%nat) by (cbn; lia).
  destruct (C19_scan lzw_ref lzw_ref_spec umax64 dx_umax rgba_opts vc_gif [] _ 4 vc_ok vc_chunk dx_scannable Hn) as (d & d' & E & F & _). eauto.
Qed.
