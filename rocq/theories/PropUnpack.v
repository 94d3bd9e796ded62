(** Property C80: [FrameDecoder] gives every frame its own verdict, whatever it was given before. *)
From Verif Require Import Base Common Lzw LzwErrs Encoder Stream Converter Reader LzwRef LzwRefSpec ConvInv SpecGif SpecPixels DocBlocks
  DocRead DocAll Mixed SpecVerdict Verdict FrameInv Rewrite SpecUnpack Unpack UnpackBad UnpackDoc Validate Refuted PropEnc PropDec PropMore PropVerdict PropCorrupt.
Open Scope N_scope.

(** A user hands frames with compressed data to one [FrameDecoder] and goes on after every error. What it is told about a
    frame follows from that frame and the settings alone; a refused frame is left as it was. *)
Theorem C80_verdicts : forall L (S : lzw_spec L) (Z : lzw_errs S) umax, lzw_eager S -> lzw_alert Z -> 2 ^ 32 - 1 <= umax ->
  forall fs fd obs, fd_fit L S fd -> Forall frame_dims fs ->
  Forall2 (fun f ob => 1 <= code_size f <= 11 -> stands_for Z f (fst ob) (snd ob)) fs obs ->
  exists fd' rs, unpack_each L umax fd fs = (fd', rs) /\
    Forall2 (fun p r => unpack_told umax (cv_color (fd_conv L fd)) (cv_limit (fd_conv L fd)) (cv_gpal (fd_conv L fd))
       (fst p) (fst (snd p)) (snd (snd p)) r) (combine fs obs) rs.
Proof. exact unpack_frames. Qed.
Print Assumptions C80_verdicts.
(** All data stand for some pixels, with or without an invalid code behind them. *)
Theorem C80_total : forall L (S : lzw_spec L) (Z : lzw_errs S) f, exists out bad, stands_for Z f out bad.
Proof. exact stands_total. Qed.
Print Assumptions C80_total.

(** Into a buffer of the caller's, of any size. *)
Theorem C80_into : forall L (S : lzw_spec L) (Z : lzw_errs S) umax, lzw_eager S -> 2 ^ 32 - 1 <= umax ->
  forall fd f out buf, fd_fit L S fd -> u16_ok (f_width f) -> 0 < frame_px f ->
  N.of_nat (px_bytes (cv_color (fd_conv L fd))) * frame_px f <= umax -> len buf <= umax / 2 ->
  (1 <= code_size f <= 11 -> stands_for Z f out false) ->
  exists fd' b, decode_lzw_encoded_frame_into_buffer L umax fd f buf =
      (fd', b, unpack_into_verdict (cv_color (fd_conv L fd)) f (length out) (length buf)) /\
    fd_fit L S fd' /\ same_settings (fd_conv L fd) (fd_conv L fd') /\ length b = length buf /\
    (unpack_into_verdict (cv_color (fd_conv L fd)) f (length out) (length buf) = Ok tt ->
     b = shown_over (cv_color (fd_conv L fd)) (match f_palette f, cv_gpal (fd_conv L fd) with Some p, _ | None, Some p => p | None, None => [] end) (f_transparent f)
           (picture (N.to_nat (f_width f)) (N.to_nat (f_height f)) (f_interlaced f) out) buf
         ++ skipn (px_bytes (cv_color (fd_conv L fd)) * (N.to_nat (f_width f) * N.to_nat (f_height f))) buf).
Proof. exact unpack_into. Qed.
Print Assumptions C80_into.

(** The same when an invalid code follows the pixels [out]: the call ends with InvalidData if it asks for pixels and those
    before the invalid code are not more than it asks for. Otherwise it ends as above, and never for lack of pixels. *)
Theorem C80_into_bad : forall L (S : lzw_spec L) (Z : lzw_errs S) umax, lzw_alert Z -> 2 ^ 32 - 1 <= umax ->
  forall fd f out buf, fd_fit L S fd -> u16_ok (f_width f) -> 0 < frame_px f ->
  N.of_nat (px_bytes (cv_color (fd_conv L fd))) * frame_px f <= umax -> len buf <= umax / 2 ->
  (1 <= code_size f <= 11 -> stands_for Z f out true) ->
  exists fd' b y, decode_lzw_encoded_frame_into_buffer L umax fd f buf = (fd', b, y) /\
    fd_fit L S fd' /\ same_settings (fd_conv L fd) (fd_conv L fd') /\ length b = length buf /\
    let color := cv_color (fd_conv L fd) in
    let v := unpack_into_verdict color f (length out) (length buf) in
    (y = Err (DIo InvalidData) /\ 1 <= code_size f <= 11 /\ (0 < into_wants color f (length buf))%nat /\
     (length out <= into_wants color f (length buf))%nat \/
     y = v /\ v <> Err (DFormat ImageTruncated) /\
     (v = Ok tt ->
      b = shown_over color (match f_palette f, cv_gpal (fd_conv L fd) with Some p, _ | None, Some p => p | None, None => [] end) (f_transparent f)
            (picture (N.to_nat (f_width f)) (N.to_nat (f_height f)) (f_interlaced f) out) buf
          ++ skipn (px_bytes color * (N.to_nat (f_width f) * N.to_nat (f_height f))) buf)).
Proof. exact unpack_into_bad. Qed.
Print Assumptions C80_into_bad.

(** Decompressing later or at once is the same, also for the frames that are refused. *)
Theorem C80_later : forall L (S : lzw_spec L) (Z : lzw_errs S) umax, lzw_eager S -> lzw_alert Z -> 2 ^ 32 - 1 <= umax ->
  forall o1 o2 g tl1 tl2 src1 src2 outs n,
  gif_ok o1 g -> gif_ok o2 g -> delivers src1 (ser_gif g tl1) -> delivers src2 (ser_gif g tl2) ->
  o_skip_frame_decoding o1 = true -> o_skip_frame_decoding o2 = false -> o_check_for_end_code o2 = false -> limit_ok umax (o_limit o2) ->
  Forall (fun ci => fits (o_limit o1) (1 + len (payload (im_subs (snd ci))))) (gif_images g) ->
  Forall2 (one_frame L S) (gif_images g) outs -> (length outs < n)%nat ->
  exists d1 d1' d2 d2' raw now fd later, read_info L src1 o1 = Ok d1 /\ read_all L umax n d1 = (d1', raw, Ok false) /\
    read_info L src2 o2 = Ok d2 /\ read_each L umax d2 (map (fun _ => HFrame) outs) = (d2', now, Ok false) /\
    unpack_each L umax (fd_for_file L o2 (dec_global_palette L d1)) raw = (fd, later) /\
    length now = length outs /\ Forall2 same_answer now later.
Proof. exact unread_verdicts. Qed.
Print Assumptions C80_later.

(** ** One decoder, eight frames
    Good; too short; an invalid code; good; not compressed at all; no data; no pixels; too large for the limit. *)
Definition ux_frame (w h : N) (b : list N) : frame := mk_frame 0 DKeep None false 0 0 w h false None b.
Definition ux_frames : list frame :=
  [ux_frame 2 1 [2; 12; 10]; ux_frame 2 2 [2; 12; 10]; ux_frame 2 1 [2; 196; 255; 255]; ux_frame 1 1 [2; 12; 10];
   ux_frame 2 1 [0; 1]; ux_frame 1 1 []; ux_frame 0 5 [2; 12; 10]; ux_frame 50 50 [2; 12; 10]].
Definition ux_obs : list (list N * bool) :=
  [([1; 0], false); ([1; 0], false); ([0], true); ([1; 0], false); ([], false); ([], false); ([1; 0], false); ([1; 0], false)].
Definition ux_opts : options := mk_opts (Some 1000) CRgba false false false false.
Definition ux_fd := fd_set_global_palette lzw_ref (fd_new lzw_ref ux_opts) [1; 2; 3; 4; 5; 6].
Example C80_case : exists fd', unpack_each lzw_ref umax64 ux_fd ux_frames = (fd',
  [(ux_frame 2 1 [4; 5; 6; 255; 1; 2; 3; 255], Ok tt); (ux_frame 2 2 [2; 12; 10], Err (DFormat ImageTruncated));
   (ux_frame 2 1 [2; 196; 255; 255], Err (DIo InvalidData)); (ux_frame 1 1 [4; 5; 6; 255], Ok tt);
   (ux_frame 2 1 [0; 1], Err (DFormat InvalidMinimalCodeSize)); (ux_frame 1 1 [], Err (DFormat ImageTruncated));
   (ux_frame 0 5 [2; 12; 10], Err (DFormat OddSizedBuffer)); (ux_frame 50 50 [2; 12; 10], Err (DIo OutOfMemory))]).
Proof.
  destruct (C80_verdicts lzw_ref lzw_ref_spec lzw_ref_errs umax64 lzw_ref_eager lzw_ref_alert dx_umax ux_frames ux_fd ux_obs) as (fd' & rs & E & T).
  { apply fd_fit_gpal, fd_fit_new. reflexivity. }
  { repeat constructor; reflexivity. }
  { constructor; [intros _; exact dx_pending2|]. constructor; [intros _; exact dx_pending2|]. constructor; [intros _; exact vc_fails|].
    constructor; [intros _; exact dx_pending2|]. constructor; [intros [H _]; exfalso; vm_compute in H; congruence|].
    constructor; [intros _; apply (lz_new_nil lzw_ref lzw_ref_spec 2); lia|]. constructor; [intros _; exact dx_pending2|]. constructor; [intros _; exact dx_pending2|constructor]. }
  exists fd'. rewrite E. f_equal. clear E.
  repeat match goal with H : Forall2 _ (_ :: _) _ |- _ => inversion H; subst; clear H | H : Forall2 _ (combine _ _) _ |- _ => unfold ux_frames, ux_obs in H; cbn [combine] in H | H : Forall2 _ [] _ |- _ => inversion H; subst; clear H end.
  cbn [fst snd] in *.
  repeat match goal with H : unpack_told _ _ _ _ _ _ _ _ |- _ => destruct H as [(? & -> & H)|[? ->]]; try discriminate end.
  all: try reflexivity.
  all: match goal with H : true = true -> _ |- _ => destruct (H eq_refl) as [K|K]; [exfalso; apply K; reflexivity|discriminate K] end.
Qed.

(** Into a buffer of another size: more than enough; interlaced and too small; too few pixels. *)
Example C80_into_case : exists fd1 fd2 fd3 b2 b3,
  decode_lzw_encoded_frame_into_buffer lzw_ref umax64 ux_fd (ux_frame 1 2 [2; 12; 10]) [7; 7; 7; 7; 7; 7; 7; 7; 7] =
    (fd1, [4; 5; 6; 255; 1; 2; 3; 255; 7], Ok tt) /\
  decode_lzw_encoded_frame_into_buffer lzw_ref umax64 fd1 (set_interlaced (ux_frame 1 2 [2; 12; 10]) true) [7; 7; 7; 7; 7; 7] =
    (fd2, b2, Err (DFormat BufferTooSmall)) /\
  decode_lzw_encoded_frame_into_buffer lzw_ref umax64 fd2 (ux_frame 3 1 [2; 12; 10]) (repeat 9 12) = (fd3, b3, Err (DFormat ImageTruncated)) /\
  length b2 = 6%nat /\ length b3 = 12%nat.
Proof.
  assert (P : forall f, f_buffer f = [2; 12; 10] -> 1 <= code_size f <= 11 -> stands_for lzw_ref_errs f [1; 0] false).
  { intros f Hf _. unfold stands_for, code_size, code_data. rewrite Hf. exact dx_pending2. }
  assert (F0 : fd_fit lzw_ref lzw_ref_spec ux_fd) by (apply fd_fit_gpal, fd_fit_new; reflexivity).
  destruct (C80_into lzw_ref lzw_ref_spec lzw_ref_errs umax64 lzw_ref_eager dx_umax ux_fd (ux_frame 1 2 [2; 12; 10]) [1; 0] [7; 7; 7; 7; 7; 7; 7; 7; 7] F0
    eq_refl eq_refl ltac:(vm_compute; discriminate) ltac:(vm_compute; discriminate) (P (ux_frame 1 2 [2; 12; 10]) eq_refl)) as (fd1 & b1 & E1 & F1 & (_ & C1 & _) & _ & B1).
  rewrite (B1 eq_refl) in E1.
  destruct (C80_into lzw_ref lzw_ref_spec lzw_ref_errs umax64 lzw_ref_eager dx_umax fd1 (set_interlaced (ux_frame 1 2 [2; 12; 10]) true) [1; 0] [7; 7; 7; 7; 7; 7] F1
    eq_refl eq_refl ltac:(rewrite C1; vm_compute; discriminate) ltac:(vm_compute; discriminate) (P (set_interlaced (ux_frame 1 2 [2; 12; 10]) true) eq_refl)) as (fd2 & b2 & E2 & F2 & (_ & C2 & _) & N2 & _).
  rewrite C1 in E2, C2.
  destruct (C80_into lzw_ref lzw_ref_spec lzw_ref_errs umax64 lzw_ref_eager dx_umax fd2 (ux_frame 3 1 [2; 12; 10]) [1; 0] (repeat 9 12) F2
    eq_refl eq_refl ltac:(rewrite C2; vm_compute; discriminate) ltac:(vm_compute; discriminate) (P (ux_frame 3 1 [2; 12; 10]) eq_refl)) as (fd3 & b3 & E3 & F3 & _ & N3 & _).
  rewrite C2 in E3.
  exists fd1, fd2, fd3, b2, b3. split; [exact E1|]. split; [exact E2|]. split; [exact E3|]. split; [exact N2|exact N3].
Qed.

(** One pixel and then an invalid code: two pixels wanted; a buffer that is too small; interlaced, with room for no row. *)
Example C80_into_bad_case : exists fd1 fd2 fd3 b1 b2 b3,
  decode_lzw_encoded_frame_into_buffer lzw_ref umax64 ux_fd (ux_frame 2 1 [2; 196; 255; 255]) (repeat 7 9) = (fd1, b1, Err (DIo InvalidData)) /\
  decode_lzw_encoded_frame_into_buffer lzw_ref umax64 fd1 (ux_frame 2 1 [2; 196; 255; 255]) (repeat 7 7) = (fd2, b2, Err (DFormat BufferTooSmall)) /\
  decode_lzw_encoded_frame_into_buffer lzw_ref umax64 fd2 (set_interlaced (ux_frame 2 1 [2; 196; 255; 255]) true) (repeat 7 7) =
    (fd3, b3, Err (DFormat BufferTooSmall)).
Proof.
  assert (F0 : fd_fit lzw_ref lzw_ref_spec ux_fd) by (apply fd_fit_gpal, fd_fit_new; reflexivity).
  destruct (C80_into_bad lzw_ref lzw_ref_spec lzw_ref_errs umax64 lzw_ref_alert dx_umax ux_fd (ux_frame 2 1 [2; 196; 255; 255]) [0] (repeat 7 9) F0
    eq_refl eq_refl ltac:(vm_compute; discriminate) ltac:(vm_compute; discriminate) (fun _ => vc_fails)) as (fd1 & b1 & y1 & E1 & F1 & (_ & C1 & _) & _ & T1).
  destruct (C80_into_bad lzw_ref lzw_ref_spec lzw_ref_errs umax64 lzw_ref_alert dx_umax fd1 (ux_frame 2 1 [2; 196; 255; 255]) [0] (repeat 7 7) F1
    eq_refl eq_refl ltac:(rewrite C1; vm_compute; discriminate) ltac:(vm_compute; discriminate) (fun _ => vc_fails)) as (fd2 & b2 & y2 & E2 & F2 & (_ & C2 & _) & _ & T2).
  rewrite C1 in T2, C2.
  destruct (C80_into_bad lzw_ref lzw_ref_spec lzw_ref_errs umax64 lzw_ref_alert dx_umax fd2 (set_interlaced (ux_frame 2 1 [2; 196; 255; 255]) true) [0] (repeat 7 7) F2
    eq_refl eq_refl ltac:(rewrite C2; vm_compute; discriminate) ltac:(vm_compute; discriminate) (fun _ => vc_fails)) as (fd3 & b3 & y3 & E3 & F3 & _ & _ & T3).
  rewrite C2 in T3.
  cbn zeta in T1, T2, T3.
  destruct T1 as [(-> & _)|(_ & T1 & _)]; [|exfalso; apply T1; reflexivity].
  destruct T2 as [(_ & _ & T2 & _)|(-> & _)]; [vm_compute in T2; lia|].
  destruct T3 as [(_ & _ & T3 & _)|(-> & _)]; [vm_compute in T3; lia|].
  exists fd1, fd2, fd3, b1, b2, b3. split; [exact E1|]. split; [exact E2|exact E3].
Qed.

(** A file with too few pixels in its second image: read at once, or read compressed and decompressed later. *)
Definition uy_raw_opts : options := mk_opts (Some 50) CIndexed false true false false.
Definition uy_opts : options := mk_opts (Some 50) CRgba false false false false.
Definition uy_short : img := mk_img 0 0 2 3 0 [] 2 [[12; 10]].
Definition uy_gif : gif := mk_gif true 4 4 0x80 1 0 [1; 2; 3; 4; 5; 6] [BImg dx_img2; BImg uy_short; BImg dx_img2].
Lemma uy_ok o : o = uy_raw_opts \/ o = uy_opts -> gif_ok o uy_gif.
Proof.
  intros [-> | ->]; (split; [reflexivity|]; split; [reflexivity|]; split; [reflexivity|]; split; [reflexivity|]; split; [reflexivity|];
    split; [split; [crush_rng|reflexivity]|]; split; [discriminate|]; split; [|exact I];
    unfold uy_gif at 2; cbn [g_blocks]; constructor; [vx_image|constructor; [vx_image|constructor; [vx_image|constructor]]]).
Qed.
Definition uy_src : list revent := bytewise (ser_gif uy_gif dx_tail).
Definition uy_now : list (frame * list N * dres bool) :=
  match read_info lzw_ref uy_src uy_opts with Ok d => snd (fst (read_each lzw_ref umax64 d [HFrame; HFrame; HFrame])) | _ => [] end.
Example C80_later_case : exists d d' raw fd f1 f2 f3, read_info lzw_ref uy_src uy_raw_opts = Ok d /\
  read_all lzw_ref umax64 4 d = (d', raw, Ok false) /\
  unpack_each lzw_ref umax64 (fd_for_file lzw_ref uy_opts (dec_global_palette lzw_ref d)) raw =
    (fd, [(f1, Ok tt); (f2, Err (DFormat ImageTruncated)); (f3, Ok tt)]) /\
  f_buffer f1 = [4; 5; 6; 255; 1; 2; 3; 255] /\ f_buffer f3 = f_buffer f1.
Proof.
  assert (Hd : delivers uy_src (ser_gif uy_gif dx_tail)) by (apply bytewise_delivers, bytes_by; vm_compute; reflexivity).
  assert (Hf : Forall2 (one_frame lzw_ref lzw_ref_spec) (gif_images uy_gif) [[1; 0]; [1; 0]; [1; 0]]).
  { constructor; [|constructor; [|constructor; [|constructor]]]; (split; [exact dx_pending2|cbn; lia]). }
  destruct (C80_later lzw_ref lzw_ref_spec lzw_ref_errs umax64 lzw_ref_eager lzw_ref_alert dx_umax uy_raw_opts uy_opts uy_gif dx_tail dx_tail
    uy_src uy_src _ 4%nat (uy_ok _ (or_introl eq_refl)) (uy_ok _ (or_intror eq_refl)) Hd Hd eq_refl eq_refl eq_refl
    ltac:(left; vm_compute; discriminate) ltac:(repeat constructor; vm_compute; discriminate) Hf ltac:(cbn; lia))
    as (d & d' & d2 & d2' & raw & now & fd & later & E1 & R1 & E2 & R2 & U & N & A).
  assert (W : uy_now = now) by (unfold uy_now; rewrite E2; cbn [map] in R2; rewrite R2; reflexivity).
  assert (V : map (fun p => (f_buffer (fst (fst p)), snd p)) uy_now =
    [([4; 5; 6; 255; 1; 2; 3; 255], Ok true); ([], Err (DFormat ImageTruncated)); ([4; 5; 6; 255; 1; 2; 3; 255], Ok true)]) by (vm_compute; reflexivity).
  rewrite W in V. clear W E2 R2.
  destruct now as [|[[g1 c1] x1] [|[[g2 c2] x2] [|[[g3 c3] x3] [|? ?]]]]; try discriminate N. cbn [map fst snd] in V. injection V as V1 -> V2 -> V3 ->.
  inversion A as [|? [h1 y1] ? ? A1 B1]; subst. inversion B1 as [|? [h2 y2] ? ? A2 B2]; subst. inversion B2 as [|? [h3 y3] ? ? A3 B3]; subst. inversion B3; subst.
  cbn [same_answer snd] in A1, A2, A3. injection A1 as -> ->. injection A3 as -> ->. subst y2.
  exists d, d', raw, fd, g1, h2, g3. split; [exact E1|]. split; [exact R1|]. split; [exact U|]. split; [exact V1|congruence].
Qed.
