(** Frames read without decompression and decompressed later get the same answers as frames that are read at once. *)
From Verif Require Import Base Common Lzw LzwErrs Encoder Stream Converter Reader DecoderSafe ConvInv SpecGif SpecPixels DocBlocks DocRead DocAll
  Mixed SpecVerdict Verdict FrameDec FrameInv Rewrite SpecUnpack Unpack.
Open Scope N_scope.

(** Both succeed with the same frame, or both fail with the same error. *)
Definition same_answer (now : frame * list N * dres bool) (later : frame * dres unit) : Prop :=
  let '(f, _, x) := now in
  match x with Ok _ => later = (f, Ok tt) | Err e => snd later = Err e | _ => False end.

Section UD.
Variable L : lzw_codec.
Variable S : lzw_spec L.
Variable Z : lzw_errs S.
Variable umax : N.
Hypothesis eager : lzw_eager S.
Hypothesis alert : lzw_alert Z.
Hypothesis Humax : 2 ^ 32 - 1 <= umax.

Lemma fd_for_read o g : gif_ok o g -> o_check_for_end_code o = false -> fd_for L S o g (fd_for_file L o (gif_palette g)).
Proof.
  intros G2 K3. unfold gif_palette. destruct (has_table (g_flags g)) eqn:Et.
  - split; [apply fd_fit_gpal, fd_fit_new; exact K3|]. split; [reflexivity|]. split; [reflexivity|].
    cbn [fd_for_file fd_set_global_palette fd_conv]. unfold set_global_palette, gif_palette. rewrite Et. cbn [cv_gpal].
    destruct G2 as (_ & _ & _ & _ & _ & Gt & _). destruct Gt as [_ Gt]. rewrite Et in Gt.
    assert (0 < table_colors (g_flags g)) by (unfold table_colors; apply N.neq_0_lt_0, N.pow_nonzero; lia).
    destruct (g_gct g); [cbn [length] in Gt; lia|reflexivity].
  - split; [apply fd_fit_new; exact K3|]. split; [reflexivity|]. split; [reflexivity|].
    cbn [fd_for_file fd_new fd_conv conv_new cv_gpal]. unfold gif_palette. now rewrite Et.
Qed.

(** The two verdicts agree. *)
Lemma verdicts_agree o g ci have : limit_ok umax (o_limit o) -> img_ok o g (snd ci) -> (0 < im_pixels (snd ci))%nat ->
  unpack_verdict umax (o_color o) (o_limit o) (raw_seen ci) have =
  match frame_verdict umax o (snd ci) have with None => Ok tt | Some e => Err e end.
Proof.
  intros Hl Hi Hpx. pose proof (allowed_size umax Humax o g Hl (snd ci) Hi) as Ha. destruct ci as [c i]. cbn [snd] in *.
  unfold unpack_verdict, frame_verdict. cbn zeta.
  assert (Es : N.of_nat (px_bytes (o_color o)) * frame_px (raw_seen (c, i)) = N.of_nat (frame_bytes o i)).
  { rewrite (size_nat umax Humax). reflexivity. }
  assert (Ep : frame_px (raw_seen (c, i)) = N.of_nat (im_pixels i)).
  { unfold frame_px, im_pixels, raw_seen. cbn [meta_frame f_width f_height fst snd]. lia. }
  rewrite Es, Ep. destruct (_ || _); [reflexivity|]. destruct (Ha eq_refl) as [H1 _].
  destruct (N.ltb_spec (umax / 2) (N.of_nat (frame_bytes o i))); [lia|].
  assert (Em : code_size (raw_seen (c, i)) = im_mcs i) by reflexivity. rewrite Em.
  destruct Hi as (_ & _ & _ & _ & _ & _ & Hm & _).
  destruct (N.ltb_spec (im_mcs i) 1); [lia|]. destruct (N.ltb_spec 11 (im_mcs i)); [lia|]. cbn [orb].
  assert (Eh : f_height (raw_seen (c, i)) =? 0 = false).
  { apply N.eqb_neq. unfold raw_seen. cbn [meta_frame f_height fst snd]. unfold im_pixels in Hpx. nia. }
  rewrite Eh, Bool.andb_false_r. destruct (N.eqb_spec (N.of_nat (im_pixels i)) 0); [lia|].
  destruct (N.ltb_spec (N.of_nat have) (N.of_nat (im_pixels i))); destruct (Nat.ltb_spec have (im_pixels i)); try lia; reflexivity.
Qed.

Theorem unread_verdicts o1 o2 g tl1 tl2 src1 src2 outs n :
  gif_ok o1 g -> gif_ok o2 g -> delivers src1 (ser_gif g tl1) -> delivers src2 (ser_gif g tl2) ->
  o_skip_frame_decoding o1 = true -> o_skip_frame_decoding o2 = false -> o_check_for_end_code o2 = false -> limit_ok umax (o_limit o2) ->
  Forall (fun ci => fits (o_limit o1) (1 + len (payload (im_subs (snd ci))))) (gif_images g) ->
  Forall2 (one_frame L S) (gif_images g) outs -> (length outs < n)%nat ->
  exists d1 d1' d2 d2' raw now fd later, read_info L src1 o1 = Ok d1 /\ read_all L umax n d1 = (d1', raw, Ok false) /\
    read_info L src2 o2 = Ok d2 /\ read_each L umax d2 (map (fun _ => HFrame) outs) = (d2', now, Ok false) /\
    unpack_each L umax (fd_for_file L o2 (dec_global_palette L d1)) raw = (fd, later) /\
    length now = length outs /\ Forall2 same_answer now later.
Proof.
  intros G1 G2 D1 D2 K1 K2 K3 Hlim Hf Ho Hn. pose proof (forall2_length _ _ _ Ho) as Hlen.
  destruct (file_raw L S umax Humax o1 g tl1 src1 n G1 D1 K1 Hf ltac:(lia)) as (d1 & d1' & E1 & R1 & _).
  destruct (file_info L S umax Humax o1 g tl1 src1 G1 D1) as (d1b & E1b & _ & _ & Ip & _).
  rewrite E1 in E1b. injection E1b as <-.
  destruct (file_verdicts L S umax Humax o2 g tl2 src2 (map (fun out => (HFrame, out)) outs) G2 D2 K2 K3 Hlim) as (d2 & d2' & now & E2 & R2 & _ & T2).
  { clear -Ho. induction Ho as [|ci out l outs [H1 H2] H IH]; cbn [map]; constructor; [|exact IH]. split; [intros _; exact H1|exact H2]. }
  rewrite map_map in R2. cbn [fst] in R2.
  pose proof (fd_for_read o2 g G2 K3) as (Ff & Fc & Fl & Fp).
  pose proof (images_rng o2 g G2) as Hrng.
  destruct (unpack_frames L S Z umax eager alert Humax (map raw_seen (gif_images g)) (fd_for_file L o2 (gif_palette g)) (map (fun out => (out, false)) outs) Ff)
    as (fd & later & E3 & T3).
  { apply Forall_forall. intros f Hin. apply in_map_iff in Hin. destruct Hin as (ci & <- & Hin). pose proof (proj1 (Forall_forall _ _) Hrng _ Hin) as [_ Hi].
    split; apply Hi. }
  { clear -Ho. induction Ho as [|ci out l outs [H1 H2] H IH]; cbn [map]; constructor; [|exact IH]. intros _. exact H1. }
  rewrite Fc, Fl, Fp in T3.
  exists d1, d1', d2, d2', (map raw_seen (gif_images g)), now, fd, later. rewrite Ip.
  split; [exact E1|]. split; [exact R1|]. split; [exact E2|]. split; [exact R2|]. split; [exact E3|].
  assert (Hnow : length now = length outs).
  { apply forall2_length in T2. rewrite combine_length, map_length in T2. lia. }
  split; [exact Hnow|].
  clear -Ho T2 T3 Hrng Hlim Humax. revert now later T2 T3. induction Ho as [|[c i] out l outs [H1 H2] H IH]; intros now later T2 T3.
  - inversion T2; subst. inversion T3; subst. constructor.
  - cbn [map combine] in T2, T3. inversion T2 as [|? [[f b] x] ? now' A1 A2]; subst. inversion T3 as [|? [f' x'] ? later' B1 B2]; subst.
    inversion Hrng as [|? ? [_ Hi] Hrng']; subst. constructor; [|apply IH; assumption].
    cbn [fst snd] in A1, B1, H2, Hi. unfold told in A1. unfold unpack_told in B1. cbn [snd fst] in A1.
    destruct B1 as [(B1 & _)|[_ B1]]; [discriminate B1|].
    rewrite (verdicts_agree o2 g (c, i) (length out) Hlim Hi H2) in B1. cbn [snd] in B1.
    unfold same_answer. destruct (frame_verdict umax o2 i (length out)) as [e|] eqn:Ev.
    + rewrite A1. injection B1 as _ ->. reflexivity.
    + destruct A1 as [-> ->]. rewrite B1. f_equal.
      unfold unpacked, raw_seen, seen, im_picture, pal_of, gif_palette.
      cbn [meta_frame f_palette f_transparent f_width f_height f_interlaced fst snd set_interlaced set_buffer
           f_delay f_dispose f_needs_user_input f_top f_left f_buffer].
      destruct (has_table (im_flags i)); [reflexivity|]. destruct (has_table (g_flags g)); reflexivity.
Qed.
End UD.
