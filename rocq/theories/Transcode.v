(** Writing again what was read, for every input that can be read to its end. *)
From Verif Require Import Base Common Lzw LzwErrs Encoder Stream Converter Reader ConvInv DecoderSafe CanonReader SpecGif SpecPixels Pixels
  SpecEnc SpecRound DocBlocks DocRead DocAll EncLin EncSpec EncSession RoundTrip SpecAccept AcceptDec AcceptUnique AcceptFwd
  SpecSound Sound SoundAcc Rewrite.
Open Scope N_scope.

(** The calls that write frames to a new file: user code, not in /repo. *)
Definition copy_ops (r : repeat_t) (fs : list frame) : list enc_op := OSetRepeat r :: map OWriteFrame fs.

(** ** Ranges of what an accepted file says *)
Lemma loose_bytes subs : loose_subs subs -> bytes_ok (payload subs).
Proof.
  intros (_ & H & _). unfold payload. induction H as [|b subs [_ Hb] _ IH]; [constructor|]. cbn [concat]. now apply Forall_app.
Qed.
Definition img_rng (o : options) (g : gif) (ci : ctl * img) : Prop :=
  ctl_rng (fst ci) /\ img_acc true o g (snd ci) /\ bytes_ok (payload (im_subs (snd ci))).
Lemma controlled_acc_rng o g bs : Forall (blk_acc true o g) bs -> forall c ag, ctl_rng c -> (forall x, ag = Some x -> ctl_rng x) ->
  Forall (img_rng o g) (controlled_acc c ag bs).
Proof.
  assert (H0 : ctl_rng ctl_none) by (split; [reflexivity|discriminate]).
  induction 1 as [|b bs Hb _ IH]; intros c ag Hc Ha; [constructor|]. destruct b as [l subs|i|t subs]; cbn [controlled_acc].
  - assert (Hr : ctl_rng (ctl_of (payload subs))) by (apply ctl_of_rng, loose_bytes; apply Hb).
    destruct (l =? 0xF9); apply IH; try assumption; [now intros x [= <-]|discriminate].
  - constructor; [|now apply IH]. destruct Hb as [Hb Hs]. split; [exact Hc|]. split; [exact Hb|now apply loose_bytes].
  - apply IH; [|exact Ha]. destruct ag as [x|]; [now apply Ha|exact Hc].
Qed.
Lemma acc_images_rng o g : gif_acc true o g -> Forall (img_rng o g) (acc_images g).
Proof. intros (_ & H & _). apply controlled_acc_rng; [exact H|split; [reflexivity|discriminate]|discriminate]. Qed.
Lemma acc_repeat_rng o g : gif_acc true o g -> repeat_rng (gif_repeat g).
Proof.
  intros (_ & H & _). unfold gif_repeat. assert (R : repeat_rng (RFinite 0)) by reflexivity.
  revert R. generalize (RFinite 0). induction H as [|b bs Hb _ IH]; intros r R; [exact R|]. destruct b as [l subs|i|t subs]; cbn [loops]; [|exact R|exact R].
  apply IH. destruct (l =? 0xFF); [|exact R]. destruct (loop_of (payload subs)) as [x|] eqn:E; [|exact R].
  eapply loop_rng; [|exact E]. apply loose_bytes. apply Hb.
Qed.
Lemma acc_palette o g : gif_acc true o g -> let pal := or_empty (gif_palette g) in
  (has_table (g_flags g) = true -> pal = g_gct g /\ usable pal = true /\ padded pal = pal) /\ (colors pal <= 256)%nat /\ bytes_ok pal.
Proof.
  intros ((_ & _ & _ & _ & _ & Gt) & _). cbv zeta. unfold gif_palette. destruct (has_table (g_flags g)) eqn:Et; cbn [or_empty].
  - destruct (padded_table _ _ Gt Et) as (P1 & P2 & P3). split; [auto|]. split; [exact P2|apply Gt].
  - split; [discriminate|]. split; [cbn; lia|constructor].
Qed.
Lemma img_palette o g i buf c il : gif_acc true o g -> img_acc true o g i -> palette_error (usable (or_empty (gif_palette g))) (meta_frame c i il buf) = None.
Proof.
  intros Hg (_ & It & _ & Hp). specialize (Hp eq_refl). destruct (acc_palette o g Hg) as (P1 & _).
  unfold palette_error. cbn [meta_frame f_palette]. destruct (has_table (im_flags i)) eqn:Et.
  - destruct (padded_table _ _ It Et) as (_ & Q & _). destruct (Nat.ltb_spec 256 (colors (im_lct i))); [lia|reflexivity].
  - destruct Hp as [Hp|Hp]; [discriminate|]. destruct (P1 Hp) as (_ & -> & _). reflexivity.
Qed.
Lemma meta_rng o g ci il buf : img_rng o g ci -> bytes_ok buf -> frame_rng (meta_frame (fst ci) (snd ci) il buf).
Proof.
  intros ((C1 & C2) & ((I1 & I2 & I3 & I4 & _) & It & _) & _) Hb. unfold frame_rng.
  cbn [meta_frame f_delay f_left f_top f_width f_height f_transparent f_palette f_buffer].
  repeat (split; [assumption|]). split; [|exact Hb]. intros p. destruct (has_table (im_flags (snd ci))); [|discriminate]. intros [= <-]. apply It.
Qed.
Lemma picture_whole w h px : (w * h)%nat = length px -> picture w h false px = px.
Proof. intros H. unfold picture. rewrite H. apply firstn_all. Qed.

Section TC.
Variable L : lzw_codec.
Variable S : lzw_spec L.
Variable umax : N.
Hypothesis Humax : 2 ^ 32 - 1 <= umax.

(** Reading to the end, for given data. *)
Lemma read_told (Z : lzw_errs S) o g tl src obs d n d' fs : file_acc true o g tl -> delivers src (ser_gif g tl) ->
  o_skip_frame_decoding o = false -> o_check_for_end_code o = false -> limit_ok umax (o_limit o) -> Forall2 (data_for Z) (acc_images g) obs ->
  read_info L src o = Ok d -> read_all L umax n d = (d', fs, Ok false) ->
  Forall2 (fun ci ob => shows umax o (snd ci) (fst ob)) (acc_images g) obs /\ fs = all_seen o g (acc_images g) (map fst obs).
Proof.
  intros Ha Hd N1 N2 Hl Ho Ei Er.
  pose proof (read_all_more L umax n d d' fs (n + Datatypes.S (length obs)) Er ltac:(lia)) as Er'.
  destruct (acc_any L S umax Humax Z o g tl src obs (n + Datatypes.S (length obs)) Ha Hd N1 N2 Hl Ho ltac:(lia)) as (d0 & d1 & fs1 & y & E0 & E1 & R & Rf).
  rewrite Ei in E0. injection E0 as <-. rewrite Er' in E1. injection E1 as <- <- <-.
  destruct (reading_end _ _ _ _ _ _ _ _ R eq_refl) as (_ & F & G). auto.
Qed.
Lemma read_all_count n : forall d d' fs, read_all L umax n d = (d', fs, Ok false) -> (length fs < n)%nat.
Proof.
  induction n as [|n IH]; intros d d' fs H; [discriminate H|]. cbn [read_all] in H.
  destruct (read_next_frame L umax d) as [d1 x]. destruct x as [[|]|e| | ]; try discriminate H.
  - destruct (read_all L umax n d1) as [[d2 l] y] eqn:E. injection H as <- <- ->. apply IH in E. cbn [length]. lia.
  - injection H as <- <-. cbn [length]. lia.
Qed.
Lemma info_told o g tl src d : scannable o -> file_acc true o g tl -> delivers src (ser_gif g tl) -> read_info L src o = Ok d ->
  dec_width L d = g_w g /\ dec_height L d = g_h g /\ dec_global_palette L d = gif_palette g /\ dec_repeat L d = gif_repeat g.
Proof.
  intros Hs Ha Hd E. destruct (read_info_file L S umax Humax true o g tl src Hs Ha Hd) as (d0 & E0 & _ & _ & H). rewrite E in E0. injection E0 as <-. tauto.
Qed.
Lemma shows_size o i out : limit_ok umax (o_limit o) -> u16_ok (im_w i) -> u16_ok (im_h i) -> shows umax o i out ->
  N.of_nat (frame_bytes o i) <= umax / 2 /\ fits (o_limit o) (N.of_nat (frame_bytes o i)).
Proof.
  intros Hl Hw Hh (Ht & _). unfold too_large in Ht. apply orb_false_iff in Ht as [_ Ht].
  assert (Hf : fits (o_limit o) (N.of_nat (frame_bytes o i))).
  { unfold fits. destruct (o_limit o) as [l|]; [|exact I]. apply N.ltb_ge in Ht. exact Ht. }
  split; [|exact Hf]. destruct Hl as [Hl|Hl].
  - unfold frame_bytes, im_pixels, u16_ok in *. assert (N.of_nat (px_bytes (o_color o)) <= 4) by (destruct (o_color o); cbn; lia).
    replace (N.of_nat (px_bytes (o_color o) * (N.to_nat (im_w i) * N.to_nat (im_h i)))) with (N.of_nat (px_bytes (o_color o)) * (im_w i * im_h i)) by lia.
    assert (im_w i * im_h i <= 65535 * 65535) by (apply N.mul_le_mono; lia).
    etransitivity; [|exact Hl]. rewrite (N.mul_comm (65535 * 65535)). now apply N.mul_le_mono.
  - unfold fits in Hf. destruct (o_limit o) as [l|]; [lia|contradiction].
Qed.

Lemma copy_pixels_out (Z : lzw_errs S) o1 o2 src1 src2 d1 d1' fs1 d2 d2' fs2 n :
  src_ok src1 -> good_src src1 -> src_ok src2 -> good_src src2 -> concat (map ev_bytes src1) = concat (map ev_bytes src2) ->
  o_color o1 = CIndexed -> o_skip_frame_decoding o1 = false -> o_check_for_end_code o1 = false -> limit_ok umax (o_limit o1) ->
  o_skip_frame_decoding o2 = false -> o_check_for_end_code o2 = false -> limit_ok umax (o_limit o2) -> fits (o_limit o2) 15 ->
  read_info L src1 o1 = Ok d1 -> read_all L umax n d1 = (d1', fs1, Ok false) ->
  read_info L src2 o2 = Ok d2 -> read_all L umax n d2 = (d2', fs2, Ok false) ->
  fs1 <> [] -> Forall (fun f => 0 < f_width f * f_height f /\ bytes_ok (f_buffer f)) fs1 ->
  forall w dbg, Forall harmless (w_plan w) -> w_out w = [] ->
  exists e1 e2 e3 w3, encoder_new w (dec_width L d1) (dec_height L d1) (or_empty (dec_global_palette L d1)) = (e1, Ok tt) /\
    run_ops L dbg e1 (copy_ops (dec_repeat L d1) fs1) = (e2, Ok tt) /\ into_inner e2 = (e3, Ok w3) /\
    w_out w3 = ser_gif (enc_gif L (dec_width L d1) (dec_height L d1) (or_empty (dec_global_palette L d1)) (copy_ops (dec_repeat L d1) fs1)) [] /\
    forall src3 tl3, delivers src3 (w_out w3 ++ tl3) ->
    exists d3 d3', read_info L src3 o2 = Ok d3 /\ read_all L umax n d3 = (d3', fs2, Ok false) /\
      dec_width L d3 = dec_width L d2 /\ dec_height L d3 = dec_height L d2 /\ dec_repeat L d3 = dec_repeat L d2 /\
      dec_global_palette L d3 = Some (match dec_global_palette L d2 with Some p => p | None => repeat 0 6 end) /\ rd_rest L (dc_rd L d3') = tl3.
Proof.
  intros A1 A2 B1 B2 Esrc Ec N1 N2 N3 M1 M2 M3 Hlim E1 R1 E2 R2 Hne Hpx w dbg Hh Hw.
  destruct (read_accepts L (lz_is_safe L S) umax Humax src1 o1 d1 n d1' fs1 A1 N3 E1 R1) as (g & tl & Eb & G1).
  destruct (read_accepts L (lz_is_safe L S) umax Humax src2 o2 d2 n d2' fs2 B1 M3 E2 R2) as (g2 & tl2 & Eb2 & G2).
  rewrite Eb, Eb2 in Esrc. destruct (file_unique _ _ _ _ _ _ _ _ G1 G2 Esrc) as [<- <-]. clear Esrc.
  destruct (data_total L S Z (acc_images g)) as (obs & Ho).
  pose proof (conj A1 (conj A2 Eb) : delivers src1 (ser_gif g tl)) as D1.
  pose proof (conj B1 (conj B2 Eb2) : delivers src2 (ser_gif g tl)) as D2.
  destruct (read_told Z o1 g tl src1 obs d1 n d1' fs1 G1 D1 N1 N2 N3 Ho E1 R1) as [S1 ->].
  destruct (read_told Z o2 g tl src2 obs d2 n d2' fs2 G2 D2 M1 M2 M3 Ho E2 R2) as [S2 ->].
  destruct (info_told o1 g tl src1 d1 (or_intror N2) G1 D1 E1) as (-> & -> & -> & ->).
  destruct (info_told o2 g tl src2 d2 (or_intror M2) G2 D2 E2) as (-> & -> & -> & ->).
  assert (Hnn : (length (acc_images g) < n)%nat).
  { apply read_all_count in R1. unfold all_seen in R1. rewrite map_length, combine_length, map_length in R1.
    apply forall2_length in S1. lia. }
  pose proof (proj1 G2) as Ga. pose proof Ga as ((Gw & Gh & _ & _ & _ & Gt) & _).
  destruct (acc_palette o2 g Ga) as (P1 & P2 & P3). set (pal := or_empty (gif_palette g)) in *.
  pose proof (acc_images_rng o2 g Ga) as Hrng. pose proof (acc_repeat_rng o2 g Ga) as Hrr.
  set (fs := all_seen o1 g (acc_images g) (map fst obs)) in *.
  set (frames := map (fun f => (f, f_buffer f)) fs).
  assert (Hall : Forall (fun f => frame_rng f /\ palette_error (usable pal) f = None /\ len (f_buffer f) = f_width f * f_height f /\
     frame_readable o2 umax (g_w g) (g_h g) f (f_buffer f)) fs /\
     map (fun p => wanted (o_color o2) pal (fst p) (snd p)) frames = all_seen o2 g (acc_images g) (map fst obs)).
  { unfold frames, fs, all_seen in *. assert (L5 : fits (o_limit o2) 5) by (destruct (o_limit o2); cbn [fits] in *; lia).
    clear - Humax Ec M3 Hpx Hrng S1 S2 L5 P1 Ga Gt. revert obs S1 S2 Hpx. induction Hrng as [|[c i] l Hr _ IH]; intros obs S1 S2 Hpx;
      inversion S1 as [|? [out bad] ? obs' Q1 S1']; subst; inversion S2 as [|? ? ? ? Q2 S2']; subst; [split; [constructor|reflexivity]|].
    cbn [map combine fst snd] in *. inversion Hpx as [|? ? [X1 X2] Hpx']; subst. destruct (IH obs' S1' S2' Hpx') as [I1 I2].
    unfold seen in X1, X2. cbn [meta_frame fst snd f_width f_height f_buffer] in X1, X2. rewrite Ec in X2. cbn [shown] in X2.
    assert (Hl : len (im_picture i out) = im_w i * im_h i).
    { unfold len, im_picture. destruct Q1 as (_ & Q1 & _). unfold im_pixels in Q1. rewrite picture_length by exact Q1. lia. }
    pose proof Hr as (_ & ((_ & _ & Iw & Ih & _ & Is) & It & _ & Ip) & _). cbn [fst snd] in *.
    destruct (shows_size o2 i out M3 Iw Ih Q2) as [Z1 Z2].
    split; [constructor; [|exact I1]|].
    - unfold seen. rewrite Ec. cbn [shown fst snd]. split; [exact (meta_rng o2 g (c, i) false _ Hr X2)|].
      split; [apply (img_palette o2 g); [exact Ga|apply Hr]|]. cbn [meta_frame f_buffer f_width f_height]. split; [exact Hl|].
      unfold frame_readable. cbn [meta_frame f_left f_top f_width f_height]. split; [exact L5|]. split; [exact Is|].
      unfold len in Hl. split; [lia|]. unfold frame_bytes, im_pixels in Z1, Z2.
      replace (N.of_nat (px_bytes (o_color o2)) * (im_w i * im_h i)) with
        (N.of_nat (px_bytes (o_color o2) * (N.to_nat (im_w i) * N.to_nat (im_h i)))) by lia. auto.
    - rewrite I2. f_equal. unfold wanted, seen. rewrite Ec. cbn [meta_frame fst snd f_delay f_dispose f_transparent f_needs_user_input f_top f_left f_width f_height f_interlaced f_palette f_buffer shown].
      rewrite picture_whole by (unfold len in Hl; lia). unfold meta_frame, pal_of. destruct (has_table (im_flags i)) eqn:Et.
      + destruct (padded_table _ _ It Et) as [-> _]. reflexivity.
      + destruct (Ip eq_refl) as [Ip'|Ip']; [discriminate|]. rewrite Ip'. destruct (P1 Ip') as (Q3 & _ & Q4). rewrite Q4, Q3. reflexivity. }
  destruct Hall as [Hall Hwant]. set (ops := copy_ops (gif_repeat g) fs).
  assert (Ro : Forall op_rng ops).
  { constructor; [exact Hrr|]. apply Forall_map. eapply Forall_impl; [|exact Hall]. intros f H. apply H. }
  assert (Hok : Forall (fun op => op_result dbg (usable pal) op = Ok tt) ops).
  { constructor; [reflexivity|]. apply Forall_map. rewrite Forall_forall in *. intros f Hin. destruct (Hall f Hin) as (_ & H1 & H2 & _).
    destruct (Hpx f Hin) as [H3 _]. cbn [op_result]. rewrite H2, N.ltb_irrefl, H1.
    destruct (N.eqb_spec (f_width f * f_height f) 0); [lia|]. now rewrite andb_false_r. }
  destruct (session_runs L dbg w (g_w g) (g_h g) pal ops Gw Gh Ro Hh P2 Hok) as (e1 & e2 & e3 & w3 & T1 & T2 & T3).
  exists e1, e2, e3, w3. split; [exact T1|]. split; [exact T2|]. split; [exact T3|]. split.
  { destruct (session_ok L dbg w (g_w g) (g_h g) pal ops e1 e2 e3 w3 Gw Gh Ro T1 T2 T3) as (Hout & _). rewrite Hw in Hout. exact Hout. }
  intros src3 tl3 D3.
  assert (Hcr : Forall (call_readable o2) ops).
  { constructor; [right; exact Hlim|]. apply Forall_map, Forall_forall. intros f _. exact I. }
  assert (Hwr : written S ops frames).
  { apply written_other; [reflexivity|]. unfold frames. clear. induction fs as [|f l IH]; [constructor|].
    cbn [map]. apply written_frame; [reflexivity|constructor|exact IH]. }
  assert (Hfr : Forall (fun p => frame_readable o2 umax (g_w g) (g_h g) (fst p) (snd p)) frames).
  { unfold frames. apply Forall_map. eapply Forall_impl; [|exact Hall]. intros f H. apply H. }
  assert (Hbl : Exists writes_block ops).
  { apply Exists_cons_tl. destruct fs as [|f l]; [congruence|]. apply Exists_cons_hd. exact I. }
  destruct (round_trip L S umax Humax o2 w (g_w g) (g_h g) pal dbg ops e1 e2 e3 w3 frames tl3 src3 n Gw Gh P3 Ro T1 T2 T3 Hw D3 Hcr Hwr Hbl Hfr M1 M2)
    as (d3 & d3' & E3 & U1 & U2 & U3 & U4 & U5 & U6).
  { unfold frames, fs, all_seen. rewrite !map_length, combine_length. lia. }
  exists d3, d3'. split; [exact E3|]. split; [rewrite U5, Hwant; reflexivity|].
  split; [exact U1|]. split; [exact U2|]. split; [|split; [|exact U6]].
  { rewrite U4.
    - unfold ops, copy_ops. cbn [last_repeat]. destruct fs; [congruence|]. destruct (gif_repeat g) as [[|p]|]; reflexivity.
    - constructor; [exact I|]. apply Forall_map, Forall_forall. intros f _. exact I. }
  rewrite U3. unfold pal, gif_palette. destruct (has_table (g_flags g)) eqn:Et; [|reflexivity].
  destruct (P1 eq_refl) as (Q1 & _ & Q2). unfold pal, gif_palette in Q1, Q2. rewrite Et in Q1, Q2. cbn [or_empty] in *. now rewrite Q2.
Qed.

(** ** Compressed frames *)
Definition copied (ci : ctl * img) : ctl * img := (fst ci, image_of (raw_seen ci) (im_mcs (snd ci)) (payload (im_subs (snd ci)))).
Lemma frame_ctl_raw ci : frame_ctl (raw_seen ci) = fst ci.
Proof. destruct ci as [[] i]. reflexivity. Qed.
Lemma raw_copied o g ci : img_acc true o g (snd ci) -> raw_seen (copied ci) = raw_seen ci.
Proof.
  destruct ci as [c i]. intros (_ & It & _ & _). cbn [snd] in It. unfold copied. cbn [fst snd].
  assert (Hp : forall p, f_palette (raw_seen (c, i)) = Some p -> (colors p <= 256)%nat).
  { intros p. unfold raw_seen. cbn [meta_frame f_palette fst snd]. destruct (has_table (im_flags i)) eqn:Et; [|discriminate]. intros [= <-].
    apply (padded_table _ _ It Et). }
  destruct (image_interlaced umax Humax (raw_seen (c, i)) (im_mcs i) (payload (im_subs i)) Hp) as [I1 I2].
  unfold raw_seen at 1. cbn [fst snd]. unfold meta_frame. rewrite I1, I2, payload_image.
  unfold raw_seen, meta_frame, image_of. cbn [fst snd im_left im_top im_w im_h im_lct im_mcs f_left f_top f_width f_height f_interlaced f_palette].
  destruct (has_table (im_flags i)) eqn:Et; [|reflexivity]. now destruct (padded_table _ _ It Et) as [-> _].
Qed.
Definition rewritable (f : frame) : Prop := exists m b data, f_buffer f = m :: b :: data /\ 2 <= m.

Lemma raw_images r l : (forall ci, In ci l -> u16_ok (c_delay (fst ci))) ->
  controlled ctl_none (flat_map (op_blocks L) (rewrite_ops r (map raw_seen l))) = map copied l.
Proof.
  intros H. assert (Hl : forall c, controlled c (flat_map (op_blocks L) (map OWritePre (map raw_seen l))) = map copied l).
  { induction l as [|ci l IH]; intros c; [reflexivity|]. cbn [map flat_map op_blocks]. unfold raw_seen at 1. cbn [meta_frame f_buffer].
    rewrite (controlled_frame umax Humax) by (apply H; now left). rewrite IH by (intros; apply H; now right). rewrite frame_ctl_raw. reflexivity. }
  unfold rewrite_ops. cbn [flat_map op_blocks]. destruct r as [[|p]|]; cbn [repeat_blks app controlled loop_blk N.eqb Pos.eqb]; apply Hl.
Qed.

(** The copy of the compressed images of [g], for every reader that takes [g]. *)
Lemma copy_raw_gif o g dbg w : gif_acc true o g -> fits (o_limit o) 15 -> acc_images g <> [] -> Forall rewritable (map raw_seen (acc_images g)) ->
  Forall harmless (w_plan w) -> w_out w = [] ->
  let ops := rewrite_ops (gif_repeat g) (map raw_seen (acc_images g)) in
  let g2 := enc_gif L (g_w g) (g_h g) (or_empty (gif_palette g)) ops in
  exists e1 e2 e3 w3, encoder_new w (g_w g) (g_h g) (or_empty (gif_palette g)) = (e1, Ok tt) /\
    run_ops L dbg e1 ops = (e2, Ok tt) /\ into_inner e2 = (e3, Ok w3) /\ w_out w3 = ser_gif g2 [] /\
    acc_images g2 = map copied (acc_images g) /\ gif_repeat g2 = gif_repeat g /\
    gif_palette g2 = Some (match gif_palette g with Some p => p | None => repeat 0 6 end) /\
    forall o2, gif_acc true o2 g -> fits (o_limit o2) 15 -> gif_ok o2 g2.
Proof.
  intros Ga Hl0 Hne Hrw Hh Hw ops g2.
  pose proof Ga as ((Gw & Gh & _ & _ & _ & Gt) & _).
  destruct (acc_palette o g Ga) as (P1 & P2 & P3). set (pal := or_empty (gif_palette g)) in *.
  pose proof (acc_images_rng o g Ga) as Hrng. pose proof (acc_repeat_rng o g Ga) as Hrr.
  set (l := acc_images g) in *.
  assert (Hfr : forall ci, In ci l -> frame_rng (raw_seen ci) /\ palette_error (usable pal) (raw_seen ci) = None /\ payload (im_subs (snd ci)) <> [] /\ 2 <= im_mcs (snd ci) <= 11).
  { intros ci Hin. rewrite Forall_forall in Hrng, Hrw. pose proof (Hrng ci Hin) as Hr. destruct (Hrw (raw_seen ci) (in_map _ _ _ Hin)) as (m & b & data & Em & Hm).
    unfold raw_seen in Em. cbn [meta_frame f_buffer] in Em. injection Em as Em1 Em2. pose proof Hr as (_ & (_ & _ & Im & _) & Hb).
    split; [|split; [|split; [congruence|lia]]].
    - apply (meta_rng o g); [exact Hr|]. constructor; [unfold byte_ok; lia|exact Hb].
    - apply (img_palette o g); [exact Ga|apply Hr]. }
  assert (Ro : Forall op_rng ops).
  { constructor; [exact Hrr|]. apply Forall_map, Forall_map, Forall_forall. intros ci Hin. apply Hfr. exact Hin. }
  assert (Hok : Forall (fun op => op_result dbg (usable pal) op = Ok tt) ops).
  { constructor; [reflexivity|]. apply Forall_map, Forall_map, Forall_forall. intros ci Hin. destruct (Hfr ci Hin) as (_ & F2 & _ & F4 & F5).
    unfold op_result. unfold raw_seen at 1. cbn [meta_frame f_buffer]. rewrite F2.
    destruct (N.leb_spec 2 (im_mcs (snd ci))); [|lia]. destruct (N.leb_spec (im_mcs (snd ci)) 11); [|lia]. reflexivity. }
  destruct (session_runs L dbg w (g_w g) (g_h g) pal ops Gw Gh Ro Hh P2 Hok) as (e1 & e2 & e3 & w3 & T1 & T2 & T3).
  exists e1, e2, e3, w3. split; [exact T1|]. split; [exact T2|]. split; [exact T3|].
  destruct (session_ok L dbg w (g_w g) (g_h g) pal ops e1 e2 e3 w3 Gw Gh Ro T1 T2 T3) as (Hout & _ & Hc & _).
  rewrite Hw in Hout. cbn [app] in Hout. split; [exact Hout|].
  assert (Ht2 : has_table (g_flags g2) = true) by (apply (g_table L umax Humax); exact Hc).
  assert (Hgo : forall o2, gif_acc true o2 g -> fits (o_limit o2) 15 -> gif_ok o2 g2).
  { intros o2 Ga2 Hlim.
    assert (L5 : fits (o_limit o2) 5) by (destruct (o_limit o2); cbn [fits] in *; lia).
    pose proof (acc_images_rng o2 g Ga2) as Hrng2. fold l in Hrng2.
    destruct (gflags_spec umax Humax (size_field (colors pal))) as (K1 & K2 & K3); [apply size_field_fits; exact Hc|].
    split; [exact Gw|]. split; [exact Gh|]. split; [exact K1|]. split; [unfold byte_ok; cbn; lia|]. split; [unfold byte_ok; cbn; lia|].
    split; [apply (padded_ok umax Humax); auto|]. split; [|split; [|apply known_unknown, enc_known]].
    - apply some_blocks, Exists_cons_tl. destruct l as [|ci l']; [now contradiction Hne|]. apply Exists_cons_hd. exact I.
    - unfold g2 at 2. cbn [enc_gif g_blocks]. unfold ops, rewrite_ops. cbn [flat_map op_blocks]. apply Forall_app. split; [apply (repeat_ok umax Humax); auto|].
      apply Forall_forall. intros b Hb. apply in_flat_map in Hb as (op & Ho & Hb). apply in_map_iff in Ho as (f & <- & Ho). apply in_map_iff in Ho as (ci & <- & Hin).
      destruct (Hfr ci Hin) as (F1 & F2 & F3 & F4). rewrite Forall_forall in Hrng2. destruct (Hrng2 ci Hin) as (_ & ((_ & _ & _ & _ & _ & Is) & It & _) & Hbb).
      cbn [op_blocks] in Hb. unfold raw_seen at 1 in Hb. cbn [meta_frame f_buffer] in Hb.
      destruct Hb as [<-|[<-|[]]]; [apply (control_of_ok umax Humax); assumption|]. apply (image_ok umax Humax); auto; [|lia].
      intros p. unfold raw_seen. cbn [meta_frame f_palette fst snd]. destruct (has_table (im_flags (snd ci))) eqn:Et; [|discriminate]. intros [= <-].
      apply (padded_table _ _ It Et). }
  split.
  { rewrite acc_images_regular by (apply (proj1 (ok_exactly o g2) (Hgo o Ga Hl0))). unfold gif_images. apply raw_images.
    intros ci Hin. rewrite Forall_forall in Hrng. apply (Hrng ci Hin). }
  split; [|split; [|exact Hgo]].
  - unfold gif_repeat at 1. unfold g2 at 1. cbn [enc_gif g_blocks]. rewrite (enc_loops L umax Humax); [|exact Ro|].
    + unfold ops, rewrite_ops. cbn [last_repeat].
      assert (Hl : forall r l, last_repeat r (map OWritePre (map raw_seen l)) = r) by (intros r l'; destruct l'; reflexivity).
      rewrite Hl. destruct (gif_repeat g) as [[|p]|]; reflexivity.
    + constructor; [exact I|]. apply Forall_map, Forall_forall. intros f _. exact I.
  - unfold gif_palette at 1. rewrite Ht2. unfold g2. cbn [enc_gif g_gct]. unfold pal, gif_palette. destruct (has_table (g_flags g)) eqn:Et; [|reflexivity].
    destruct (P1 eq_refl) as (Q1 & _ & Q2). unfold pal, gif_palette in Q1, Q2. rewrite Et in Q1, Q2. cbn [or_empty] in *. now rewrite Q2.
Qed.

Lemma copy_raw_out o src d d' fs n :
  src_ok src -> good_src src -> o_skip_frame_decoding o = true -> limit_ok umax (o_limit o) -> fits (o_limit o) 15 ->
  read_info L src o = Ok d -> read_all L umax n d = (d', fs, Ok false) -> fs <> [] -> Forall rewritable fs ->
  forall w dbg, Forall harmless (w_plan w) -> w_out w = [] ->
  exists e1 e2 e3 w3, encoder_new w (dec_width L d) (dec_height L d) (or_empty (dec_global_palette L d)) = (e1, Ok tt) /\
    run_ops L dbg e1 (rewrite_ops (dec_repeat L d) fs) = (e2, Ok tt) /\ into_inner e2 = (e3, Ok w3) /\
    w_out w3 = ser_gif (enc_gif L (dec_width L d) (dec_height L d) (or_empty (dec_global_palette L d)) (rewrite_ops (dec_repeat L d) fs)) [] /\
    forall src3 tl3, delivers src3 (w_out w3 ++ tl3) ->
    exists d3 d3', read_info L src3 o = Ok d3 /\ read_all L umax n d3 = (d3', fs, Ok false) /\
      dec_width L d3 = dec_width L d /\ dec_height L d3 = dec_height L d /\ dec_repeat L d3 = dec_repeat L d /\
      dec_global_palette L d3 = Some (match dec_global_palette L d with Some p => p | None => repeat 0 6 end) /\ rd_rest L (dc_rd L d3') = tl3.
Proof.
  intros A1 A2 N1 N3 Hlim E1 R1 Hne Hrw w dbg Hh Hw.
  destruct (raw_sound L S umax Humax src o d n d' fs A1 A2 N3 N1 E1 R1) as (g & tl & Eb & G1 & _ & Hroom & ->).
  pose proof (conj A1 (conj A2 Eb) : delivers src (ser_gif g tl)) as D1.
  destruct (info_told o g tl src d (or_introl N1) G1 D1 E1) as (-> & -> & -> & ->).
  pose proof (read_all_count _ _ _ _ R1) as Hnn. rewrite map_length in Hnn. pose proof (proj1 G1) as Ga.
  pose proof (acc_images_rng o g Ga) as Hrng.
  assert (Hne' : acc_images g <> []) by (intros E; rewrite E in Hne; now apply Hne).
  destruct (copy_raw_gif o g dbg w Ga Hlim Hne' Hrw Hh Hw) as (e1 & e2 & e3 & w3 & T1 & T2 & T3 & Hout & Hi2 & Hr2 & Hp2 & Hgo).
  exists e1, e2, e3, w3. split; [exact T1|]. split; [exact T2|]. split; [exact T3|]. split; [exact Hout|]. intros src3 tl3 D3.
  set (l := acc_images g) in *. set (g2 := enc_gif L (g_w g) (g_h g) (or_empty (gif_palette g)) (rewrite_ops (gif_repeat g) (map raw_seen l))) in *.
  assert (Etl : w_out w3 ++ tl3 = ser_gif g2 tl3).
  { rewrite Hout. unfold ser_gif. rewrite <- !app_assoc. reflexivity. }
  rewrite Etl in D3. pose proof (Hgo o Ga Hlim) as Hg2. pose proof (ok_file_acc o g2 tl3 Hg2) as Hf2.
  assert (Hraw : raw_told o (map copied l) = (map raw_seen l, Ok false)).
  { clear - Humax Hrng Hroom. induction Hrng as [|ci l Hr _ IH]; [reflexivity|]. inversion Hroom as [|? ? H1 H2]; subst. cbn [map raw_told].
    assert (Er : has_room o (snd (copied ci)) = has_room o (snd ci)) by (unfold has_room, copied; cbn [snd]; now rewrite payload_image).
    rewrite Er, H1, (IH H2), (raw_copied o g) by apply Hr. reflexivity. }
  destruct (raw_any L S umax Humax o g2 tl3 src3 n Hf2 D3 N1) as (d3 & d3' & E3 & U1 & U2); [rewrite Hi2, map_length; exact Hnn|].
  rewrite Hi2, Hraw in U1, U2. cbn [fst snd] in U1, U2.
  destruct (info_told o g2 tl3 src3 d3 (or_introl N1) Hf2 D3 E3) as (V1 & V2 & V3 & V4).
  exists d3, d3'. split; [exact E3|]. split; [exact U1|]. split; [exact V1|]. split; [exact V2|]. split; [now rewrite V4|]. split; [now rewrite V3|].
  rewrite (U2 eq_refl). unfold unread_tail. destruct (g_blocks g2) eqn:Eb2; [|reflexivity]. exfalso. now apply Hg2.
Qed.

Theorem copy_pixels (Z : lzw_errs S) o1 o2 src1 src2 d1 d1' fs1 d2 d2' fs2 n :
  src_ok src1 -> good_src src1 -> src_ok src2 -> good_src src2 -> concat (map ev_bytes src1) = concat (map ev_bytes src2) ->
  o_color o1 = CIndexed -> o_skip_frame_decoding o1 = false -> o_check_for_end_code o1 = false -> limit_ok umax (o_limit o1) ->
  o_skip_frame_decoding o2 = false -> o_check_for_end_code o2 = false -> limit_ok umax (o_limit o2) -> fits (o_limit o2) 15 ->
  read_info L src1 o1 = Ok d1 -> read_all L umax n d1 = (d1', fs1, Ok false) ->
  read_info L src2 o2 = Ok d2 -> read_all L umax n d2 = (d2', fs2, Ok false) ->
  fs1 <> [] -> Forall (fun f => 0 < f_width f * f_height f /\ bytes_ok (f_buffer f)) fs1 ->
  forall w dbg, Forall harmless (w_plan w) -> w_out w = [] ->
  exists e1 e2 e3 w3, encoder_new w (dec_width L d1) (dec_height L d1) (or_empty (dec_global_palette L d1)) = (e1, Ok tt) /\
    run_ops L dbg e1 (copy_ops (dec_repeat L d1) fs1) = (e2, Ok tt) /\ into_inner e2 = (e3, Ok w3) /\
    forall src3 tl3, delivers src3 (w_out w3 ++ tl3) ->
    exists d3 d3', read_info L src3 o2 = Ok d3 /\ read_all L umax n d3 = (d3', fs2, Ok false) /\
      dec_width L d3 = dec_width L d2 /\ dec_height L d3 = dec_height L d2 /\ dec_repeat L d3 = dec_repeat L d2 /\
      dec_global_palette L d3 = Some (match dec_global_palette L d2 with Some p => p | None => repeat 0 6 end) /\ rd_rest L (dc_rd L d3') = tl3.
Proof.
  intros A1 A2 B1 B2 Esrc Ec N1 N2 N3 M1 M2 M3 Hlim E1 R1 E2 R2 Hne Hpx w dbg Hh Hw.
  destruct (copy_pixels_out Z o1 o2 src1 src2 d1 d1' fs1 d2 d2' fs2 n A1 A2 B1 B2 Esrc Ec N1 N2 N3 M1 M2 M3 Hlim E1 R1 E2 R2 Hne Hpx w dbg Hh Hw)
    as (e1 & e2 & e3 & w3 & T1 & T2 & T3 & _ & T4). exists e1, e2, e3, w3. auto.
Qed.
Theorem copy_raw o src d d' fs n :
  src_ok src -> good_src src -> o_skip_frame_decoding o = true -> limit_ok umax (o_limit o) -> fits (o_limit o) 15 ->
  read_info L src o = Ok d -> read_all L umax n d = (d', fs, Ok false) -> fs <> [] -> Forall rewritable fs ->
  forall w dbg, Forall harmless (w_plan w) -> w_out w = [] ->
  exists e1 e2 e3 w3, encoder_new w (dec_width L d) (dec_height L d) (or_empty (dec_global_palette L d)) = (e1, Ok tt) /\
    run_ops L dbg e1 (rewrite_ops (dec_repeat L d) fs) = (e2, Ok tt) /\ into_inner e2 = (e3, Ok w3) /\
    forall src3 tl3, delivers src3 (w_out w3 ++ tl3) ->
    exists d3 d3', read_info L src3 o = Ok d3 /\ read_all L umax n d3 = (d3', fs, Ok false) /\
      dec_width L d3 = dec_width L d /\ dec_height L d3 = dec_height L d /\ dec_repeat L d3 = dec_repeat L d /\
      dec_global_palette L d3 = Some (match dec_global_palette L d with Some p => p | None => repeat 0 6 end) /\ rd_rest L (dc_rd L d3') = tl3.
Proof.
  intros A1 A2 N1 N3 Hlim E1 R1 Hne Hrw w dbg Hh Hw.
  destruct (copy_raw_out o src d d' fs n A1 A2 N1 N3 Hlim E1 R1 Hne Hrw w dbg Hh Hw) as (e1 & e2 & e3 & w3 & T1 & T2 & T3 & _ & T4).
  exists e1, e2, e3, w3. auto.
Qed.

(** ** The copy of a copy *)
Lemma blank_palette w h o ops : enc_gif L w h (or_empty o) ops = enc_gif L w h (match o with Some p => p | None => repeat 0 6 end) ops.
Proof. destruct o; reflexivity. Qed.
Theorem copy_pixels_twice (Z : lzw_errs S) o src d d' fs n : src_ok src -> good_src src ->
  o_color o = CIndexed -> o_skip_frame_decoding o = false -> o_check_for_end_code o = false -> limit_ok umax (o_limit o) -> fits (o_limit o) 15 ->
  read_info L src o = Ok d -> read_all L umax n d = (d', fs, Ok false) ->
  fs <> [] -> Forall (fun f => 0 < f_width f * f_height f /\ bytes_ok (f_buffer f)) fs ->
  forall w dbg e1 e2 e3 w3, Forall harmless (w_plan w) -> w_out w = [] ->
  encoder_new w (dec_width L d) (dec_height L d) (or_empty (dec_global_palette L d)) = (e1, Ok tt) ->
  run_ops L dbg e1 (copy_ops (dec_repeat L d) fs) = (e2, Ok tt) -> into_inner e2 = (e3, Ok w3) ->
  forall src3 tl3, delivers src3 (w_out w3 ++ tl3) ->
  exists d3 d3', read_info L src3 o = Ok d3 /\ read_all L umax n d3 = (d3', fs, Ok false) /\
    forall w' dbg', Forall harmless (w_plan w') -> w_out w' = [] ->
    exists e4 e5 e6 w6, encoder_new w' (dec_width L d3) (dec_height L d3) (or_empty (dec_global_palette L d3)) = (e4, Ok tt) /\
      run_ops L dbg' e4 (copy_ops (dec_repeat L d3) fs) = (e5, Ok tt) /\ into_inner e5 = (e6, Ok w6) /\ w_out w6 = w_out w3.
Proof.
  intros A1 A2 Ec N1 N2 N3 Hlim E R Hne Hpx w dbg e1 e2 e3 w3 Hh Hw T1 T2 T3 src3 tl3 D3.
  destruct (copy_pixels_out Z o o src src d d' fs d d' fs n A1 A2 A1 A2 eq_refl Ec N1 N2 N3 N1 N2 N3 Hlim E R E R Hne Hpx w dbg Hh Hw)
    as (e1' & e2' & e3' & w3' & T1' & T2' & T3' & Hout & Hread).
  rewrite T1 in T1'. injection T1' as <-. rewrite T2 in T2'. injection T2' as <-. rewrite T3 in T3'. injection T3' as <- <-.
  destruct (Hread src3 tl3 D3) as (d3 & d3' & E3 & R3 & V1 & V2 & V3 & V4 & _).
  exists d3, d3'. split; [exact E3|]. split; [exact R3|]. intros w' dbg' Hh' Hw'. destruct D3 as (B1 & B2 & _).
  destruct (copy_pixels_out Z o o src3 src3 d3 d3' fs d3 d3' fs n B1 B2 B1 B2 eq_refl Ec N1 N2 N3 N1 N2 N3 Hlim E3 R3 E3 R3 Hne Hpx w' dbg' Hh' Hw')
    as (e4 & e5 & e6 & w6 & U1 & U2 & U3 & Hout' & _).
  exists e4, e5, e6, w6. split; [exact U1|]. split; [exact U2|]. split; [exact U3|].
  rewrite Hout', Hout, V1, V2, V3, V4. cbn [or_empty]. now rewrite blank_palette.
Qed.
Theorem copy_raw_twice o src d d' fs n : src_ok src -> good_src src ->
  o_skip_frame_decoding o = true -> limit_ok umax (o_limit o) -> fits (o_limit o) 15 ->
  read_info L src o = Ok d -> read_all L umax n d = (d', fs, Ok false) ->
  fs <> [] -> Forall rewritable fs ->
  forall w dbg e1 e2 e3 w3, Forall harmless (w_plan w) -> w_out w = [] ->
  encoder_new w (dec_width L d) (dec_height L d) (or_empty (dec_global_palette L d)) = (e1, Ok tt) ->
  run_ops L dbg e1 (rewrite_ops (dec_repeat L d) fs) = (e2, Ok tt) -> into_inner e2 = (e3, Ok w3) ->
  forall src3 tl3, delivers src3 (w_out w3 ++ tl3) ->
  exists d3 d3', read_info L src3 o = Ok d3 /\ read_all L umax n d3 = (d3', fs, Ok false) /\
    forall w' dbg', Forall harmless (w_plan w') -> w_out w' = [] ->
    exists e4 e5 e6 w6, encoder_new w' (dec_width L d3) (dec_height L d3) (or_empty (dec_global_palette L d3)) = (e4, Ok tt) /\
      run_ops L dbg' e4 (rewrite_ops (dec_repeat L d3) fs) = (e5, Ok tt) /\ into_inner e5 = (e6, Ok w6) /\ w_out w6 = w_out w3.
Proof.
  intros A1 A2 N1 N3 Hlim E R Hne Hpx w dbg e1 e2 e3 w3 Hh Hw T1 T2 T3 src3 tl3 D3.
  destruct (copy_raw_out o src d d' fs n A1 A2 N1 N3 Hlim E R Hne Hpx w dbg Hh Hw)
    as (e1' & e2' & e3' & w3' & T1' & T2' & T3' & Hout & Hread).
  rewrite T1 in T1'. injection T1' as <-. rewrite T2 in T2'. injection T2' as <-. rewrite T3 in T3'. injection T3' as <- <-.
  destruct (Hread src3 tl3 D3) as (d3 & d3' & E3 & R3 & V1 & V2 & V3 & V4 & _).
  exists d3, d3'. split; [exact E3|]. split; [exact R3|]. intros w' dbg' Hh' Hw'. destruct D3 as (B1 & B2 & _).
  destruct (copy_raw_out o src3 d3 d3' fs n B1 B2 N1 N3 Hlim E3 R3 Hne Hpx w' dbg' Hh' Hw')
    as (e4 & e5 & e6 & w6 & U1 & U2 & U3 & Hout' & _).
  exists e4, e5, e6, w6. split; [exact U1|]. split; [exact U2|]. split; [exact U3|].
  rewrite Hout', Hout, V1, V2, V3, V4. cbn [or_empty]. now rewrite blank_palette.
Qed.

(** ** Decoding the copy of compressed frames *)
(** Two readings of the same images: the same frames and the same result, except that one of the two may have stopped earlier at
    an invalid code. *)
Definition same_or_late (fs : list frame) (y : dres bool) (fs' : list frame) (y' : dres bool) : Prop :=
  (fs' = fs /\ y' = y) \/
  (y' = Err (DIo InvalidData) /\ exists rest, fs = fs' ++ rest) \/ (y = Err (DIo InvalidData) /\ exists rest, fs' = fs ++ rest).
Lemma sol_cons f fs y fs' y' : same_or_late fs y fs' y' -> same_or_late (f :: fs) y (f :: fs') y'.
Proof.
  intros [[-> ->]|[[-> [r ->]]|[-> [r ->]]]]; [left; auto|right; left|right; right]; (split; [reflexivity|]; exists r; reflexivity).
Qed.

Lemma copied_img o g ci : img_acc true o g (snd ci) -> im_w (snd (copied ci)) = im_w (snd ci) /\ im_h (snd (copied ci)) = im_h (snd ci) /\
  is_interlaced (im_flags (snd (copied ci))) = is_interlaced (im_flags (snd ci)) /\
  (if has_table (im_flags (snd (copied ci))) then Some (im_lct (snd (copied ci))) else None) = (if has_table (im_flags (snd ci)) then Some (im_lct (snd ci)) else None).
Proof.
  intros H. pose proof (raw_copied o g ci H) as E. unfold raw_seen, meta_frame in E. injection E as E1 E2 E3. auto.
Qed.
Lemma seen_copied o o2 g g2 ci out : img_acc true o g (snd ci) -> gif_palette g2 = Some (match gif_palette g with Some p => p | None => repeat 0 6 end) ->
  seen o2 g2 (copied ci) out = seen o2 g ci out.
Proof.
  intros H Hp. destruct (copied_img o g ci H) as (E1 & E2 & E3 & E4). destruct H as (_ & _ & _ & Ht). specialize (Ht eq_refl).
  assert (Epal : pal_of g2 (snd (copied ci)) = pal_of g (snd ci)).
  { unfold pal_of. unfold gif_palette in Hp. destruct (has_table (im_flags (snd (copied ci)))), (has_table (im_flags (snd ci))); try discriminate E4.
    - now injection E4.
    - destruct (has_table (g_flags g2)); [|discriminate Hp]. injection Hp as ->. destruct Ht as [Ht|Ht]; [discriminate Ht|]. now rewrite Ht. }
  unfold seen. unfold im_picture. rewrite Epal, E1, E2, E3. unfold meta_frame. rewrite E4, E1, E2. reflexivity.
Qed.
Lemma copied_agree o o2 g g2 : gif_palette g2 = Some (match gif_palette g with Some p => p | None => repeat 0 6 end) ->
  forall l, Forall (img_rng o g) l -> Forall (fun ci => 0 < im_w (snd ci) * im_h (snd ci)) l ->
  forall obs fs y fs' y', reading umax o2 g (Ok false) l obs fs y -> reading umax o2 g2 (Ok false) (map copied l) obs fs' y' ->
  same_or_late fs y fs' y'.
Proof.
  intros Hp l Hr. induction Hr as [|ci l Hr _ IH]; intros Hz obs fs y fs' y' R1 R2.
  - inversion R1; subst. inversion R2; subst. left. auto.
  - inversion Hz as [|? ? Hz1 Hz2]; subst. pose proof Hr as (_ & Ha & _). destruct (copied_img o g ci Ha) as (E1 & E2 & E3 & _).
    assert (Epx : im_pixels (snd (copied ci)) = im_pixels (snd ci)) by (unfold im_pixels; now rewrite E1, E2).
    assert (Etl : too_large umax o2 (snd (copied ci)) = too_large umax o2 (snd ci)) by (unfold too_large, frame_bytes; now rewrite Epx).
    assert (Es : forall out, shows umax o2 (snd (copied ci)) out <-> shows umax o2 (snd ci) out).
    { intros out. unfold shows, rowless_img. now rewrite Epx, Etl, E2, E3. }
    assert (Er : forall out bad e, refused umax o2 (snd (copied ci)) out bad e <-> refused umax o2 (snd ci) out bad e).
    { intros out bad e. unfold refused, rowless_img. now rewrite Epx, Etl, E2, E3. }
    assert (Hpos : im_pixels (snd ci) <> 0%nat) by (unfold im_pixels; lia).
    assert (Hno : forall out bad e, shows umax o2 (snd ci) out -> refused umax o2 (snd ci) out bad e ->
      bad = true /\ length out = im_pixels (snd ci) /\ e = DIo InvalidData).
    { intros out bad e (S1 & S2 & _) Hf. unfold refused in Hf. rewrite S1 in Hf. destruct (Nat.eqb_spec (im_pixels (snd ci)) 0); [contradiction|].
      destruct bad; [|lia]. destruct Hf. repeat split; auto. lia. }
    assert (Hee : forall out bad e e', refused umax o2 (snd ci) out bad e -> refused umax o2 (snd ci) out bad e' -> e = e').
    { intros out bad e e' F1 F2. unfold refused in F1, F2. destruct (too_large umax o2 (snd ci)); [congruence|].
      destruct (Nat.eqb_spec (im_pixels (snd ci)) 0); [contradiction|]. destruct bad; destruct F1, F2; congruence. }
    cbn [map] in R2.
    inversion R1 as [|? ? out bad obs1 fs1 ? S1 R1'|? ? out bad obs1 e F1|? ? out obs1 S1 L1]; subst;
      inversion R2 as [|? ? ? ? ? fs2 ? S2 R2'|? ? ? ? ? e' F2|? ? ? ? S2 L2]; subst;
      try apply Es in S2; try apply Er in F2; rewrite ?(seen_copied o o2 g g2) by assumption.
    + apply sol_cons. eapply IH; eassumption.
    + destruct (Hno _ _ _ S1 F2) as (_ & _ & ->). right. left. split; [reflexivity|]. eexists. reflexivity.
    + right. left. split; [reflexivity|]. eexists. cbn [app]. reflexivity.
    + destruct (Hno _ _ _ S2 F1) as (_ & _ & ->). right. right. split; [reflexivity|]. eexists. reflexivity.
    + left. split; [reflexivity|]. f_equal. exact (Hee _ _ _ _ F2 F1).
    + destruct (Hno _ _ _ S2 F1) as (_ & _ & ->). right. right. split; [reflexivity|]. eexists. reflexivity.
    + right. right. split; [reflexivity|]. eexists. cbn [app]. reflexivity.
    + destruct (Hno _ _ _ S1 F2) as (_ & _ & ->). right. left. split; [reflexivity|]. eexists. reflexivity.
    + left. auto.
Qed.

(** [file_acc] looks at three of the options. *)
Definition like (o o2 : options) : Prop :=
  o_limit o2 = o_limit o /\ o_check_frame_consistency o2 = o_check_frame_consistency o /\ o_allow_unknown_blocks o2 = o_allow_unknown_blocks o.
Lemma like_acc o o2 g : like o o2 -> gif_acc true o g -> gif_acc true o2 g.
Proof.
  intros (E1 & E2 & E3) (H1 & H2 & H3). split; [exact H1|]. split.
  - eapply Forall_impl; [|exact H2]. intros [lb subs|i|t subs]; cbn [blk_acc]; unfold img_acc, img_head; now rewrite ?E1, ?E2, ?E3.
  - clear H2. revert H3. generalize 0 at 1 3. generalize 0. induction (g_blocks g) as [|[lb subs|i|t subs] bs IH]; intros n m; cbn [unknown_acc]; auto.
    rewrite E1. intros (A & B & C). auto.
Qed.

Theorem copy_raw_decoded (Z : lzw_errs S) o o2 src1 src2 d1 d1' fs1 n :
  src_ok src1 -> good_src src1 -> src_ok src2 -> good_src src2 -> concat (map ev_bytes src1) = concat (map ev_bytes src2) ->
  o_skip_frame_decoding o = true -> limit_ok umax (o_limit o) -> fits (o_limit o) 15 ->
  like o o2 -> o_skip_frame_decoding o2 = false -> o_check_for_end_code o2 = false ->
  read_info L src1 o = Ok d1 -> read_all L umax n d1 = (d1', fs1, Ok false) -> fs1 <> [] ->
  Forall rewritable fs1 -> Forall (fun f => 0 < f_width f * f_height f) fs1 ->
  forall w dbg, Forall harmless (w_plan w) -> w_out w = [] ->
  exists e1 e2 e3 w3 d2, encoder_new w (dec_width L d1) (dec_height L d1) (or_empty (dec_global_palette L d1)) = (e1, Ok tt) /\
    run_ops L dbg e1 (rewrite_ops (dec_repeat L d1) fs1) = (e2, Ok tt) /\ into_inner e2 = (e3, Ok w3) /\
    read_info L src2 o2 = Ok d2 /\
    forall src3 tl3, delivers src3 (w_out w3 ++ tl3) ->
    exists d2' fs2 y2 d3 d3' fs3 y3, read_all L umax n d2 = (d2', fs2, y2) /\ read_info L src3 o2 = Ok d3 /\ read_all L umax n d3 = (d3', fs3, y3) /\
      same_or_late fs2 y2 fs3 y3 /\ dec_repeat L d3 = dec_repeat L d2 /\ (y3 = Ok false -> rd_rest L (dc_rd L d3') = tl3).
Proof.
  intros A1 A2 B1 B2 Esrc N1 N3 Hlim Hlk M1 M2 E1 R1 Hne Hrw Hz w dbg Hh Hw.
  destruct (raw_sound L S umax Humax src1 o d1 n d1' fs1 A1 A2 N3 N1 E1 R1) as (g & tl & Eb & G1 & _ & Hroom & ->).
  pose proof (conj A1 (conj A2 Eb) : delivers src1 (ser_gif g tl)) as D1.
  rewrite Eb in Esrc. pose proof (conj B1 (conj B2 (eq_sym Esrc)) : delivers src2 (ser_gif g tl)) as D2.
  destruct (info_told o g tl src1 d1 (or_introl N1) G1 D1 E1) as (-> & -> & -> & ->).
  pose proof (read_all_count _ _ _ _ R1) as Hnn. rewrite map_length in Hnn. pose proof (proj1 G1) as Ga. pose proof (like_acc o o2 g Hlk Ga) as Ga2.
  assert (G2 : file_acc true o2 g tl) by (split; [exact Ga2|apply G1]).
  assert (Hne' : acc_images g <> []) by (intros E; rewrite E in Hne; now apply Hne).
  destruct (copy_raw_gif o g dbg w Ga Hlim Hne' Hrw Hh Hw) as (e1 & e2 & e3 & w3 & T1 & T2 & T3 & Hout & Hi2 & Hr2 & Hp2 & Hgo).
  destruct (data_total L S Z (acc_images g)) as (obs & Ho). pose proof (forall2_length _ _ _ Ho) as Hlo.
  assert (N3' : limit_ok umax (o_limit o2)) by (destruct Hlk as (-> & _); exact N3).
  destruct (acc_any L S umax Humax Z o2 g tl src2 obs n G2 D2 M1 M2 N3' Ho ltac:(lia)) as (d2 & d2' & fs2 & y2 & E2 & R2 & Rd2 & _).
  destruct (info_told o2 g tl src2 d2 (or_intror M2) G2 D2 E2) as (_ & _ & _ & Q2).
  exists e1, e2, e3, w3, d2. split; [exact T1|]. split; [exact T2|]. split; [exact T3|]. split; [exact E2|]. intros src3 tl3 D3.
  set (l := acc_images g) in *. set (g2 := enc_gif L (g_w g) (g_h g) (or_empty (gif_palette g)) (rewrite_ops (gif_repeat g) (map raw_seen l))) in *.
  assert (Etl : w_out w3 ++ tl3 = ser_gif g2 tl3).
  { rewrite Hout. unfold ser_gif. rewrite <- !app_assoc. reflexivity. }
  rewrite Etl in D3. assert (Hlim2 : fits (o_limit o2) 15) by (destruct Hlk as (-> & _); exact Hlim).
  pose proof (Hgo o2 Ga2 Hlim2) as Hg2. pose proof (ok_file_acc o2 g2 tl3 Hg2) as Hf2.
  assert (Ho2 : Forall2 (data_for Z) (acc_images g2) obs).
  { rewrite Hi2. clear - Humax Ho. induction Ho as [|ci ob l obs H _ IH]; [constructor|]. cbn [map]. constructor; [|exact IH].
    unfold data_for, copied in *. cbn [snd]. rewrite payload_image. exact H. }
  destruct (acc_any L S umax Humax Z o2 g2 tl3 src3 obs n Hf2 D3 M1 M2 N3' Ho2 ltac:(lia)) as (d3 & d3' & fs3 & y3 & E3 & R3 & Rd3 & Rest).
  destruct (info_told o2 g2 tl3 src3 d3 (or_intror M2) Hf2 D3 E3) as (_ & _ & _ & Q3).
  exists d2', fs2, y2, d3, d3', fs3, y3. split; [exact R2|]. split; [exact E3|]. split; [exact R3|]. split; [|split; [congruence|]].
  - rewrite Hi2 in Rd3. eapply copied_agree; [exact Hp2| | |exact Rd2|exact Rd3].
    + apply acc_images_rng. exact Ga.
    + rewrite Forall_map in Hz. exact Hz.
  - intros Ey. rewrite (Rest Ey). unfold unread_tail. destruct (g_blocks g2) eqn:Eb2; [|reflexivity]. exfalso. now apply Hg2.
Qed.
End TC.
