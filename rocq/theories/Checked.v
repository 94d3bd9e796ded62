(** What is read with the check for end codes switched on is read without it as well; so it is sound, too, and can be copied. *)
From Verif Require Import Base Common Lzw LzwErrs Encoder Stream Converter Reader StreamInv ConvInv DecoderSafe CanonReader DocRead DocAll
  EncLin EncSession SpecGif SpecPixels SpecAccept SpecSound SpecOptions Relax Rewrite Sound SoundAcc Transcode.
Open Scope N_scope.

Section CK.
Variable L : lzw_codec.
Variable S : lzw_spec L.
Variable umax : N.
Hypothesis Humax : 2 ^ 32 - 1 <= umax.

Lemma no_end_acc o g : gif_acc true (no_end_check o) g <-> gif_acc true o g.
Proof. split; apply like_acc; repeat split. Qed.
Lemma unchecked_permits o : permits o (no_end_check o).
Proof.
  unfold permits, no_end_check. cbn. split; [reflexivity|]. split; [reflexivity|]. split; [|split; [auto|split; [|auto]]].
  - destruct (o_limit o) as [n|]; cbn; [exists n; split; [reflexivity|lia]|exact I].
  - discriminate.
Qed.
Lemma unchecked src o d n d' fs : read_info L src o = Ok d -> read_all L umax n d = (d', fs, Ok false) ->
  exists e e', read_info L src (no_end_check o) = Ok e /\ read_all L umax n e = (e', fs, Ok false) /\
    rd_rest L (dc_rd L e') = rd_rest L (dc_rd L d') /\ dec_width L e = dec_width L d /\ dec_height L e = dec_height L d /\
    dec_global_palette L e = dec_global_palette L d /\ dec_repeat L e = dec_repeat L d.
Proof.
  intros E R. pose proof (unchecked_permits o) as Hp.
  assert (Hc : calm o (no_end_check o) (read_info L src o)) by (rewrite E; exact I).
  destruct (read_info_relax L o (no_end_check o) Hp src Hc) as [E1 Hu]. rewrite E in E1, Hu.
  pose proof (read_all_relax L umax o (no_end_check o) Hp n d d' fs (Ok false) Hu R I) as R1.
  eexists _, _. split; [exact E1|]. split; [exact R1|]. repeat split.
Qed.

Theorem read_sound_checked (Z : lzw_errs S) src o d n d' fs :
  src_ok src -> good_src src -> limit_ok umax (o_limit o) -> o_skip_frame_decoding o = false ->
  read_info L src o = Ok d -> read_all L umax n d = (d', fs, Ok false) ->
  exists g tl obs, concat (map ev_bytes src) = ser_gif g tl /\ file_acc true o g tl /\ rd_rest L (dc_rd L d') = unread_tail g tl /\
    Forall2 (data_for Z) (acc_images g) obs /\ Forall2 (fun ci ob => shows umax o (snd ci) (fst ob)) (acc_images g) obs /\
    fs = all_seen o g (acc_images g) (map fst obs).
Proof.
  intros A1 A2 Hl N1 E R. destruct (unchecked _ _ _ _ _ _ E R) as (e & e' & E1 & R1 & Er & _).
  destruct (read_sound L S umax Humax Z src (no_end_check o) e n e' fs A1 A2 Hl N1 eq_refl E1 R1) as (g & tl & obs & H1 & [H2 H2'] & H3 & H4 & H5 & H6).
  exists g, tl, obs. split; [exact H1|]. split; [split; [now apply no_end_acc|exact H2']|]. split; [congruence|]. split; [exact H4|]. split; [exact H5|exact H6].
Qed.

Theorem copy_pixels_checked (Z : lzw_errs S) o1 o2 src1 src2 d1 d1' fs1 d2 d2' fs2 n :
  src_ok src1 -> good_src src1 -> src_ok src2 -> good_src src2 -> concat (map ev_bytes src1) = concat (map ev_bytes src2) ->
  o_color o1 = CIndexed -> o_skip_frame_decoding o1 = false -> limit_ok umax (o_limit o1) ->
  o_skip_frame_decoding o2 = false -> limit_ok umax (o_limit o2) -> fits (o_limit o2) 15 ->
  read_info L src1 o1 = Ok d1 -> read_all L umax n d1 = (d1', fs1, Ok false) ->
  read_info L src2 o2 = Ok d2 -> read_all L umax n d2 = (d2', fs2, Ok false) ->
  fs1 <> [] -> Forall (fun f => 0 < f_width f * f_height f /\ bytes_ok (f_buffer f)) fs1 ->
  forall w dbg, Forall harmless (w_plan w) -> w_out w = [] ->
  exists e1 e2 e3 w3, encoder_new w (dec_width L d1) (dec_height L d1) (or_empty (dec_global_palette L d1)) = (e1, Ok tt) /\
    run_ops L dbg e1 (copy_ops (dec_repeat L d1) fs1) = (e2, Ok tt) /\ into_inner e2 = (e3, Ok w3) /\
    forall src3 tl3, delivers src3 (w_out w3 ++ tl3) ->
    exists d3 d3', read_info L src3 (no_end_check o2) = Ok d3 /\ read_all L umax n d3 = (d3', fs2, Ok false) /\
      dec_width L d3 = dec_width L d2 /\ dec_height L d3 = dec_height L d2 /\ dec_repeat L d3 = dec_repeat L d2 /\
      dec_global_palette L d3 = Some (match dec_global_palette L d2 with Some p => p | None => repeat 0 6 end) /\ rd_rest L (dc_rd L d3') = tl3.
Proof.
  intros A1 A2 B1 B2 Eb Ec N1 N3 M1 M3 Hlim E1 R1 E2 R2 Hne Hpx w dbg Hh Hw.
  destruct (unchecked _ _ _ _ _ _ E1 R1) as (e & e' & F1 & F2 & _ & <- & <- & <- & <-).
  destruct (unchecked _ _ _ _ _ _ E2 R2) as (f & f' & G1 & G2 & _ & <- & <- & <- & <-).
  exact (copy_pixels L S umax Humax Z (no_end_check o1) (no_end_check o2) src1 src2 e e' fs1 f f' fs2 n A1 A2 B1 B2 Eb Ec N1 eq_refl N3 M1 eq_refl M3 Hlim
    F1 F2 G1 G2 Hne Hpx w dbg Hh Hw).
Qed.
End CK.
