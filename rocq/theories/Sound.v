(** Reading all frames of a file whose image data are arbitrary bytes. *)
From Verif Require Import Base Common Lzw LzwErrs Encoder Stream Converter Reader StreamInv Steps StepsRev
  ReaderInv Interlace Ranges ConvInv DecoderSafe Canon CanonReader SpecGif DocTrace DocBlocks SpecPixels
  Pixels PixelRead DocRead DocAll Mixed ShortData SpecVerdict Verdict Corrupt SpecCorrupt CorruptDoc ZeroSize SpecDamage Damage SpecAccept AcceptDec SpecSound.
Open Scope N_scope.

(** ** Skipping the rest of image data with an invalid code *)
Section Skip.
Variable L : lzw_codec.
Variable S : lzw_spec L.
Variable Z : lzw_errs S.
Notation safe := (lz_is_safe L S).
Notation sd := (sd L).
Notation cn := (cn L).
Notation run := (run L).
Variable o : options.
Variable g : gif.
Hypothesis noskip : o_skip_frame_decoding o = false.
Hypothesis nocheck : o_check_for_end_code o = false.

Lemma skip_cn_err n : forall s str data rest k r1 e, (length str <= n)%nat -> sd_wf L s ->
  sd_state L s = DecodeSubBlock k -> inblk k str data rest ->
  lr_decode_bytes L (sd_lzw L s) [] ONone = (r1, ONone, Err e) -> cn s str ONone (CErr L e).
Proof.
  induction n as [|n IH]; intros s str data rest k r1 e Hl Hw Hst Hi Hr.
  { destruct Hi as (cur & subs & -> & _). rewrite !app_length in Hl. cbn in Hl. lia. }
  apply inblk_cases in Hi. destruct Hi as [(cur & tl & Hk & -> & Hcur & data' & -> & Hi)|(-> & [(b & t & -> & Hb & Hi)|(-> & ->)])].
  - rewrite app_length in Hl.
    assert (Ek : (k - length cur)%nat = O) by lia.
    assert (W : sd_wf L (set_state L s (DecodeSubBlock 0))).
    { destruct Hw as (W1 & W2 & W3 & W4). unfold gct_wf, cur_wf, mode_wf in *. rewrite Hst in *.
      split; [exact W1|]. split; [exact W2|]. split; [exact W3|exact W4]. }
    eapply cn_de_skip; [apply safe|exact Hw|exact Hst|lia|apply orb_true_r|]. rewrite Ek.
    eapply (IH _ tl data' rest 0%nat); [lia|exact W|reflexivity|exact Hi|exact Hr].
  - pose proof (N_de_next L s [b] ONone b [] Hst eq_refl Hb) as Hn.
    eapply cn_nst1; [exact Hw|exact Hn| |lia]. cbn [silent skipn].
    eapply (IH _ t data rest); [cbn in Hl; lia| |reflexivity|exact Hi|exact Hr].
    eapply wf_step; [apply safe|exact Hw| |exact Hn]. intros E. rewrite Hst in E. discriminate.
  - pose proof (N_de_drain_err L s [0] ONone [] r1 ONone _ Hst eq_refl Hr) as Hn.
    apply nst_next_state in Hn; [|exact Hw|discriminate]. eapply cn_err. exact Hn.
Qed.

Lemma drain_bad s z X out : lzr_ok L S o (sd_lzw L s) -> lr_decoder L (sd_lzw L s) = Some z -> lz_fails Z z X out ->
  (exists r1, lr_decode_bytes L (sd_lzw L s) [] ONone = (r1, ONone, Ok (0%nat, 0%nat)) /\ lzr_ok L S o r1) \/
  (out = [] /\ exists r1, lr_decode_bytes L (sd_lzw L s) [] ONone = (r1, ONone, Err (DIo InvalidData))).
Proof.
  intros [H1 H2] Hz Hp. unfold lr_decode_bytes. rewrite Hz in *.
  cbn [length]. destruct (lz_decode L z [] 0) as [z' [[n w] st]] eqn:E.
  destruct (safe _ _ _ _ _ _ _ E) as [Hn Hw]. cbn in Hn, Hw.
  assert (n = O) as -> by lia. assert (w = []) as -> by (destruct w; [reflexivity|cbn in Hw; lia]).
  rewrite H1, nocheck.
  assert (Hk : lzr_ok L S o (mk_lr L (Some z') (lr_min_code_size L (sd_lzw L s)) false)).
  { split; [cbn; congruence|]. cbn. eapply lz_size_decode; [exact H2|exact E]. }
  destruct (lf_step S Z z [] X 0 out z' 0 [] st Hp E) as [[-> ->]|[Hst _]].
  - right. split; [reflexivity|]. eexists. reflexivity.
  - left. destruct st; try congruence; eexists; (split; [reflexivity|]); exact Hk.
Qed.

(** At the end of the data the codec says nothing more. *)
Definition idle (s : sd) : Prop :=
  exists r1, lr_decode_bytes L (sd_lzw L s) [] ONone = (r1, ONone, Ok (0%nat, 0%nat)) /\ lzr_ok L S o r1.
Lemma mid_bad s str data rest z X out : midst L S o g s str data rest ->
  lr_decoder L (sd_lzw L s) = Some z -> lz_fails Z z X out ->
  idle s \/ (out = [] /\ cn s str ONone (CErr L (DIo InvalidData))).
Proof.
  destruct rest as [x rest]. intros [M1 M2 M3 M4 M5 M6 M7 (k & Hi & Hk)] Hz Hp. rewrite noskip in Hk. destruct Hk as [Hk _].
  destruct (drain_bad s z X out M5 Hz Hp) as [H|[-> (r1 & Hr1)]]; [left; exact H|].
  right. split; [reflexivity|]. eapply skip_cn_err; [apply Nat.le_refl|exact M1|exact Hk|exact Hi|exact Hr1].
Qed.
Lemma mid_idle s str data rest : midst L S o g s str data rest -> idle s ->
  exists s', run s str [DDataEnd] s' (snd rest) /\ docst L S o g s' ctl_none (fst rest) /\ sd_state L s' = BlockEnd /\ sd_header_end L s' = true.
Proof.
  destruct rest as [x rest]. cbn [fst snd]. intros [M1 M2 M3 M4 M5 M6 M7 (k & Hi & Hk)] (r1 & Hr1 & Hr2).
  rewrite noskip in Hk. destruct Hk as [Hk _].
  assert (W : sd_wf L (set_state L (set_lzw L s r1) FrameDecoded)).
  { destruct M1 as (W1 & W2 & W3 & W4). unfold gct_wf, cur_wf, mode_wf in *. rewrite Hk in *.
    split; [exact W1|]. split; [exact W2|]. split; [exact W3|exact I]. }
  set (s1 := set_state L (set_lzw L s r1) FrameDecoded) in *.
  set (s2 := set_state L (set_current L s1 None 0) BlockEnd).
  destruct (run_zero L safe s1 rest s2 1 DDataEnd W) as [_ W2].
  { apply (N_fd L s1 [0] ONone []); reflexivity. }
  exists s2. split; [split; [|exact W2]|].
  - econstructor; [|apply ctr_refl]. eapply (skip_cn L S); [apply Nat.le_refl|exact M1|exact Hk|exact Hi|exact Hr1|].
    apply (run_data_end L); [exact W|reflexivity].
  - split; [|split; [reflexivity|exact M6]]. constructor; try assumption. left. split; reflexivity.
Qed.
End Skip.

Lemma rowless_frame umax St cb x c f : f_interlaced f = true -> f_height f = 0 -> f_buffer f = [] ->
  conv_read_frame umax St cb x c f = (x, c, set_interlaced (set_buffer f []) false, Ok tt).
Proof.
  intros Hil Hh Hb.
  assert (Ec : check_buffer_size umax c f = Ok 0).
  { unfold check_buffer_size, limit_buffer_size, buffer_size, line_length. rewrite Hh, !N.mul_0_r, N.mul_0_l.
    replace (0 <=? umax) with true by (symmetry; apply N.leb_le; lia).
    destruct (cv_limit c) as [l|]; [|reflexivity]. replace (l <? 0) with false by (symmetry; apply N.ltb_ge; lia). reflexivity. }
  unfold conv_read_frame. rewrite Ec, Hb. cbn zeta.
  replace (umax / 2 <? 0) with false by (symmetry; apply N.ltb_ge; apply N.le_0_l).
  change (grow (firstn (N.to_nat 0) []) (N.to_nat 0)) with (@nil N).
  unfold conv_read_into_buffer. cbn [f_interlaced f_height set_buffer]. rewrite Hil, Hh. reflexivity.
Qed.

Section AI.
Variable L : lzw_codec.
Variable S : lzw_spec L.
Variable Z : lzw_errs S.
Variable umax : N.
Hypothesis Humax : 2 ^ 32 - 1 <= umax.
Notation safe := (lz_is_safe L S).
Notation dcd := (dcd L).
Notation rd := (rd L).
Variable o : options.
Variable g : gif.
Hypothesis noskip : o_skip_frame_decoding o = false.
Hypothesis nocheck : o_check_for_end_code o = false.
Hypothesis Hlimit : limit_ok umax (o_limit o).

(** A decoder whose next call fails. *)
Definition broken (d : dcd) : Prop := exists d', next_frame_info L d = (d', Err (DIo InvalidData)).

Lemma info_fault d : file_dec L o g d -> cn L (rd_dec L (dc_rd L d)) (rd_rest L (dc_rd L d)) ONone (CErr L (DIo InvalidData)) -> broken d.
Proof.
  intros F H0. assert (H : cinfo L (rd_dec L (dc_rd L d)) (rd_rest L (dc_rd L d)) (IErr' L (DIo InvalidData))) by (now apply ci_err).
  unfold broken. destruct (next_frame_info L d) as [d' x] eqn:E. pose proof F as [[G Q] Feof Fo Fw Fh Fg Fb Fr].
  pose proof (next_frame_info_returns L safe umax Humax _ _ _ G E) as (Rt & _).
  pose proof (info_rel_of L safe d d' x G Feof E) as I. destruct I as (I1 & I2 & I3 & I4).
  destruct x as [[|]|e'| | ]; try easy.
  - destruct I4 as [(sx & f & _ & Hc & _) _]. pose proof (cinfo_det _ _ _ _ Hc _ H) as Eq. discriminate Eq.
  - destruct I4 as (Ec & Et & Eeof & Hc). pose proof (cinfo_det _ _ _ _ Hc _ H) as Eq. discriminate Eq.
  - exists d'. f_equal. f_equal. destruct I4 as [(_ & (sx & f & _ & Hc & _) & _)|[[Hc _]|[(E' & _ & Hc)|(Hc & _)]]].
    + pose proof (cinfo_det _ _ _ _ Hc _ H) as Eq. discriminate Eq.
    + pose proof (cinfo_det _ _ _ _ Hc _ H) as Eq. congruence.
    + pose proof (cinfo_det _ _ _ _ Hc _ H) as Eq. discriminate Eq.
    + exfalso. eapply cut_good; eassumption.
Qed.


Section Image.
(** What follows the image. *)
Variable rest : tail.
(** In the data, or at their end. *)
Definition rests (d : dcd) : Prop :=
  exists data, midst L S o g (rd_dec L (dc_rd L d)) (rd_rest L (dc_rd L d)) data rest /\ idle L S o (rd_dec L (dc_rd L d)).

Lemma badr_next d out : file_dec L o g d -> badr L S Z o g rest (dc_rd L d) out -> rests d \/ (out = [] /\ broken d).
Proof.
  intros F (G & Q & E & (data & z & M & Hz & Hf)).
  destruct (mid_bad L S Z o g noskip nocheck _ _ _ _ z data out M Hz Hf) as [H|[-> Hc]].
  - left. exists data. auto.
  - right. split; [reflexivity|]. now apply info_fault.
Qed.
Lemma px_rests d out : pxr L S o g rest (dc_rd L d) out -> rests d.
Proof.
  intros (G & Q & E & Hp). pose proof (px_alive L S o g nocheck _ _ _ _ Hp) as Ha.
  destruct Hp as (data & z & X & M & _). exists data. split; [exact M|]. apply drain_none; [apply M|exact Ha].
Qed.

Lemma allowed_dims i : u16_ok (im_w i) -> u16_ok (im_h i) -> too_large umax o i = false ->
  N.of_nat (frame_bytes o i) <= umax / 2 /\ fits (o_limit o) (N.of_nat (frame_bytes o i)).
Proof.
  intros Hw Hh H. apply Bool.orb_false_iff in H. destruct H as [H1 H2]. apply N.ltb_ge in H1. split.
  - destruct Hlimit as [Hl|Hl].
    + assert (N.of_nat (frame_bytes o i) <= 65535 * 65535 * 4); [|lia].
      assert (E : N.of_nat (frame_bytes o i) = im_w i * im_h i * match o_color o with CRgba => 4 | CIndexed => 1 end).
      { unfold frame_bytes, im_pixels, px_bytes. destruct (o_color o); lia. }
      rewrite E. unfold u16_ok in Hw, Hh. destruct (o_color o); nia.
    + destruct (o_limit o) as [lim|]; [|contradiction]. apply N.ltb_ge in H2. lia.
  - unfold fits. destruct (o_limit o) as [lim|]; [|exact I]. apply N.ltb_ge in H2. exact H2.
Qed.

Section Data.
Variable d : dcd.
Variable i : img.
Variable out : list N.
Hypothesis F : file_dec L o g d.
Hypothesis M : midst L S o g (rd_dec L (dc_rd L d)) (rd_rest L (dc_rd L d)) (payload (im_subs i)) rest.
Hypothesis Hd : decodes L S o (rd_dec L (dc_rd L d)) i.
Lemma data_bad : lz_fails Z (lz_new L (im_mcs i)) (payload (im_subs i)) out -> badr L S Z o g rest (dc_rd L d) out.
Proof.
  intros Hp. destruct (Hd noskip) as (z & Hz & Hb & _). pose proof (fl_quiet _ _ _ _ F) as [[G _] Q].
  split; [exact G|]. split; [exact Q|]. split; [apply F|]. eapply bad_start; eassumption.
Qed.
Lemma data_px : lz_pending S (lz_new L (im_mcs i)) (payload (im_subs i)) out -> pxr L S o g rest (dc_rd L d) out.
Proof.
  intros Hp. destruct (Hd noskip) as (z & Hz & _ & Hpz). pose proof (fl_quiet _ _ _ _ F) as [[G _] Q].
  split; [exact G|]. split; [exact Q|]. split; [apply F|]. eapply px_start; [exact M|exact Hz|now apply Hpz].
Qed.
End Data.

(** An image whose data are anything. *)
Lemma any_image d d1 c1 i ob : next_frame_info L d = (d1, Ok true) -> file_dec L o g d1 -> u16_ok (im_w i) -> u16_ok (im_h i) ->
  midst L S o g (rd_dec L (dc_rd L d1)) (rd_rest L (dc_rd L d1)) (payload (im_subs i)) rest -> decodes L S o (rd_dec L (dc_rd L d1)) i ->
  dc_cur L d1 = meta_frame c1 i (is_interlaced (im_flags i)) [] -> dc_ty L d1 = DocBlocks.img_ty o i -> data_for Z (c1, i) ob ->
  exists d' x, read_next_frame L umax d = (d', x) /\
    ((x = Ok true /\ shows umax o i (fst ob) /\ dc_cur L d' = seen o g (c1, i) (fst ob) /\ file_dec L o g d' /\
      (rests d' \/ (snd ob = true /\ length (fst ob) = im_pixels i /\ broken d'))) \/
     (exists e, x = Err e /\ refused umax o i (fst ob) (snd ob) e)).
Proof.
  destruct ob as [out bad]. intros E F Hw16 Hh16 M Hd Hcur Hty Hda. unfold data_for in Hda. cbn [fst snd] in *.
  assert (Eco : cv_color (dc_conv L d1) = o_color o).
  { destruct (fl_quiet _ _ _ _ F) as [(_ & _ & _ & G4 & _) _]. rewrite G4, (fl_opts _ _ _ _ F). reflexivity. }
  assert (Eli : cv_limit (dc_conv L d1) = o_limit o).
  { destruct (fl_quiet _ _ _ _ F) as [(_ & _ & G3 & _) _]. rewrite G3, (fl_opts _ _ _ _ F). reflexivity. }
  unfold refused, shows. destruct (too_large umax o i) eqn:Hbig.
  { assert (Ef : conv_read_frame umax rd (decode_next_bytes L) (dc_rd L d1) (dc_conv L d1) (dc_cur L d1)
             = (dc_rd L d1, dc_conv L d1, dc_cur L d1, Err (DIo OutOfMemory))).
    { unfold conv_read_frame, check_buffer_size, limit_buffer_size. rewrite Eco, Eli, Hcur. cbn [f_width f_height meta_frame].
      assert (En : im_w i * im_h i * match o_color o with CRgba => 4 | CIndexed => 1 end = N.of_nat (frame_bytes o i)).
      { unfold frame_bytes, im_pixels, px_bytes. destruct (o_color o); lia. }
      rewrite En. apply Bool.orb_true_iff in Hbig. destruct (N.leb_spec (N.of_nat (frame_bytes o i)) umax) as [Hle|Hle].
      - destruct Hbig as [Hb|Hb]; [apply N.ltb_lt in Hb; lia|]. destruct (o_limit o) as [lim|]; [|discriminate Hb]. rewrite Hb. reflexivity.
      - reflexivity. }
    unfold read_next_frame. rewrite E, Hty. unfold DocBlocks.img_ty. rewrite noskip, Ef.
    eexists. eexists. split; [reflexivity|]. right. eexists. split; reflexivity. }
  destruct (Nat.eqb_spec (im_pixels i) 0) as [Hz|Hnz].
  { assert (Hz' : f_width (dc_cur L d1) * f_height (dc_cur L d1) = 0).
    { rewrite Hcur. cbn [meta_frame f_width f_height]. unfold im_pixels in Hz. nia. }
    assert (Hdec : rowless_img i \/ ~ rowless_img i).
    { unfold rowless_img. destruct (is_interlaced (im_flags i)); [|right; intros [H _]; discriminate H].
      destruct (N.eq_dec (im_h i) 0); [left; auto|right; intros [_ H]; contradiction]. }
    destruct Hdec as [Hrow|Hrow].
    - destruct Hrow as [Hil Hh].
      assert (Ef : conv_read_frame umax rd (decode_next_bytes L) (dc_rd L d1) (dc_conv L d1) (dc_cur L d1)
             = (dc_rd L d1, dc_conv L d1, seen o g (c1, i) out, Ok tt)).
      { rewrite rowless_frame; [|now rewrite Hcur|now rewrite Hcur|now rewrite Hcur].
        f_equal. f_equal. rewrite Hcur. unfold seen. cbn [fst snd]. unfold im_picture, picture, deinterlace. rewrite Hil, Hh, Nat.mul_0_r.
        cbn [seq map]. replace (shown (o_color o) (pal_of g i) (c_transparent c1) []) with (@nil N) by (destruct (o_color o); reflexivity). reflexivity. }
      unfold read_next_frame. rewrite E, Hty. unfold DocBlocks.img_ty. rewrite noskip, Ef.
      match goal with |- exists d' x, (?a, _) = _ /\ _ => set (d2 := a) end.
      assert (F' : file_dec L o g d2).
      { unfold d2. pose proof M as [M1 M2 M3 M4 M5 M6 M7 M8]. pose proof (fl_quiet _ _ _ _ F) as [(G1 & G2 & _) Q].
        apply file_set; try assumption; [apply F|apply same_settings_refl|]. rewrite Hcur in G2. exact G2. }
      exists d2, (Ok true). split; [reflexivity|]. left. split; [reflexivity|]. split; [split; [reflexivity|]; split; [lia|]; intros _; split; assumption|].
      split; [reflexivity|]. split; [exact F'|]. destruct bad.
      + destruct (badr_next d2 out F' (data_bad d2 i out F' M Hd Hda)) as [H|[-> H]]; [left; exact H|].
        right. rewrite Hz. auto.
      + left. exact (px_rests _ _ (data_px d2 i out F' M Hd Hda)).
    - destruct (read_frame_zero umax (Reader.rd L) (decode_next_bytes L)
        (fun r => rd_good L r /\ sd_opts L (rd_dec L r) = dopts L d1)
        (fun x s x' ob' r => decode_next_bytes_ok L safe umax Humax (dopts L d1) x s x' ob' r)
        (dc_rd L d1) (dc_conv L d1) (dc_cur L d1)) as (r1 & c2 & f1 & r & Er & Hf & Hc); [|exact Hz'|now rewrite Hcur|].
      { pose proof (fl_quiet _ _ _ _ F) as [(G1 & _) _]. split; [exact G1|reflexivity]. }
      unfold read_next_frame. rewrite E, Hty. unfold DocBlocks.img_ty. rewrite noskip, Er.
      rewrite Hcur in Hc. cbn [f_interlaced f_height meta_frame] in Hc.
      destruct r as [u|e| | ]; try easy; eexists; eexists; (split; [reflexivity|]); right; exists e; (split; [reflexivity|]).
      destruct Hc as [_ Hc]. split; [exact Hrow|]. rewrite Eco in Hc. intros Eo. rewrite Eo in Hc. exact Hc. }
  assert (Hwh : (0 < N.to_nat (im_w i) /\ 0 < N.to_nat (im_h i))%nat).
  { unfold im_pixels in Hnz. destruct (N.to_nat (im_w i)); destruct (N.to_nat (im_h i)); lia. }
  destruct (allowed_dims i Hw16 Hh16 Hbig) as [Hu Hlim].
  assert (Hok0 : im_pixels i = 0%nat -> rowless_img i) by (intros; contradiction).
  destruct bad.
  - pose proof (data_bad d1 i out F M Hd Hda) as Hb.
    unfold read_next_frame. rewrite E, Hty. unfold DocBlocks.img_ty. rewrite noskip.
    destruct (bad_frame umax rd (decode_next_bytes L) (DIo InvalidData) (badr L S Z o g rest)
       (cb_badr L S Z o g noskip nocheck rest)
       (dc_rd L d1) (dc_conv L d1) (dc_cur L d1) out (N.to_nat (im_w i)) (N.to_nat (im_h i)))
      as [(r & c2 & f2 & Ef & Hl & Hf2)|(r & c2 & Ef & Hl & Hs & Hb')].
    { rewrite Hcur. reflexivity. } { rewrite Hcur. reflexivity. } { apply Hwh. } { apply Hwh. } { exact Hb. }
    { rewrite Hcur. reflexivity. } { rewrite Eco. exact Hu. } { rewrite Eco, Eli. exact Hlim. }
    + rewrite Ef. eexists. eexists. split; [reflexivity|]. right. eexists. split; [reflexivity|]. split; [exact Hl|reflexivity].
    + rewrite Ef. rewrite Eco, Hcur, (effective_pal_of L o g d1 c1 i _ _ F).
      eexists. eexists. split; [reflexivity|]. left. split; [reflexivity|]. split; [split; [reflexivity|split; [exact Hl|exact Hok0]]|].
      split; [reflexivity|].
      match goal with |- file_dec L o g ?a /\ _ => set (d2 := a) end.
      assert (F' : file_dec L o g d2).
      { unfold d2. pose proof (fl_quiet _ _ _ _ F) as [(_ & G2 & _) _]. rewrite Hcur in G2.
        destruct Hb' as (G' & Q' & E' & (data & z & M' & _)). destruct M' as [M1 M2 M3 M4 M5 M6 M7 M8]. apply file_set; try assumption. }
      split; [exact F'|].
      destruct (badr_next d2 _ F' Hb') as [H|[H H']]; [left; exact H|]. right. split; [reflexivity|]. split; [|exact H'].
      apply (f_equal (@length N)) in H. rewrite skipn_length in H. cbn [length] in H. unfold im_pixels in *. lia.
  - destruct (le_lt_dec (im_pixels i) (length out)) as [Hge|Hlt].
    + destruct (frame_spec umax rd (decode_next_bytes L) (pxr L S o g rest) (cb_pxr L S o g noskip nocheck rest)
        (dc_rd L d1) (dc_conv L d1) (dc_cur L d1) out (N.to_nat (im_w i)) (N.to_nat (im_h i))) as (r & c2 & Ef & Hs & Hpx').
      { rewrite Hcur. reflexivity. } { rewrite Hcur. reflexivity. } { apply Hwh. } { apply Hwh. } { exact (data_px d1 i out F M Hd Hda). } { exact Hge. }
      { rewrite Hcur. reflexivity. } { rewrite Eco. exact Hu. } { rewrite Eco, Eli. exact Hlim. }
      unfold read_next_frame. rewrite E, Hty. unfold DocBlocks.img_ty. rewrite noskip, Ef.
      rewrite Eco, Hcur, (effective_pal_of L o g d1 c1 i _ _ F).
      eexists. eexists. split; [reflexivity|]. left. split; [reflexivity|]. split; [split; [reflexivity|split; [exact Hge|exact Hok0]]|].
      split; [reflexivity|].
      match goal with |- file_dec L o g ?a /\ _ => set (d2 := a) end.
      assert (F' : file_dec L o g d2).
      { unfold d2. pose proof (fl_quiet _ _ _ _ F) as [(_ & G2 & _) _]. rewrite Hcur in G2.
        destruct Hpx' as (G' & Q' & E' & (data & z & X & M' & _)). destruct M' as [M1 M2 M3 M4 M5 M6 M7 M8]. apply file_set; try assumption. }
      split; [exact F'|]. left. exact (px_rests d2 _ Hpx').
    + pose proof (data_px d1 i out F M Hd Hda) as Hpx.
      destruct (short_frame umax rd (decode_next_bytes L) (pxr L S o g rest) (endr L S o g rest)
        (cb_pxr L S o g noskip nocheck rest) (cb_endr L S o g noskip nocheck rest)
        (dc_rd L d1) (dc_conv L d1) (dc_cur L d1) out (N.to_nat (im_w i)) (N.to_nat (im_h i))) as (r & c2 & Ef & _).
      { rewrite Hcur. reflexivity. } { rewrite Hcur. reflexivity. } { exact Hpx. } { exact Hlt. }
      { rewrite Hcur. reflexivity. } { rewrite Eco. exact Hu. } { rewrite Eco, Eli. exact Hlim. }
      unfold read_next_frame. rewrite E, Hty. unfold DocBlocks.img_ty. rewrite noskip, Ef.
      eexists. eexists. split; [reflexivity|]. right. eexists. split; [reflexivity|]. split; [exact Hlt|reflexivity].
Qed.
End Image.
End AI.

Lemma broken_all L umax n d : broken L d -> (0 < n)%nat -> exists d', read_all L umax n d = (d', [], Err (DIo InvalidData)).
Proof. intros (d' & E) Hn. destruct n as [|n]; [lia|]. cbn [read_all]. unfold read_next_frame. rewrite E. exists d'. reflexivity. Qed.

Section SO.
Variable L : lzw_codec.
Variable S : lzw_spec L.
Variable Z : lzw_errs S.
Variable umax : N.
Hypothesis Humax : 2 ^ 32 - 1 <= umax.
Notation safe := (lz_is_safe L S).
Notation dcd := (dcd L).
Notation rd := (rd L).
Variable o : options.
Variable g : gif.
Variable ez : ending.
Notation ready := (ready L S o g ez).
Notation reached := (reached L S o g ez).
Notation inimg := (inimg L S o g ez).
Notation after := (after ez).
Hypothesis noskip : o_skip_frame_decoding o = false.
Hypothesis nocheck : o_check_for_end_code o = false.
Hypothesis Hlimit : limit_ok umax (o_limit o).

Lemma rests_ready d x bs : file_dec L o g d -> (follow o g x bs /\ leads ez ctl_none x bs) -> rests L S o g (after x bs) d -> ready d ctl_none bs.
Proof.
  intros F Hok (data & M & Hi). destruct (mid_idle L S o g noskip _ _ _ _ M Hi) as (s' & R & D & St & He).
  split; [exact F|]. exists x. split; [exact Hok|].
  exists [DDataEnd], s', (ser_blocks bs ++ en_bytes ez). split; [constructor; [split; [intros t; discriminate|discriminate]|constructor]|].
  split; [exact R|]. split; [exact D|]. split; [|exact He]. left. split; [exact St|reflexivity].
Qed.

(** The next image, whatever its data are. *)
Lemma next_any d c bs c1 i l ob : ready d c bs -> controlled c bs = (c1, i) :: l -> data_for Z (c1, i) ob ->
  exists d' x, read_next_frame L umax d = (d', x) /\
    ((x = Ok true /\ shows umax o i (fst ob) /\ dc_cur L d' = seen o g (c1, i) (fst ob) /\
      ((exists bs', l = controlled ctl_none bs' /\ ready d' ctl_none bs') \/
       (snd ob = true /\ length (fst ob) = im_pixels i /\ broken L d'))) \/
     (exists e, x = Err e /\ refused umax o i (fst ob) (snd ob) e)).
Proof.
  intros Hr Ec Hda. pose proof (next_frame_info_at L S umax Humax o g ez d c bs Hr) as H. rewrite Ec in H.
  destruct H as (d1 & bs' & E & El & Hi & (F & x & Hok & M & Hd) & Hcur & Hty). pose proof Hi as (_ & _ & Hw & Hh & _).
  destruct (any_image L S Z umax Humax o g noskip nocheck Hlimit (after x bs') d d1 c1 i ob E F Hw Hh M Hd Hcur Hty Hda)
    as (d' & y & E' & [(-> & H1 & H2 & F' & [H3|H3])|H]); exists d', y || exists d', (Ok true); (split; [exact E'|]).
  - left. split; [reflexivity|]. split; [exact H1|]. split; [exact H2|]. left. exists bs'. split; [exact El|]. eapply rests_ready; eassumption.
  - left. split; [reflexivity|]. split; [exact H1|]. split; [exact H2|]. right. exact H3.
  - right. exact H.
Qed.

(** ** All images *)
Variable last : dres bool.
Variable fin : dcd -> Prop.
Hypothesis Hlast : last = Ok false \/ exists e, last = Err e.
Hypothesis Hend : forall d, reached d -> over L last fin d.

Lemma read_all_any n : forall d c bs obs, ready d c bs -> (length obs < n)%nat -> Forall2 (data_for Z) (controlled c bs) obs ->
  exists d' fs y, read_all L umax n d = (d', fs, y) /\ reading umax o g last (controlled c bs) obs fs y /\ (y = Ok false -> fin d').
Proof.
  induction n as [|n IH]; intros d c bs obs Hr Hn Hd; [lia|]. cbn [read_all].
  destruct (controlled c bs) as [|[c1 i] l] eqn:Ec.
  - inversion Hd; subst. pose proof (read_next_frame_at L S umax Humax o g ez noskip nocheck d c bs Hr) as H. rewrite Ec in H.
    destruct (over_frame L umax last fin Hlast d (Hend d H)) as (d' & E & F). rewrite E.
    exists d', [], last. split; [|split; [constructor|auto]]. destruct Hlast as [->|[e ->]]; reflexivity.
  - inversion Hd as [|? [out bad] ? obs' Hd1 Hd2]; subst. cbn [length] in Hn.
    destruct (next_any d c bs c1 i l (out, bad) Hr Ec Hd1) as (d1 & x & E & [(-> & Hs & Hc & [(bs' & El & Hr1)|(Hb & Hl & Hbr)])|(e & -> & Hf)]); rewrite E; cbn [fst snd] in *.
    + rewrite El in *. destruct (IH d1 ctl_none bs' obs' Hr1 ltac:(lia) Hd2) as (d' & fs & y & E' & R & Rf). rewrite E', Hc.
      exists d', (seen o g (c1, i) out :: fs), y. split; [reflexivity|]. split; [now constructor|exact Rf].
    + destruct (broken_all L umax n d1 Hbr ltac:(lia)) as (d' & E'). rewrite E', Hc. subst bad.
      exists d', [seen o g (c1, i) out], (Err (DIo InvalidData)). split; [reflexivity|]. split; [now constructor|discriminate].
    + exists d1, [], (Err e). split; [reflexivity|]. split; [now constructor|discriminate].
Qed.
End SO.

(** More calls than needed. *)
Lemma read_all_more L umax n : forall d d' fs m, read_all L umax n d = (d', fs, Ok false) -> (n <= m)%nat ->
  read_all L umax m d = (d', fs, Ok false).
Proof.
  induction n as [|n IH]; intros d d' fs m H Hm; [discriminate H|]. destruct m as [|m]; [lia|]. cbn [read_all] in *.
  destruct (read_next_frame L umax d) as [d1 x]. destruct x as [[|]|e| | ]; try exact H.
  destruct (read_all L umax n d1) as [[d2 fs2] y] eqn:E. injection H as -> <- ->. rewrite (IH _ _ _ m E) by lia. reflexivity.
Qed.

(** Some data are described by one pair. *)
Lemma data_total L (S : lzw_spec L) (Z : lzw_errs S) l : exists obs, Forall2 (data_for Z) l obs.
Proof.
  induction l as [|ci l (obs & IH)]; [exists []; constructor|].
  destruct (lf_total S Z (im_mcs (snd ci)) (payload (im_subs (snd ci)))) as [(out & H)|(out & H)].
  - exists ((out, false) :: obs). constructor; assumption.
  - exists ((out, true) :: obs). constructor; assumption.
Qed.

(** Reading to the end shows all images. *)
Lemma reading_end umax o g last l obs fs y : reading umax o g last l obs fs y -> y = Ok false ->
  last = Ok false /\ Forall2 (fun ci ob => shows umax o (snd ci) (fst ob)) l obs /\ fs = all_seen o g l (map fst obs).
Proof.
  intros H Ey. induction H as [|ci l out bad obs fs y Hs H IH| |]; try discriminate Ey.
  - split; [exact Ey|]. split; [constructor|reflexivity].
  - destruct (IH Ey) as (E & F & G). split; [exact E|]. split; [constructor; assumption|]. rewrite G. reflexivity.
Qed.

(** Well-formed files are those accepted files that take no liberties. *)
Lemma strict_loose subs : subs_ok subs -> loose_subs subs /\ hd [] subs <> [].
Proof.
  intros (Hn & Hb). assert (Hne : Forall (fun b : list N => b <> []) subs).
  { eapply Forall_impl; [|exact Hb]. intros b [H _] ->. cbn in H. lia. }
  split.
  - split; [exact Hn|]. split.
    + eapply Forall_impl; [|exact Hb]. intros b [H1 H2]. split; [lia|exact H2].
    + destruct Hne; [constructor|assumption].
  - destruct Hne; [congruence|assumption].
Qed.
Lemma unknown_loose o bs : forall l n, unknown_ok o l n bs -> unknown_acc o l n bs /\ unknown_regular l bs.
Proof.
  induction bs as [|b bs IH]; intros l n H; [split; exact I|]. destruct b as [l' subs|i|t subs]; cbn [unknown_ok unknown_acc unknown_regular] in *.
  - now apply IH.
  - now apply IH.
  - destruct H as (A & B & C). destruct (IH _ _ C) as [D E]. split; [split; [contradiction|split; [intros _; exact B|exact D]]|auto].
Qed.
Lemma ok_acc_regular o g : gif_ok o g -> gif_acc true o g /\ regular g.
Proof.
  intros (H1 & H2 & H3 & H4 & H5 & H6 & Hn & Hb & Hu). destruct (unknown_loose _ _ _ _ Hu) as [Ha Hr].
  split; [split; [repeat (split; [assumption|]); exact H6|split; [|exact Ha]]|split; [exact Hn|split; [|exact Hr]]].
  - eapply Forall_impl; [|exact Hb]. intros [l subs|i|t subs]; cbn [blk_ok blk_acc].
    + intros (A & B & C & D). split; [exact A|]. split; [now apply strict_loose|]. auto.
    + intros (A & B & C & D & E & F & G & K & M & P). split; [|now apply strict_loose].
      split; [repeat (split; [assumption|]); exact M|]. auto.
    + intros (A & B & C & D & E & F). repeat (split; [assumption|]). split; [now apply strict_loose|exact F].
  - eapply Forall_impl; [|exact Hb]. intros [l subs|i|t subs]; cbn [blk_ok blk_regular].
    + intros (A & B & _). now apply strict_loose.
    + intros (A & B & C & D & E & F & G & K & _). now apply strict_loose.
    + intros (A & B & C & D & E & F). now apply strict_loose.
Qed.
Theorem ok_exactly o g : gif_ok o g <-> gif_acc true o g /\ regular g.
Proof. split; [apply ok_acc_regular|]. intros [H1 H2]. now apply acc_regular_ok. Qed.
Lemma ok_file_acc o g tl : gif_ok o g -> file_acc true o g tl.
Proof. intros H. destruct (ok_acc_regular o g H) as [H1 (H2 & _)]. split; [exact H1|contradiction]. Qed.

Section Files.
Variable L : lzw_codec.
Variable S : lzw_spec L.
Variable Z : lzw_errs S.
Variable umax : N.
Hypothesis Humax : 2 ^ 32 - 1 <= umax.

Theorem damage_any o g tz e src obs n : part_ok o g -> damage o g tz e -> delivers src (ser_cut g tz) -> ~ noticed_by_read_info g tz ->
  o_skip_frame_decoding o = false -> o_check_for_end_code o = false -> limit_ok umax (o_limit o) ->
  Forall2 (data_for Z) (gif_images g) obs -> (length obs < n)%nat ->
  exists d d' fs y, read_info L src o = Ok d /\ read_all L umax n d = (d', fs, y) /\
    reading umax o g (Err e) (gif_images g) obs fs y.
Proof.
  intros Hg Hdmg Hsrc Hno N1 N2 Hl Ho Hn.
  destruct (unnoticed umax Humax o g tz e Hdmg src Hsrc Hno) as [Hst Hop].
  destruct (cut_opened L S umax Humax o g tz Hg Hst Hop src Hsrc) as (d & c & bs & E & Hr & Ec).
  rewrite <- Ec in Ho |- *.
  destruct (read_all_any L S Z umax Humax o g _ N1 N2 Hl (Err e) (fun _ => True) (or_intror (ex_intro _ e eq_refl))
    (damage_over L S umax Humax o g tz e Hg Hdmg) n d c bs obs Hr Hn Ho) as (d' & fs & y & E' & R & _).
  exists d, d', fs, y. auto.
Qed.
End Files.
