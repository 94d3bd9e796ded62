(** What the [Decoder] returns for a well-formed file, under every read schedule. *)
From Verif Require Import Base Common Lzw Encoder Stream Converter Reader StreamInv Steps StepsRev
  ReaderInv Interlace Ranges ConvInv DecoderSafe Canon CanonReader SpecGif DocTrace DocBlocks SpecPixels
  Pixels PixelRead.
Open Scope N_scope.

Lemma repeat_boring l n : Forall boring (repeat (DSubBlockFinished l) n).
Proof. apply Forall_forall. intros d Hd. apply repeat_spec in Hd. subst. split; [intros t; discriminate|discriminate]. Qed.
Lemma ext_events_boring l subs : Forall boring (ext_events l subs).
Proof.
  unfold ext_events, ext_repeat. apply Forall_app. split; [constructor; [split; [intros t; discriminate|discriminate]|apply repeat_boring]|].
  apply Forall_app. split; [constructor; [split; [intros t; discriminate|discriminate]|constructor]|].
  destruct (if l =? 255 then _ else None); constructor; [split; [intros t; discriminate|discriminate]|constructor].
Qed.
Lemma repeat_in_header l n : Forall in_header (repeat (DSubBlockFinished l) n).
Proof. apply Forall_forall. intros d Hd. apply repeat_spec in Hd. subst. split; discriminate. Qed.
Lemma ext_events_in_header l subs : Forall in_header (ext_events l subs).
Proof.
  unfold ext_events, ext_repeat. apply Forall_app. split; [constructor; [split; discriminate|apply repeat_in_header]|].
  apply Forall_app. split; [constructor; [split; discriminate|constructor]|].
  destruct (if l =? 255 then _ else None); constructor; [split; discriminate|constructor].
Qed.
Lemma ext_events_upd l subs c b p : fold_left init_upd (ext_events l subs) (c, b, p) =
  (c, b, match (if l =? 0xFF then loop_of (payload subs) else None) with Some n => n | None => p end).
Proof.
  assert (Hr : forall n h, fold_left init_upd (repeat (DSubBlockFinished l) n) h = h).
  { induction n as [|n IH]; intros [[c0 b0] p0]; [reflexivity|]. cbn [repeat fold_left init_upd]. apply IH. }
  unfold ext_events, ext_repeat. rewrite !fold_left_app. cbn [fold_left init_upd]. rewrite Hr. cbn [fold_left init_upd].
  destruct (if l =? 255 then _ else None); reflexivity.
Qed.

Lemma unk_events_boring x subs : Forall boring (unk_events x subs).
Proof.
  unfold unk_events, unk_repeat. apply Forall_app. split; [apply repeat_boring|].
  apply Forall_app. split; [constructor; [split; [intros t; discriminate|discriminate]|constructor]|].
  destruct (if fst _ =? 255 then _ else None); constructor; [split; [intros t; discriminate|discriminate]|constructor].
Qed.

(** A file without unknown blocks. *)
Definition known (b : blk) : Prop := match b with BUnk _ _ => False | _ => True end.
Lemma known_unknown o bs : Forall known bs -> forall l n, unknown_ok o l n bs.
Proof. induction 1 as [|[l' subs|i|t subs] bs H _ IH]; intros l n; cbn [unknown_ok]; [exact I|apply IH|apply IH|easy]. Qed.

(** ** What may follow *)
Section Follow.
Variable o : options.
Variable g : gif.
(** The blocks [bs] can follow when [x] are the label and the data of the last extension. *)
Definition follow (x : N * list N) (bs : list blk) : Prop :=
  Forall (blk_ok o g) bs /\ unknown_ok o (fst x) (len (snd x)) bs.
Lemma follow_ext x l subs bs : follow x (BExt l subs :: bs) -> ext_ok o l subs /\ follow (l, ext_blob subs) bs.
Proof.
  intros [H1 H2]. apply Forall_cons_iff in H1 as [H1 H3]. split; [exact H1|]. split; [exact H3|].
  destruct H1 as (_ & (Hne & _) & _). destruct subs as [|b subs]; [congruence|]. cbn [fst snd ext_blob unknown_ok] in *.
  replace (len (N.of_nat (length b) :: payload (b :: subs))) with (1 + N.of_nat (length (payload (b :: subs)))); [exact H2|].
  unfold len. cbn [length]. lia.
Qed.
Lemma follow_img x i bs : follow x (BImg i :: bs) -> img_ok o g i /\ follow x bs.
Proof. intros [H1 H2]. apply Forall_cons_iff in H1 as [H1 H3]. split; [exact H1|]. split; [exact H3|exact H2]. Qed.
Lemma follow_unk x t subs bs : follow x (BUnk t subs :: bs) -> blk_ok o g (BUnk t subs) /\ fst x <> 0xF9 /\
  fits (o_limit o) (len (snd x) + N.of_nat (length (payload subs))) /\ follow (unk_next x subs) bs.
Proof.
  intros [H1 H2]. apply Forall_cons_iff in H1 as [H1 H3]. split; [exact H1|]. destruct H2 as (H4 & H5 & H6).
  split; [exact H4|]. split; [exact H5|]. split; [exact H3|]. unfold unk_next. cbn [fst snd].
  replace (len (snd x ++ payload subs)) with (len (snd x) + N.of_nat (length (payload subs))); [exact H6|].
  unfold len. rewrite app_length. lia.
Qed.
Lemma follow_lead x bs : follow x bs -> match bs with [] | BExt _ _ :: _ => True | b :: _ => lead b <> 0x21 /\ lead b <> 0x3B end.
Proof.
  intros [H _]. destruct bs as [|[l subs|i|t subs] bs]; try exact I; [split; discriminate|].
  apply Forall_cons_iff in H as [(H1 & H2 & H3 & H4 & _) _]. split; assumption.
Qed.
End Follow.

(** *** How the file ends
    Behind the blocks come the bytes [en_bytes]; [en_ctl] are the control data then pending, [en_ext] the label
    and the data of the last extension. *)
Record ending := mk_ending { en_bytes : list N; en_ctl : ctl; en_ext : N * list N }.
Definition ext_next (x : N * list N) (b : blk) : N * list N :=
  match b with BExt l subs => (l, ext_blob subs) | BImg _ => x | BUnk _ subs => unk_next x subs end.
Definition leads (ez : ending) (c : ctl) (x : N * list N) (bs : list blk) : Prop :=
  fold_left ctl_next bs c = en_ctl ez /\ fold_left ext_next bs x = en_ext ez.
(** Blocks that are not followed by the trailer. *)
Definition cut_off (bs : list blk) (tz : list N) : ending :=
  mk_ending tz (fold_left ctl_next bs ctl_none) (fold_left ext_next bs (0, [])).
(** The trailer, followed by [tl]. *)
Definition done (g : gif) (tl : list N) : ending := cut_off (g_blocks g) (0x3B :: tl).

Section DR.
Variable L : lzw_codec.
Variable S : lzw_spec L.
Variable umax : N.
Hypothesis Humax : 2 ^ 32 - 1 <= umax.
Notation safe := (lz_is_safe L S).
Notation sd := (sd L).
Notation rd := (rd L).
Notation dcd := (dcd L).
Variable o : options.
Variable g : gif.
Variable ez : ending.
Notation midst := (midst L S o g).
Notation docst := (docst L S o g).
Notation pos := (pos L).
Notation img_ty := (img_ty o).
Notation follow := (follow o g).

Notation tz := (en_bytes ez).
Notation leads := (leads ez).
Definition after (x : N * list N) (bs : list blk) : tail := (x, ser_blocks bs ++ tz).
Definition decodes (s1 : sd) (i : img) : Prop :=
  o_skip_frame_decoding o = false ->
  exists z, lr_decoder L (sd_lzw L s1) = Some z /\ begun L S z (im_mcs i) /\
    forall inp out, lz_pending S (lz_new L (im_mcs i)) inp out -> lz_pending S z inp out.

(** The next image, or the end of the blocks. *)
Lemma blocks_info bs : forall s str c x, docst s c x -> pos s str bs tz -> sd_header_end L s = true ->
  follow x bs -> leads c x bs ->
  match controlled c bs with
  | [] => exists evs s1 str1, Forall boring evs /\ run L s str evs s1 str1 /\
      docst s1 (en_ctl ez) (en_ext ez) /\ pos s1 str1 [] tz /\ sd_header_end L s1 = true
  | (c1, i) :: l => exists s1 str1 x' bs', l = controlled ctl_none bs' /\ follow x' bs' /\ leads ctl_none x' bs' /\ img_ok o g i /\
      cinfo L s str (IMeta L s1 str1 (img_ty i)) /\
      sd_current L s1 = Some (meta_frame c1 i (is_interlaced (im_flags i)) []) /\
      midst s1 str1 (payload (im_subs i)) (after x' bs') /\ decodes s1 i
  end.
Proof.
  induction bs as [|[l subs|i|t subs] bs IH]; intros s str c x Hd Hp Hh Hok Hld.
  - cbn [controlled]. destruct Hld as [<- <-]. exists [], s, str. split; [constructor|].
    split; [apply run_refl; apply Hd|]. auto.
  - cbn [controlled]. apply follow_ext in Hok as [Hb Hok'].
    destruct (pos_ext _ _ _ _ _ _ _ _ _ _ _ _ Hd Hp Hb) as (s' & str' & R & D' & P' & E').
    specialize (IH s' str' _ _ D' P' ltac:(congruence) Hok' Hld). cbn [ctl_next] in IH.
    destruct (controlled _ bs) as [|[c1 i] l'].
    + destruct IH as (evs & s1 & str1 & Hev & R1 & H1). exists (ext_events l subs ++ evs), s1, str1.
      split; [apply Forall_app; split; [apply ext_events_boring|exact Hev]|].
      split; [eapply run_trans; [exact R|intros _; exact R1]|exact H1].
    + destruct IH as (s1 & str1 & x' & bs' & H1 & H2 & H2' & H3 & H4 & H5).
      exists s1, str1, x', bs'. split; [exact H1|]. split; [exact H2|]. split; [exact H2'|]. split; [exact H3|]. split; [|exact H5].
      eapply cinfo_ctr; [apply R|apply ext_events_boring|exact H4].
  - cbn [controlled]. apply follow_img in Hok as [Hb Hok'].
    destruct (pos_meta _ _ _ _ _ _ _ _ _ _ _ Hd Hp Hh Hb) as (s1 & str1 & H1 & _ & H2 & H3 & H4).
    exists s1, str1, x, bs. split; [reflexivity|]. split; [exact Hok'|]. split; [exact Hld|]. auto 10.
  - cbn [controlled]. apply follow_unk in Hok as (Hb & Hx & Hf & Hok').
    destruct (pos_unk _ _ _ _ _ _ _ _ _ _ _ _ Hd Hp Hh Hb Hx Hf) as (s' & str' & R & D' & P' & E').
    specialize (IH s' str' _ _ D' P' E' Hok' Hld).
    destruct (controlled _ bs) as [|[c1 i] l'].
    + destruct IH as (evs & s1 & str1 & Hev & R1 & H1). exists (unk_events x subs ++ evs), s1, str1.
      split; [apply Forall_app; split; [apply unk_events_boring|exact Hev]|].
      split; [eapply run_trans; [exact R|intros _; exact R1]|exact H1].
    + destruct IH as (s1 & str1 & x' & bs' & H1 & H2 & H2' & H3 & H4 & H5).
      exists s1, str1, x', bs'. split; [exact H1|]. split; [exact H2|]. split; [exact H2'|]. split; [exact H3|]. split; [|exact H5].
      eapply cinfo_ctr; [apply R|apply unk_events_boring|exact H4].
Qed.

(** A [Decoder] on this file: options and screen-level data. *)
Record file_dec (d : dcd) : Prop := mk_file_dec {
  fl_quiet : quiet L d;
  fl_eof : rd_eof L (dc_rd L d) = false;
  fl_opts : sd_opts L (rd_dec L (dc_rd L d)) = o;
  fl_w : sd_width L (rd_dec L (dc_rd L d)) = g_w g;
  fl_h : sd_height L (rd_dec L (dc_rd L d)) = g_h g;
  fl_gpal : cv_gpal (dc_conv L d) = gif_palette g;
  fl_bg : dc_bg L d = gif_bg g;
  fl_rep : dc_repeat L d = gif_repeat g
}.

(** The blocks still to come are [bs], with control data [c] pending; image data of the previous
    frame may still have to be skipped. *)
Definition ready (d : dcd) (c : ctl) (bs : list blk) : Prop :=
  file_dec d /\ exists x, (follow x bs /\ leads c x bs) /\
  exists evs s1 str1, Forall boring evs /\
    run L (rd_dec L (dc_rd L d)) (rd_rest L (dc_rd L d)) evs s1 str1 /\
    docst s1 c x /\ pos s1 str1 bs tz /\ sd_header_end L s1 = true.

(** All blocks have been read, up to extensions and unknown blocks that are of no further interest. *)
Definition reached (d : dcd) : Prop :=
  file_dec d /\ exists evs s1 str1, Forall boring evs /\
    run L (rd_dec L (dc_rd L d)) (rd_rest L (dc_rd L d)) evs s1 str1 /\
    docst s1 (en_ctl ez) (en_ext ez) /\ pos s1 str1 [] tz /\ sd_header_end L s1 = true.

(** The metadata of image [i] have been reported and [bs] follow. *)
Definition inimg (d : dcd) (i : img) (bs : list blk) : Prop :=
  file_dec d /\ exists x, (follow x bs /\ leads ctl_none x bs) /\
  midst (rd_dec L (dc_rd L d)) (rd_rest L (dc_rd L d)) (payload (im_subs i)) (after x bs) /\
  decodes (rd_dec L (dc_rd L d)) i.

(** [out] is what is left of its pixels. *)
Definition inpx (d : dcd) (bs : list blk) (out : list N) : Prop :=
  file_dec d /\ exists x, (follow x bs /\ leads ctl_none x bs) /\ pxr L S o g (after x bs) (dc_rd L d) out.

(** At the end of its data. *)
Definition atend (d : dcd) (bs : list blk) : Prop :=
  file_dec d /\ exists x, (follow x bs /\ leads ctl_none x bs) /\ ended L S o g x (rd_dec L (dc_rd L d)) /\
  rd_rest L (dc_rd L d) = ser_blocks bs ++ tz.

(** The trailer has been read. *)
Definition finished (tl : list N) (d : dcd) : Prop :=
  quiet L d /\ rd_eof L (dc_rd L d) = true /\ rd_rest L (dc_rd L d) = tl /\
  cv_gpal (dc_conv L d) = gif_palette g /\ dc_bg L d = gif_bg g /\ dc_repeat L d = gif_repeat g.

Lemma atend_ready d bs : atend d bs -> ready d ctl_none bs.
Proof.
  intros (F & x & Hok & (D & St & He) & Er). split; [exact F|]. exists x. split; [exact Hok|].
  exists [], (rd_dec L (dc_rd L d)), (rd_rest L (dc_rd L d)). split; [constructor|].
  split; [apply run_refl; apply D|]. split; [exact D|]. split; [|exact He]. left. split; [exact St|exact Er].
Qed.

Lemma skip_ready d x bs data : file_dec d -> (follow x bs /\ leads ctl_none x bs) ->
  midst (rd_dec L (dc_rd L d)) (rd_rest L (dc_rd L d)) data (after x bs) ->
  (o_skip_frame_decoding o = false -> lzw_alive L S o (rd_dec L (dc_rd L d))) ->
  ready d ctl_none bs.
Proof.
  intros F Hok M Ha. destruct (mid_skip _ _ _ _ _ _ _ _ M Ha) as (s' & R & D & St & He).
  split; [exact F|]. exists x. split; [exact Hok|].
  exists [DDataEnd], s', (ser_blocks bs ++ tz). split; [constructor; [split; [intros t; discriminate|discriminate]|constructor]|].
  split; [exact R|]. split; [exact D|]. split; [|exact He]. left. split; [exact St|reflexivity].
Qed.

Lemma inimg_px d i bs out : o_skip_frame_decoding o = false ->
  inimg d i bs -> lz_pending S (lz_new L (im_mcs i)) (payload (im_subs i)) out -> inpx d bs out.
Proof.
  intros Hsk (F & x & Hok & M & Hd) Hp. destruct (Hd Hsk) as (z & Hz & _ & Hpz). specialize (Hpz _ _ Hp).
  split; [exact F|]. exists x. split; [exact Hok|]. pose proof (fl_quiet _ F) as [[G _] Q].
  split; [exact G|]. split; [exact Q|]. split; [apply F|]. eapply px_start; eassumption.
Qed.

Lemma inpx_ready d bs out : o_check_for_end_code o = false -> inpx d bs out -> ready d ctl_none bs.
Proof.
  intros Hc (F & x & Hok & (G & Q & E & Hp)). pose proof (px_alive L S o g Hc _ _ _ _ Hp) as Ha.
  destruct Hp as (data & z & X & M & _). eapply skip_ready; eauto.
Qed.

Lemma inimg_skip_ready d i bs : o_skip_frame_decoding o = true -> inimg d i bs -> ready d ctl_none bs.
Proof. intros Hsk (F & x & Hok & M & _). eapply skip_ready; eauto. congruence. Qed.

Lemma taken_midst s f str data rest : midst s str data rest -> sd_wf L (taken_dec L s f) ->
  midst (taken_dec L s f) str data rest.
Proof. intros [M1 M2 M3 M4 M5 M6 M7 M8] W. constructor; assumption. Qed.

Theorem next_frame_info_at d c bs : ready d c bs ->
  match controlled c bs with
  | [] => reached d
  | (c1, i) :: l => exists d' bs', next_frame_info L d = (d', Ok true) /\
      l = controlled ctl_none bs' /\ img_ok o g i /\ inimg d' i bs' /\
      dc_cur L d' = meta_frame c1 i (is_interlaced (im_flags i)) [] /\ dc_ty L d' = img_ty i
  end.
Proof.
  intros (F & x0 & (Hok & Hld) & evs & s1 & str1 & Hb & R & D & P & He).
  pose proof (blocks_info bs s1 str1 c x0 D P He Hok Hld) as H.
  destruct (controlled c bs) as [|[c1 i] l].
  { destruct H as (evs2 & s2 & str2 & Hb2 & R2 & H). split; [exact F|]. exists (evs ++ evs2), s2, str2.
    split; [apply Forall_app; split; assumption|]. split; [eapply run_trans; [exact R|intros _; exact R2]|exact H]. }
  destruct (next_frame_info L d) as [d' x] eqn:E. pose proof F as [[G Q] Feof Fo Fw Fh Fg Fb Fr].
  pose proof (next_frame_info_returns L safe umax Humax _ _ _ G E) as (Rt & G' & [Ko Ks] & _).
  pose proof (info_rel_of L safe d d' x G Feof E) as I.
  assert (Q' : quiet L d') by (split; [exact G'|exact (info_loop_src L safe _ d d' x (conj G Q) E)]).
  destruct I as (I1 & I2 & I3 & I4).
  destruct H as (s2 & str2 & x' & bs' & El & Hok' & Hld' & Hi & Hc0 & Ecur & M & Hdec).
    apply (cinfo_ctr L) with (2 := Hb) (1 := proj1 R) in Hc0.
    assert (Hfound : forall t, (exists s1 f, sd_current L s1 = Some f /\
        cinfo L (rd_dec L (dc_rd L d)) (rd_rest L (dc_rd L d)) (IMeta L s1 (rd_rest L (dc_rd L d')) t) /\
        rd_dec L (dc_rd L d') = taken_dec L s1 f /\ rd_eof L (dc_rd L d') = false /\ dc_cur L d' = f) ->
      t = img_ty i /\ inimg d' i bs' /\ dc_cur L d' = meta_frame c1 i (is_interlaced (im_flags i)) []).
    { intros t (sx & f & Hf & Hc & Hdd & Hee & Hcc).
      pose proof (cinfo_det _ _ _ _ Hc _ Hc0) as Eq. injection Eq as -> Erest ->.
      assert (f = meta_frame c1 i (is_interlaced (im_flags i)) []) as -> by congruence.
      split; [reflexivity|]. split; [|exact Hcc].
      assert (W : sd_wf L (taken_dec L s2 (meta_frame c1 i (is_interlaced (im_flags i)) []))).
      { rewrite <- Hdd. destruct G' as ((G1 & _) & _). apply G1. }
      pose proof (taken_midst _ _ _ _ _ M W) as M'.
      split; [|exists x'; split; [split; [exact Hok'|exact Hld']|]].
      - destruct M as [M1 M2 M3 M4 M5 M6 M7 M8].
        constructor; try rewrite Hdd; unfold taken_dec; sdcbn; try assumption; congruence.
      - rewrite Hdd, Erest. split; [exact M'|]. exact Hdec. }
    destruct x as [[|]|e| | ]; try easy.
    + destruct I4 as [I4 I5]. destruct (Hfound _ I4) as (Et & Hin & Hcc). exists d', bs'. auto 10.
    + destruct I4 as (Ec & Et & Eeof & Hc). pose proof (cinfo_det _ _ _ _ Hc _ Hc0). discriminate.
    + exfalso. destruct I4 as [(_ & Hf & Hp1 & Hp2)|[[Hc _]|[(_ & _ & Hc)|(Hc & _)]]].
      * destruct (Hfound _ Hf) as (_ & _ & Hcc). rewrite Hcc in Hp1. cbn [meta_frame f_palette] in Hp1.
        rewrite Fg in Hp2. unfold gif_palette in Hp2.
        destruct Hi as (_ & _ & _ & _ & _ & _ & _ & _ & _ & [Ht|Ht]); rewrite Ht in *; discriminate.
      * pose proof (cinfo_det _ _ _ _ Hc _ Hc0). discriminate.
      * pose proof (cinfo_det _ _ _ _ Hc _ Hc0). discriminate.
      * eapply cut_good; eassumption.
Qed.

(** At the trailer. *)
Lemma reached_end d tl : reached d -> tz = 0x3B :: tl -> exists d', next_frame_info L d = (d', Ok false) /\ finished tl d'.
Proof.
  intros (F & evs & s1 & str1 & Hb & R & D & P & He) Ez. rewrite Ez in P.
  destruct (pos_trailer _ _ _ _ _ _ _ _ _ D P He) as (s2 & H0). apply ci_end in H0. rename H0 into H.
  apply (cinfo_ctr L) with (2 := Hb) (1 := proj1 R) in H.
  destruct (next_frame_info L d) as [d' x] eqn:E. pose proof F as [[G Q] Feof Fo Fw Fh Fg Fb Fr].
  pose proof (next_frame_info_returns L safe umax Humax _ _ _ G E) as (Rt & G' & [Ko Ks] & _).
  pose proof (info_rel_of L safe d d' x G Feof E) as I.
  assert (Q' : quiet L d') by (split; [exact G'|exact (info_loop_src L safe _ d d' x (conj G Q) E)]).
  destruct I as (I1 & I2 & I3 & I4).
  destruct x as [[|]|e| | ]; try easy.
  - destruct I4 as [(sx & f & _ & Hc & _) _]. pose proof (cinfo_det _ _ _ _ Hc _ H). discriminate.
  - destruct I4 as (Ec & Et & Eeof & Hc). pose proof (cinfo_det _ _ _ _ Hc _ H) as Eq. injection Eq as Eq1 Eq2.
    exists d'. split; [reflexivity|]. split; [exact Q'|]. rewrite I1, I2, I3. auto.
  - exfalso. destruct I4 as [(_ & (sx & f & _ & Hc & _) & _)|[[Hc _]|[(_ & _ & Hc)|(Hc & _)]]].
    + pose proof (cinfo_det _ _ _ _ Hc _ H). discriminate.
    + pose proof (cinfo_det _ _ _ _ Hc _ H). discriminate.
    + pose proof (cinfo_det _ _ _ _ Hc _ H). discriminate.
    + eapply cut_good; eassumption.
Qed.

(** At a fault. *)
Definition faulty (e : derr) : Prop := forall s str, docst s (en_ctl ez) (en_ext ez) -> pos s str [] tz ->
  sd_header_end L s = true ->
  cinfo L s str (IErr' L e) \/ (e = DIo UnexpectedEof /\ cinfo L s str (IStuck L)).
Lemma reached_fault d e : reached d -> faulty e -> exists d', next_frame_info L d = (d', Err e).
Proof.
  intros (F & evs & s1 & str1 & Hb & R & D & P & He) Hf. pose proof (Hf s1 str1 D P He) as H.
  assert (H' : exists y, cinfo L (rd_dec L (dc_rd L d)) (rd_rest L (dc_rd L d)) y /\
     (y = IErr' L e \/ (e = DIo UnexpectedEof /\ y = IStuck L))).
  { destruct H as [H|[E H]]; apply (cinfo_ctr L) with (2 := Hb) (1 := proj1 R) in H; eauto. }
  clear H. destruct H' as (y & H & Hy).
  destruct (next_frame_info L d) as [d' x] eqn:E. pose proof F as [[G Q] Feof Fo Fw Fh Fg Fb Fr].
  pose proof (next_frame_info_returns L safe umax Humax _ _ _ G E) as (Rt & G' & [Ko Ks] & _).
  pose proof (info_rel_of L safe d d' x G Feof E) as I.
  destruct I as (I1 & I2 & I3 & I4).
  destruct x as [[|]|e'| | ]; try easy.
  - destruct I4 as [(sx & f & _ & Hc & _) _]. pose proof (cinfo_det _ _ _ _ Hc _ H). subst y. destruct Hy as [Hy|[_ Hy]]; discriminate.
  - destruct I4 as (Ec & Et & Eeof & Hc). pose proof (cinfo_det _ _ _ _ Hc _ H). subst y. destruct Hy as [Hy|[_ Hy]]; discriminate.
  - exists d'. f_equal. f_equal. destruct I4 as [(_ & (sx & f & _ & Hc & _) & _)|[[Hc _]|[(E' & _ & Hc)|(Hc & _)]]].
    + pose proof (cinfo_det _ _ _ _ Hc _ H). subst y. destruct Hy as [Hy|[_ Hy]]; discriminate.
    + pose proof (cinfo_det _ _ _ _ Hc _ H). subst y. destruct Hy as [Hy|[_ Hy]]; [|discriminate]. injection Hy as ->. reflexivity.
    + pose proof (cinfo_det _ _ _ _ Hc _ H). subst y. destruct Hy as [Hy|[Hy _]]; [discriminate|]. congruence.
    + exfalso. eapply cut_good; eassumption.
Qed.

Lemma finished_stays tl d : finished tl d -> next_frame_info L d = (d, Ok false) /\ read_next_frame L umax d = (d, Ok false).
Proof.
  intros (_ & E & _). pose proof (info_eof L d E) as H. split; [exact H|].
  unfold read_next_frame. rewrite H. reflexivity.
Qed.

(** ** Pixels *)
Definition pal_of (i : img) : list N :=
  if has_table (im_flags i) then im_lct i else if has_table (g_flags g) then g_gct g else [].

Lemma effective_pal_of d c1 i il b : file_dec d -> effective_palette (dc_conv L d) (meta_frame c1 i il b) = pal_of i.
Proof.
  intros F. unfold effective_palette, pal_of. rewrite (fl_gpal _ F). cbn [meta_frame f_palette]. unfold gif_palette.
  destruct (has_table (im_flags i)); [reflexivity|]. destruct (has_table (g_flags g)); reflexivity.
Qed.

Definition im_pixels (i : img) : nat := (N.to_nat (im_w i) * N.to_nat (im_h i))%nat.
(** The picture of image [i] when [out] are its decoded pixels. *)
Definition im_picture (i : img) (out : list N) : list N :=
  picture (N.to_nat (im_w i)) (N.to_nat (im_h i)) (is_interlaced (im_flags i)) out.

Definition frame_bytes (i : img) : nat := (px_bytes (o_color o) * im_pixels i)%nat.

Lemma file_set d r c f t : file_dec d -> rd_good L r -> good_src (rd_src L r) -> rd_eof L r = false ->
  sd_opts L (rd_dec L r) = o -> sd_width L (rd_dec L r) = g_w g -> sd_height L (rd_dec L r) = g_h g ->
  same_settings (dc_conv L d) c -> frame_ok f ->
  file_dec (set_cur L (set_conv L (set_rd L d r) c) f t).
Proof.
  intros [[G Q] Fe Fo Fw Fh Fg Fb Fr] Gr Qr Er Eo Ew Eh (S1 & S2 & S3) Hf.
  constructor; cbn [dc_rd dc_conv dc_bg dc_repeat set_cur set_conv set_rd]; try assumption; [|congruence].
  split; [|exact Qr]. destruct G as (G1 & G2 & G3 & G4 & G5).
  split; [exact Gr|]. cbn [dc_rd dc_conv dc_cur set_cur set_conv set_rd]. split; [exact Hf|].
  rewrite S1, S2, S3, Eo. rewrite Fo in *. auto.
Qed.

(** ** Opening the file *)
(** The end of the header is seen. *)
Definition is_ext (b : blk) : Prop := match b with BExt _ _ => True | _ => False end.
Definition opens (bs : list blk) : Prop := heads_on [] tz \/ ~ Forall is_ext bs.
Lemma blocks_init bs : forall s str c x c0 b0 p, docst s c x -> pos s str bs tz -> sd_header_end L s = false ->
  follow x bs -> leads c x bs -> opens bs ->
  exists s1 str1 c' x' bs', cini L (c0, b0, p) s str (NDone L s1 str1 (c0, b0, loops p bs)) /\
    docst s1 c' x' /\ pos s1 str1 bs' tz /\ sd_header_end L s1 = true /\ controlled c' bs' = controlled c bs /\
    follow x' bs' /\ leads c' x' bs'.
Proof.
  induction bs as [|[l subs|i|t subs] bs IH]; intros s str c x c0 b0 p Hd Hp Hh Hok Hld Hop;
    pose proof (follow_lead _ _ _ _ Hok) as Hlead.
  - assert (Ho : heads_on [] tz) by (destruct Hop as [Hop|Hop]; [exact Hop|exfalso; apply Hop; constructor]).
    destruct (pos_header_end _ _ _ _ _ _ _ _ _ _ Hd Hp Hh Ho) as (s1 & str1 & H1 & H2 & H3 & H4).
    exists s1, str1, c, x, []. split; [|auto 8]. cbn [loops]. eapply cini_done. exact H1.
  - apply follow_ext in Hok as [Hb Hok'].
    destruct (pos_ext _ _ _ _ _ _ _ _ _ _ _ _ Hd Hp Hb) as (s' & str' & R & D' & P' & E').
    assert (Hop' : opens bs).
    { destruct Hop as [Hop|Hop]; [left; exact Hop|right]. intros Hf. apply Hop. constructor; [exact I|exact Hf]. }
    destruct (IH s' str' _ _ c0 b0 (match (if l =? 0xFF then loop_of (payload subs) else None) with Some n => n | None => p end)
                D' P' ltac:(congruence) Hok' Hld Hop') as (s1 & str1 & c' & x' & bs' & H1 & H2 & H3 & H4 & H5 & H6).
    exists s1, str1, c', x', bs'. split; [|auto 10]. cbn [loops].
    eapply cini_ctr; [apply R|apply ext_events_in_header|]. rewrite ext_events_upd. exact H1.
  - destruct (pos_header_end _ _ _ _ _ _ _ _ _ _ Hd Hp Hh (heads_on_cons _ _ _ (proj1 Hlead) (proj2 Hlead))) as (s1 & str1 & H1 & H2 & H3 & H4).
    exists s1, str1, c, x, (BImg i :: bs). split; [|auto 8]. cbn [loops]. eapply cini_done. exact H1.
  - destruct (pos_header_end _ _ _ _ _ _ _ _ _ _ Hd Hp Hh (heads_on_cons _ _ _ (proj1 Hlead) (proj2 Hlead))) as (s1 & str1 & H1 & H2 & H3 & H4).
    exists s1, str1, c, x, (BUnk t subs :: bs). split; [|auto 8]. cbn [loops]. eapply cini_done. exact H1.
Qed.

(** Something follows the header, and it is not the trailer. *)
Definition starts (bs : list blk) : Prop := bs <> [] \/ exists t r, tz = t :: r /\ t <> 0x3B.
Notation conv0 := (conv_new (o_color o) (o_limit o)).
Lemma start_cini : part_ok o g -> starts (g_blocks g) ->
  exists s str, docst s ctl_none (0, []) /\ pos s str (g_blocks g) tz /\ sd_header_end L s = false /\
    forall y, cini L (set_global_palette conv0 (g_gct g), Some (g_bg g), RFinite 0) s str y ->
      cini L (conv0, None, RFinite 0) (sd_new L o) (ser_head g ++ ser_blocks (g_blocks g) ++ tz) y.
Proof.
  intros (K1 & K2 & K3 & K4 & K5 & K6 & K8 & K9) Hst.
  assert (E : exists t r, ser_blocks (g_blocks g) ++ tz = t :: r /\ (g_blocks g <> [] \/ t <> 0x3B)).
  { destruct Hst as [Hne|(t & r & Et & Ht)].
    - destruct (g_blocks g) as [|b0 bs0]; [congruence|]. rewrite ser_blocks_cons. eauto.
    - destruct (g_blocks g) as [|b0 bs0]; [exists t, r; auto|]. rewrite ser_blocks_cons. do 2 eexists. split; [reflexivity|]. left. discriminate. }
  destruct E as (t & r & E & Ht).
  pose proof (run_head L safe o g t r K1 K2 K6) as R.
  exists (head_sd L o g t), r. split; [|split; [|split; [reflexivity|]]].
  - constructor; try reflexivity; [apply R|left; split; reflexivity|split; [reflexivity|exact I]].
  - right. left. exists t. split; [reflexivity|]. split; [exact Ht|]. symmetry. exact E.
  - intros y Hy. rewrite E. eapply cini_ctr; [apply R| |exact Hy]. repeat constructor; discriminate.
Qed.

(** [read_info] fails. *)
Lemma read_info_refused src bytes e : src_ok src -> good_src src -> concat (map ev_bytes src) = bytes ->
  cini L (conv0, None, RFinite 0) (sd_new L o) bytes (NErr L e) \/
  (e = DIo UnexpectedEof /\ cini L (conv0, None, RFinite 0) (sd_new L o) bytes (NStuck L)) ->
  read_info L src o = Err e.
Proof.
  intros Hs Hg Hb Hc.
  set (d0 := with_no_init L src o).
  pose proof (with_no_init_good L src o Hs) as Gd0. fold d0 in Gd0.
  destruct (read_info_returns L safe umax Humax src o Hs) as [Rt Gd].
  assert (Er : init_rel L d0 (read_info L src o)) by (apply (init_loop_rel L safe _ d0 _ Gd0 eq_refl eq_refl)).
  assert (Erest : rd_rest L (dc_rd L d0) = bytes) by exact Hb.
  unfold init_rel in Er. rewrite Erest in Er.
  change (dhinfo L d0) with (conv0, @None N, RFinite 0) in Er. change (rd_dec L (dc_rd L d0)) with (sd_new L o) in Er.
  destruct (read_info L src o) as [d|e'| | ] eqn:E; try easy.
  - destruct Er as (d1 & _ & _ & _ & _ & Er).
    destruct Hc as [Hc|[_ Hc]]; pose proof (cini_det _ _ _ _ _ Er _ Hc); discriminate.
  - f_equal. destruct Er as [Er|[[E1 Er]|Er]]; [| |contradiction];
      (destruct Hc as [Hc|[E2 Hc]]; pose proof (cini_det _ _ _ _ _ Er _ Hc) as Eq; congruence).
Qed.

Theorem read_info_at src : part_ok o g -> starts (g_blocks g) -> opens (g_blocks g) -> leads ctl_none (0, []) (g_blocks g) -> src_ok src -> good_src src ->
  concat (map ev_bytes src) = ser_head g ++ ser_blocks (g_blocks g) ++ tz ->
  exists d c bs, read_info L src o = Ok d /\ ready d c bs /\ controlled c bs = gif_images g.
Proof.
  intros Hpart Hstart Hop Hld Hs Hg Hb.
  destruct (start_cini Hpart Hstart) as (s0 & str0 & D0 & P0 & Hh0 & Hc0).
  destruct Hpart as (K1 & K2 & K3 & K4 & K5 & K6 & K8 & K9).
  destruct (blocks_init (g_blocks g) _ _ _ _ (set_global_palette conv0 (g_gct g)) (Some (g_bg g)) (RFinite 0) D0 P0 Hh0 (conj K8 K9) Hld Hop)
    as (s1 & str1 & c' & x' & bs' & H1 & H2 & H3 & H4 & H5 & H6).
  apply Hc0 in H1. rename H1 into Hc. clear D0 P0 Hh0 Hc0.
  set (d0 := with_no_init L src o).
  pose proof (with_no_init_good L src o Hs) as Gd0. fold d0 in Gd0.
  destruct (read_info_returns L safe umax Humax src o Hs) as [Rt Gd].
  assert (Er : init_rel L d0 (read_info L src o)) by (apply (init_loop_rel L safe _ d0 _ Gd0 eq_refl eq_refl)).
  assert (Erest : rd_rest L (dc_rd L d0) = ser_head g ++ ser_blocks (g_blocks g) ++ tz) by exact Hb.
  unfold init_rel in Er. rewrite Erest in Er.
  change (dhinfo L d0) with (conv0, @None N, RFinite 0) in Er. change (rd_dec L (dc_rd L d0)) with (sd_new L o) in Er.
  destruct (read_info L src o) as [d|e| | ] eqn:E; try easy.
  2:{ exfalso. destruct Er as [Er|[[_ Er]|Er]]; [| |exact (Er Hg)];
        pose proof (cini_det _ _ _ _ _ Er _ Hc); discriminate. }
  pose proof (read_info_src L safe umax Humax src o d Hs Hg E) as Qd.
  destruct Er as (d1 & Ed & E1 & E2 & E3 & E4).
  pose proof (cini_det _ _ _ _ _ E4 _ Hc) as Eq. injection Eq as Q1 Q2 Q3 Q4 Q5.
  assert (Erd : dc_rd L d = dc_rd L d1).
  { rewrite Ed. unfold fix_bg. destruct (cv_gpal _); [destruct (_ <=? _)|]; reflexivity. }
  assert (Econv : dc_conv L d = dc_conv L d1).
  { rewrite Ed. unfold fix_bg. destruct (cv_gpal _); [destruct (_ <=? _)|]; reflexivity. }
  assert (Erep : dc_repeat L d = dc_repeat L d1).
  { rewrite Ed. unfold fix_bg. destruct (cv_gpal _); [destruct (_ <=? _)|]; reflexivity. }
  assert (Eg : cv_gpal (dc_conv L d1) = gif_palette g).
  { rewrite Q3. cbn [set_global_palette cv_gpal]. unfold gif_palette. destruct K6 as [_ K6].
    pose proof (table_colors_pos (g_flags g)). destruct (has_table (g_flags g)); destruct (g_gct g) as [|x y]; cbn [is_nil]; try reflexivity.
    - cbn [length] in K6. lia.
    - cbn [length] in K6. lia. }
  exists d, c', bs'. split; [reflexivity|]. split; [|exact H5].
  split; [|exists x'; split; [exact H6|]].
  - constructor; try (rewrite Erd); try (rewrite Econv); try (rewrite Erep); try rewrite Q1; try assumption; try apply H2.
    unfold fix_bg in Ed. rewrite Eg, Q4 in Ed. unfold gif_palette in Ed. unfold gif_bg. destruct K6 as [_ K6].
      destruct (has_table (g_flags g)).
      * replace (len (g_gct g) / 3) with (table_colors (g_flags g)) in Ed.
        2:{ unfold len. rewrite K6. rewrite N.mul_comm, N.div_mul by lia. reflexivity. }
        destruct (N.leb_spec (table_colors (g_flags g)) (g_bg g)); destruct (N.ltb_spec (g_bg g) (table_colors (g_flags g))); try lia;
          rewrite Ed; [reflexivity|exact Q4].
      * rewrite Ed. exact Q4.
  - exists [], s1, str1. rewrite Erd, Q1, Q2. split; [constructor|]. split; [apply run_refl; apply H2|]. auto.
Qed.

(** Compressed frames ([skip_frame_decoding]). *)
Theorem read_next_frame_raw_at d c bs : o_skip_frame_decoding o = true -> ready d c bs ->
  match controlled c bs with
  | [] => reached d
  | (c1, i) :: l =>
      fits (o_limit o) (1 + len (payload (im_subs i))) ->
      exists d' bs', read_next_frame L umax d = (d', Ok true) /\ l = controlled ctl_none bs' /\ img_ok o g i /\
        dc_cur L d' = meta_frame c1 i (is_interlaced (im_flags i)) (im_mcs i :: payload (im_subs i)) /\
        ready d' ctl_none bs'
  end.
Proof.
  intros Hsk Hr. pose proof (next_frame_info_at d c bs Hr) as H.
  destruct (controlled c bs) as [|[c1 i] l].
  { exact H. }
  destruct H as (d1 & bs' & E & El & Hi & Hin & Hcur & Hty). intros Hlim.
  unfold read_next_frame. rewrite E, Hty. unfold DocBlocks.img_ty. rewrite Hsk.
  destruct Hin as (F & x0 & Hok & M & _). pose proof F as [[G Q] Feof Fo Fw Fh Fg Fb Fr]. pose proof G as (Gr & Gf & _).
  destruct (mid_copy _ _ _ _ _ _ _ _ [im_mcs i] M Hsk) as (s' & Hcn & D & St & He).
  { cbn [length]. unfold len in Hlim. replace (N.of_nat (1 + length (payload (im_subs i)))) with (1 + N.of_nat (length (payload (im_subs i)))) by lia. exact Hlim. }
  unfold copy_lzw_into_buffer. cbn [app].
  destruct (copy_lzw_loop L (ev_fuel L (dc_rd L d1)) (dc_rd L d1) [im_mcs i]) as [[r v] x] eqn:Ec.
  pose proof (copy_lzw_loop_returns L safe umax Humax _ _ _ Gr (rmeas_fuel L umax Humax _) _ _ _ Ec) as (Rt & Gr' & Ko & _).
  pose proof (copy_loop_rel L safe _ _ _ _ _ _ Gr Feof Ec) as Hc.
  pose proof (copy_loop_src L safe _ _ _ _ _ _ Gr Q Ec) as Qr.
  unfold copy_rel in Hc.
  destruct x as [[]|e| | ]; try easy.
  2:{ exfalso. destruct Hc as [(_ & s1 & str1 & ob1 & dd & Hd & Hc)|[Hc|[[_ Hc]|Hc]]].
      - pose proof (cn_det L _ _ _ _ Hc _ Hcn) as Eq. congruence.
      - pose proof (cn_det L _ _ _ _ Hc _ Hcn) as Eq. congruence.
      - pose proof (cn_det L _ _ _ _ Hc _ Hcn) as Eq. congruence.
      - eapply cut_good; eassumption. }
  destruct Hc as [Hc1 Hc2]. pose proof (cn_det L _ _ _ _ Hc2 _ Hcn) as Eq. injection Eq as Eq1 Eq2 Eq3.
  eexists. exists bs'. split; [reflexivity|]. split; [exact El|]. split; [exact Hi|].
  split; [cbn [dc_cur set_cur]; rewrite Hcur, Eq3; reflexivity|].
  apply atend_ready. rewrite <- Eq1 in D, St, He.
  assert (F' : file_dec (set_cur L (set_conv L (set_rd L d1 r) (dc_conv L d1)) (set_buffer (set_buffer (dc_cur L d1) []) v) (FLzw (im_mcs i)))).
  { apply file_set; try assumption; try apply D; try apply same_settings_refl. }
  split; [exact F'|]. exists x0. split; [exact Hok|]. split; [|exact Eq2].
  split; [exact D|]. split; [exact St|exact He].
Qed.

Hypothesis noskip : o_skip_frame_decoding o = false.
Hypothesis nocheck : o_check_for_end_code o = false.

Lemma pxr_file d r c f t x bs out : file_dec d -> pxr L S o g (after x bs) r out -> same_settings (dc_conv L d) c -> frame_ok f ->
  file_dec (set_cur L (set_conv L (set_rd L d r) c) f t).
Proof.
  intros F (G & Q & E & (data & z & X & M & _)) Hs Hf. destruct M as [M1 M2 M3 M4 M5 M6 M7 M8].
  apply file_set; assumption.
Qed.

(** [read_next_frame]. *)
Theorem read_next_frame_at d c bs : ready d c bs ->
  match controlled c bs with
  | [] => reached d
  | (c1, i) :: l => forall out,
      lz_pending S (lz_new L (im_mcs i)) (payload (im_subs i)) out ->
      (0 < im_pixels i <= length out)%nat ->
      N.of_nat (frame_bytes i) <= umax / 2 -> fits (o_limit o) (N.of_nat (frame_bytes i)) ->
      exists d' bs', read_next_frame L umax d = (d', Ok true) /\ l = controlled ctl_none bs' /\
        dc_cur L d' = meta_frame c1 i false (shown (o_color o) (pal_of i) (c_transparent c1) (im_picture i out)) /\
        inpx d' bs' (skipn (im_pixels i) out)
  end.
Proof.
  intros Hr. pose proof (next_frame_info_at d c bs Hr) as H.
  destruct (controlled c bs) as [|[c1 i] l].
  { exact H. }
  destruct H as (d1 & bs' & E & El & Hi & Hin & Hcur & Hty). intros out Hp Hl Hu Hlim.
  pose proof (inimg_px d1 i bs' out noskip Hin Hp) as (F & x & Hok & Hpx).
  assert (Eco : cv_color (dc_conv L d1) = o_color o).
  { destruct (fl_quiet _ F) as [(_ & _ & _ & G4 & _) _]. rewrite G4, (fl_opts _ F). reflexivity. }
  assert (Eli : cv_limit (dc_conv L d1) = o_limit o).
  { destruct (fl_quiet _ F) as [(_ & _ & G3 & _) _]. rewrite G3, (fl_opts _ F). reflexivity. }
  assert (Hwh : (0 < N.to_nat (im_w i) /\ 0 < N.to_nat (im_h i))%nat).
  { unfold im_pixels in Hl. destruct (N.to_nat (im_w i)); destruct (N.to_nat (im_h i)); lia. }
  destruct (frame_spec umax rd (decode_next_bytes L) (pxr L S o g (after x bs'))
     (cb_pxr L S o g noskip nocheck (after x bs'))
     (dc_rd L d1) (dc_conv L d1) (dc_cur L d1) out (N.to_nat (im_w i)) (N.to_nat (im_h i)))
    as (r & c2 & Ef & Hs & Hpx').
  { rewrite Hcur. reflexivity. } { rewrite Hcur. reflexivity. }
  { apply Hwh. } { apply Hwh. } { exact Hpx. } { apply Hl. } { rewrite Hcur. reflexivity. }
  { rewrite Eco. exact Hu. }
  { rewrite Eco, Eli. exact Hlim. }
  unfold read_next_frame. rewrite E, Hty. unfold DocBlocks.img_ty. rewrite noskip. rewrite Ef.
  rewrite Eco, Hcur, (effective_pal_of d1 c1 i _ _ F).
  eexists. exists bs'. split; [reflexivity|]. split; [exact El|]. split; [reflexivity|].
  split; [|exists x; split; [exact Hok|exact Hpx']].
  eapply pxr_file; [exact F|exact Hpx'|exact Hs|].
  destruct (fl_quiet _ F) as [(_ & G2 & _) _]. rewrite Hcur in G2. exact G2.
Qed.

(** [read_into_buffer] after [next_frame_info]. *)
Theorem read_into_buffer_doc d c1 i bs out buf : inpx d bs out ->
  dc_cur L d = meta_frame c1 i (is_interlaced (im_flags i)) [] ->
  (0 < im_pixels i <= length out)%nat -> (frame_bytes i <= length buf)%nat -> len buf <= umax ->
  exists d', read_into_buffer L umax d buf =
     (d', shown_over (o_color o) (pal_of i) (c_transparent c1) (im_picture i out) buf ++ skipn (frame_bytes i) buf, Ok tt) /\
    dc_cur L d' = dc_cur L d /\ inpx d' bs (skipn (im_pixels i) out).
Proof.
  intros (F & x & Hok & Hpx) Hcur Hl Hb Hu.
  assert (Eco : cv_color (dc_conv L d) = o_color o).
  { destruct (fl_quiet _ F) as [(_ & _ & _ & G4 & _) _]. rewrite G4, (fl_opts _ F). reflexivity. }
  assert (Hwh : (0 < N.to_nat (im_w i) /\ 0 < N.to_nat (im_h i))%nat).
  { unfold im_pixels in Hl. destruct (N.to_nat (im_w i)); destruct (N.to_nat (im_h i)); lia. }
  destruct (into_spec umax rd (decode_next_bytes L) (pxr L S o g (after x bs))
     (cb_pxr L S o g noskip nocheck (after x bs))
     (dc_rd L d) (dc_conv L d) (dc_cur L d) buf out (N.to_nat (im_w i)) (N.to_nat (im_h i)))
    as (r & c2 & Ef & Hs & Hpx').
  { rewrite Hcur. reflexivity. } { rewrite Hcur. reflexivity. }
  { apply Hwh. } { apply Hwh. } { exact Hpx. } { apply Hl. } { rewrite Eco. exact Hb. } { exact Hu. }
  unfold read_into_buffer. rewrite Ef. rewrite Eco, Hcur, (effective_pal_of d c1 i _ _ F).
  eexists. split; [reflexivity|]. cbn [dc_cur set_conv set_rd]. split; [exact Hcur|].
  split; [|exists x; split; [exact Hok|exact Hpx']].
  assert (F' : file_dec (set_cur L (set_conv L (set_rd L d r) c2) (dc_cur L d) (dc_ty L d))).
  { eapply pxr_file; [exact F|exact Hpx'|exact Hs|]. destruct (fl_quiet _ F) as [(_ & G2 & _) _]. exact G2. }
  exact F'.
Qed.

(** [fill_buffer] on a slice of whole pixels. *)
Theorem fill_buffer_doc d c1 i bs out buf n : inpx d bs out ->
  dc_cur L d = meta_frame c1 i (is_interlaced (im_flags i)) [] ->
  (0 < n <= length out)%nat -> length buf = (px_bytes (o_color o) * n)%nat ->
  exists d', fill_buffer L d buf = (d', shown_over (o_color o) (pal_of i) (c_transparent c1) (firstn n out) buf, Ok true) /\
    dc_cur L d' = dc_cur L d /\ inpx d' bs (skipn n out).
Proof.
  intros (F & x & Hok & Hpx) Hcur Hl Hb.
  assert (Eco : cv_color (dc_conv L d) = o_color o).
  { destruct (fl_quiet _ F) as [(_ & _ & _ & G4 & _) _]. rewrite G4, (fl_opts _ F). reflexivity. }
  destruct (fill_spec rd (decode_next_bytes L) (pxr L S o g (after x bs))
     (cb_pxr L S o g noskip nocheck (after x bs))
     (dc_rd L d) (dc_conv L d) (dc_cur L d) buf out n) as (r & c2 & line & Ef & Hs & Hpx' & Hll & Hc).
  { exact Hpx. } { apply Hl. } { rewrite Eco. exact Hb. } { apply Hl. }
  unfold fill_buffer. rewrite Ef. eexists. split; [|split].
  - do 2 f_equal. assert (Hfl : length (firstn n out) = n) by (rewrite firstn_length; lia).
    rewrite (shown_over_cells (o_color o) (pal_of i) (c_transparent c1) (firstn n out) buf line).
    + rewrite Hfl, <- Hb, skipn_all, app_nil_r. reflexivity.
    + lia.
    + exact Hll.
    + intros k Hk. rewrite Hfl in Hk. rewrite Eco in Hc. rewrite (Hc k Hk). unfold cellf. rewrite Eco, Hcur, (effective_pal_of d c1 i _ _ F).
      replace (nth k (firstn n out) 0) with (nth k out 0); [reflexivity|].
      rewrite <- (firstn_skipn n out) at 1. rewrite app_nth1 by lia. reflexivity.
    + rewrite Hfl, <- Hb, <- Hll at 1. rewrite Hll, !skipn_all2 by lia. reflexivity.
  - reflexivity.
  - split; [|exists x; split; [exact Hok|exact Hpx']].
    assert (F' : file_dec (set_cur L (set_conv L (set_rd L d r) c2) (dc_cur L d) (dc_ty L d))).
    { eapply pxr_file; [exact F|exact Hpx'|exact Hs|]. destruct (fl_quiet _ F) as [(_ & G2 & _) _]. exact G2. }
    exact F'.
Qed.

End DR.

(** ** Files with a trailer *)
Section Done.
Variable L : lzw_codec.
Variable S : lzw_spec L.
Variable umax : N.
Hypothesis Humax : 2 ^ 32 - 1 <= umax.
Notation dcd := (dcd L).
Variable o : options.
Variable g : gif.
Variable tl : list N.
Notation ready := (ready L S o g (done g tl)).

Theorem next_frame_info_doc (d : dcd) c bs : ready d c bs ->
  match controlled c bs with
  | [] => exists d', next_frame_info L d = (d', Ok false) /\ finished L g tl d'
  | (c1, i) :: l => exists d' bs', next_frame_info L d = (d', Ok true) /\
      l = controlled ctl_none bs' /\ img_ok o g i /\ inimg L S o g (done g tl) d' i bs' /\
      dc_cur L d' = meta_frame c1 i (is_interlaced (im_flags i)) [] /\ dc_ty L d' = img_ty o i
  end.
Proof.
  intros Hr. pose proof (next_frame_info_at L S umax Humax o g _ d c bs Hr) as H.
  destruct (controlled c bs) as [|[c1 i] l]; [|exact H].
  exact (reached_end L S umax Humax o g _ d tl H eq_refl).
Qed.

Theorem read_info_doc src : gif_ok o g -> src_ok src -> good_src src ->
  concat (map ev_bytes src) = ser_gif g tl ->
  exists d c bs, read_info L src o = Ok d /\ ready d c bs /\ controlled c bs = gif_images g.
Proof.
  intros Hg Hs Hq Hb. apply (read_info_at L S umax Humax o g (done g tl)); try assumption.
  - apply gif_part_ok. exact Hg.
  - left. apply Hg.
  - left. left. split; [reflexivity|]. exists tl. reflexivity.
  - split; reflexivity.
Qed.

Lemma next_then (d d' : dcd) : next_frame_info L d = (d', Ok false) -> read_next_frame L umax d = (d', Ok false).
Proof. intros E. unfold read_next_frame. rewrite E. reflexivity. Qed.

Theorem read_next_frame_raw (d : dcd) c bs : o_skip_frame_decoding o = true -> ready d c bs ->
  match controlled c bs with
  | [] => exists d', read_next_frame L umax d = (d', Ok false) /\ finished L g tl d'
  | (c1, i) :: l =>
      fits (o_limit o) (1 + len (payload (im_subs i))) ->
      exists d' bs', read_next_frame L umax d = (d', Ok true) /\ l = controlled ctl_none bs' /\ img_ok o g i /\
        dc_cur L d' = meta_frame c1 i (is_interlaced (im_flags i)) (im_mcs i :: payload (im_subs i)) /\
        ready d' ctl_none bs'
  end.
Proof.
  intros Hk Hr. pose proof (read_next_frame_raw_at L S umax Humax o g _ d c bs Hk Hr) as H.
  destruct (controlled c bs) as [|[c1 i] l]; [|exact H].
  destruct (reached_end L S umax Humax o g _ d tl H eq_refl) as (d' & E & F). exists d'. split; [exact (next_then _ _ E)|exact F].
Qed.

Hypothesis noskip : o_skip_frame_decoding o = false.
Hypothesis nocheck : o_check_for_end_code o = false.
Theorem read_next_frame_doc (d : dcd) c bs : ready d c bs ->
  match controlled c bs with
  | [] => exists d', read_next_frame L umax d = (d', Ok false) /\ finished L g tl d'
  | (c1, i) :: l => forall out,
      lz_pending S (lz_new L (im_mcs i)) (payload (im_subs i)) out ->
      (0 < im_pixels i <= length out)%nat ->
      N.of_nat (frame_bytes o i) <= umax / 2 -> fits (o_limit o) (N.of_nat (frame_bytes o i)) ->
      exists d' bs', read_next_frame L umax d = (d', Ok true) /\ l = controlled ctl_none bs' /\
        dc_cur L d' = meta_frame c1 i false (shown (o_color o) (pal_of g i) (c_transparent c1) (im_picture i out)) /\
        inpx L S o g (done g tl) d' bs' (skipn (im_pixels i) out)
  end.
Proof.
  intros Hr. pose proof (read_next_frame_at L S umax Humax o g _ noskip nocheck d c bs Hr) as H.
  destruct (controlled c bs) as [|[c1 i] l]; [|exact H].
  destruct (reached_end L S umax Humax o g _ d tl H eq_refl) as (d' & E & F). exists d'. split; [exact (next_then _ _ E)|exact F].
Qed.
End Done.
