(** Positions of the decoder inside a well-formed file, and how metadata reading moves between them. *)
From Verif Require Import Base Common Lzw Encoder Stream Converter Reader StreamInv Steps StepsRev
  ReaderInv Interlace Ranges ConvInv DecoderSafe Canon CanonReader SpecGif DocTrace.
Open Scope N_scope.

Section Blocks.
Variable L : lzw_codec.
Variable S : lzw_spec L.
Notation safe := (lz_is_safe L S).
Notation sd := (sd L).
Notation cn := (cn L).
Notation CEv := (CEv L).
Notation run := (run L).
Variable o : options.
Variable g : gif.

Definition lzr_ok (r : lzw_reader L) : Prop :=
  lr_check L r = o_check_for_end_code o /\
  match lr_decoder L r with None => True | Some z => lz_size S z (lr_min_code_size L r) end.

(** Between two blocks, with control data [c] pending; [x] are the label and the data of the last extension. *)
Record docst (s : sd) (c : ctl) (x : N * list N) : Prop := mk_docst {
  ds_wf : sd_wf L s;
  ds_opts : sd_opts L s = o;
  ds_w : sd_width L s = g_w g;
  ds_h : sd_height L s = g_h g;
  ds_cur : (sd_current L s = None /\ c = ctl_none) \/ sd_current L s = Some (ctl_only c);
  ds_lzw : lzr_ok (sd_lzw L s);
  ds_ext : (sd_ext_id L s, sd_ext_data L s) = x
}.

(** The blocks still to come are [bs], then come the bytes [tz]: the trailer in a well-formed file. The first
    byte of the next block may have been taken already. *)
Definition pos (s : sd) (str : list N) (bs : list blk) (tz : list N) : Prop :=
  (sd_state L s = BlockEnd /\ str = ser_blocks bs ++ tz) \/
  (exists b, sd_state L s = BlockStart b /\ (bs <> [] \/ b <> 0x3B) /\ b :: str = ser_blocks bs ++ tz) \/
  (sd_state L s = BlockStart 0x3B /\ bs = [] /\ str = tz /\ exists tl, tz = 0x3B :: tl).

Definition lead (b : blk) : N := match b with BExt _ _ => 0x21 | BImg _ => 0x2C | BUnk t _ => t end.
Definition body (b : blk) : list N := skipn 1 (ser_blk b).
Lemma ser_blk_lead b : ser_blk b = lead b :: body b.
Proof. destruct b; reflexivity. Qed.

Lemma set_state_docst s c x st : docst s c x -> sd_wf L (set_state L s st) -> docst (set_state L s st) c x.
Proof. intros [H1 H2 H3 H4 H5 H6 H7] Hw. constructor; assumption. Qed.

(** Take the first byte of the next block. *)
Lemma pos_take s str bs tz c x t r : docst s c x -> pos s str bs tz -> ser_blocks bs ++ tz = t :: r -> t <> 0x3B ->
  exists s0, run s str [] s0 r /\ docst s0 c x /\ sd_state L s0 = BlockStart t /\ sd_header_end L s0 = sd_header_end L s.
Proof.
  intros Hd Hp E Ht. unfold pos in Hp. rewrite E in Hp.
  destruct Hp as [[Hst ->]|[(b0 & Hst & _ & E1)|(_ & -> & _ & (tl & E2))]].
  - assert (R : run s (t :: r) [] (set_state L s (BlockStart t)) r).
    { apply (run_byte L safe s t _ _ DNothing); [apply Hd|rewrite Hst; reflexivity|].
      apply (N_be L s [t] ONone t []); [exact Hst|reflexivity|exact Ht]. }
    eexists. split; [exact R|]. split; [|split; reflexivity].
    apply set_state_docst; [exact Hd|apply R].
  - injection E1 as -> ->. exists s. split; [apply run_refl; apply Hd|]. auto.
  - rewrite E2 in E. injection E as E _. congruence.
Qed.
Lemma ser_blocks_cons b bs tz : ser_blocks (b :: bs) ++ tz = lead b :: body b ++ ser_blocks bs ++ tz.
Proof. unfold ser_blocks. cbn [map concat]. rewrite ser_blk_lead, <- app_assoc. reflexivity. Qed.
Lemma pos_start s str b bs tz c x : docst s c x -> pos s str (b :: bs) tz -> lead b <> 0x3B ->
  exists s0, run s str [] s0 (body b ++ ser_blocks bs ++ tz) /\ docst s0 c x /\
    sd_state L s0 = BlockStart (lead b) /\ sd_header_end L s0 = sd_header_end L s.
Proof. intros Hd Hp Hl. eapply pos_take; [exact Hd|exact Hp|apply ser_blocks_cons|exact Hl]. Qed.

Definition ctl_next (c : ctl) (b : blk) : ctl :=
  match b with BExt l subs => if l =? 0xF9 then ctl_of (payload subs) else c | BImg _ => ctl_none | BUnk _ _ => c end.

Lemma pos_ext s str l subs bs tz c x : docst s c x -> pos s str (BExt l subs :: bs) tz ->
  ext_ok o l subs ->
  exists s' str', run s str (ext_events l subs) s' str' /\ docst s' (ctl_next c (BExt l subs)) (l, ext_blob subs) /\
    pos s' str' bs tz /\ sd_header_end L s' = sd_header_end L s.
Proof.
  intros Hd Hp Hok. destruct (pos_start _ _ _ _ _ _ _ Hd Hp ltac:(discriminate)) as (s0 & R0 & D0 & E0 & H0).
  pose proof (run_ext L safe s0 l subs (ser_blocks bs ++ tz) (ds_wf _ _ _ D0) E0) as R1.
  rewrite (ds_opts _ _ _ D0) in R1. specialize (R1 Hok).
  exists (after_ext L s0 l subs), (ser_blocks bs ++ tz).
  assert (R : run s str ([] ++ ext_events l subs) (after_ext L s0 l subs) (ser_blocks bs ++ tz)).
  { eapply run_trans; [exact R0|]. intros _. cbn [body ser_blk skipn app] in *. exact R1. }
  cbn [app] in R. split; [exact R|]. unfold after_ext in *.
  split; [|split].
  - destruct D0 as [W1 W2 W3 W4 W5 W6 W7]. cbn [ctl_next]. destruct (l =? 0xF9).
    + constructor; sdcbn; try assumption; [apply R1| |reflexivity]. right. f_equal.
      unfold cur_or_default. destruct W5 as [[-> ->]| ->]; [|apply ctl_frame_spec].
      apply (ctl_frame_spec ctl_none).
    + constructor; sdcbn; try assumption; [apply R1|reflexivity].
  - left. split; reflexivity.
  - destruct (l =? 0xF9); exact H0.
Qed.

(** An unknown block. *)
Lemma pos_unk s str t subs bs tz c x : docst s c x -> pos s str (BUnk t subs :: bs) tz -> sd_header_end L s = true ->
  blk_ok o g (BUnk t subs) -> fst x <> 0xF9 -> fits (o_limit o) (len (snd x) + N.of_nat (length (payload subs))) ->
  exists s' str', run s str (unk_events x subs) s' str' /\ docst s' c (unk_next x subs) /\
    pos s' str' bs tz /\ sd_header_end L s' = true.
Proof.
  intros Hd Hp Hh (B1 & B2 & B3 & B4 & B5 & B6) Hx Hf.
  destruct (pos_start _ _ _ _ _ _ _ Hd Hp B4) as (s0 & R0 & D0 & E0 & H0). cbn [lead] in E0. rewrite Hh in H0.
  pose proof (run_unk L safe s0 x t subs (ser_blocks bs ++ tz) (ds_wf _ _ _ D0) E0 H0 B2 B3 B4) as R1.
  rewrite (ds_opts _ _ _ D0) in R1. specialize (R1 B6 B5 (ds_ext _ _ _ D0) Hx Hf).
  exists (after_unk L s0 (unk_next x subs)), (ser_blocks bs ++ tz).
  split; [|split; [|split; [left; split; reflexivity|exact H0]]].
  - change (unk_events x subs) with ([] ++ unk_events x subs). eapply run_trans; [exact R0|]. intros _. exact R1.
  - destruct D0 as [W1 W2 W3 W4 W5 W6 W7]. constructor; unfold after_unk; sdcbn; try assumption; [apply R1|].
    unfold unk_next. reflexivity.
Qed.

(** The end of the header is reported at the first block that is not an extension. *)
Definition heads_on (bs : list blk) (tz : list N) : Prop :=
  (bs = [] /\ exists tl, tz = 0x3B :: tl) \/
  (exists t b r, ser_blocks bs ++ tz = t :: b :: r /\ t <> 0x21 /\ t <> 0x3B).
Lemma heads_on_cons b bs tz : lead b <> 0x21 -> lead b <> 0x3B -> heads_on (b :: bs) tz.
Proof.
  intros H1 H2. right. rewrite ser_blocks_cons.
  assert (Eb : exists z y, body b = z :: y).
  { destruct b as [l subs|i|t subs]; cbn [body ser_blk skipn]; [eauto| |].
    - unfold word. cbn [app]. do 2 eexists. reflexivity.
    - unfold ser_subs. destruct (concat (map ser_sub subs)); cbn [app]; eauto. }
  destruct Eb as (z & y & ->). cbn [app]. eauto 8.
Qed.
Lemma pos_header_end s str bs tz c x : docst s c x -> pos s str bs tz -> sd_header_end L s = false ->
  heads_on bs tz ->
  exists s1 str1, cn s str ONone (CEv s1 str1 ONone DHeaderEnd) /\ docst s1 c x /\ pos s1 str1 bs tz /\
    sd_header_end L s1 = true.
Proof.
  intros Hd Hp Hh Hb.
  assert (Hgo : forall s0 t b y, docst s0 c x -> sd_state L s0 = BlockStart t -> t <> 0x21 -> sd_header_end L s0 = false ->
     cn s0 (b :: y) ONone (CEv (set_state L (set_header_end L s0 true) (BlockStart t)) (b :: y) ONone DHeaderEnd) /\
     docst (set_state L (set_header_end L s0 true) (BlockStart t)) c x).
  { intros s0 t b y D0 E0 Ht H0.
    assert (Hn : nst L s0 [b] ONone (set_state L (set_header_end L s0 true) (BlockStart t)) ONone (Ok (0%nat, DHeaderEnd))).
    { apply N_header_end; assumption. }
    destruct (run_peek L safe s0 b y _ DHeaderEnd (ds_wf _ _ _ D0) ltac:(rewrite E0; reflexivity) Hn) as [_ W].
    split.
    - eapply cn_nst1; [apply D0|exact Hn|reflexivity|lia].
    - destruct D0 as [W1 W2 W3 W4 W5 W6 W7]. constructor; sdcbn; assumption. }
  destruct Hb as [[-> (tl & ->)]|(t & b & r & E & Ht1 & Ht2)].
  - destruct Hp as [[Hst ->]|[(b0 & _ & [E|E] & E2)|(Hst & _ & -> & _)]]; [|congruence|injection E2 as E2 _; congruence|].
    + cbn [ser_blocks map concat app].
      assert (Hn : nst L s [0x3B] ONone (set_state L s (BlockStart 0x3B)) ONone (Ok (0%nat, DNothing))).
      { apply (N_be_trailer L s [0x3B] ONone []); [exact Hst|reflexivity]. }
      destruct (run_peek L safe s 0x3B tl _ DNothing (ds_wf _ _ _ Hd) ltac:(rewrite Hst; reflexivity) Hn) as [_ W].
      destruct (Hgo (set_state L s (BlockStart 0x3B)) 0x3B 0x3B tl) as [G1 G2]; [apply set_state_docst; assumption|reflexivity|discriminate|exact Hh|].
      eexists. exists (0x3B :: tl). split; [|split; [exact G2|]].
      * eapply cn_nst1; [apply Hd|exact Hn| |lia]. exact G1.
      * split; [|reflexivity]. right. right. eauto.
    + destruct (Hgo s 0x3B 0x3B tl) as [G1 G2]; [assumption|assumption|discriminate|exact Hh|].
      eexists. exists (0x3B :: tl). split; [exact G1|]. split; [exact G2|].
      split; [|reflexivity]. right. right. eauto.
  - destruct (pos_take _ _ _ _ _ _ _ _ Hd Hp E Ht2) as (s0 & [R0 _] & D0 & E0 & H0).
    inversion R0 as [? ? ? ? Hs|]; subst.
    destruct (Hgo s0 t b r) as [G1 G2]; [assumption|assumption|assumption|congruence|].
    eexists. eexists. split; [apply Hs; exact G1|]. split; [exact G2|].
    split; [|reflexivity]. right. left. exists t. split; [reflexivity|]. split; [right; exact Ht2|]. symmetry. exact E.
Qed.

(** The trailer. *)
Lemma pos_trailer s str tl c x : docst s c x -> pos s str [] (0x3B :: tl) -> sd_header_end L s = true ->
  exists s1, cn s str ONone (CEv s1 tl ONone (DBlockStart BkTrailer)).
Proof.
  intros Hd Hp Hh.
  assert (Hgo : forall s0, docst s0 c x -> sd_state L s0 = BlockStart 0x3B -> sd_header_end L s0 = true ->
     cn s0 (0x3B :: tl) ONone (CEv (set_state L s0 Trailer) tl ONone (DBlockStart BkTrailer))).
  { intros s0 D0 E0 H0.
    assert (Hn : nst L s0 [0x3B] ONone (set_state L s0 Trailer) ONone (Ok (1%nat, DBlockStart BkTrailer))).
    { apply N_bs_trailer; assumption. }
    eapply cn_nst1; [apply D0|exact Hn|reflexivity|lia]. }
  destruct Hp as [[Hst ->]|[(b0 & _ & [E|E] & E2)|(Hst & _ & -> & _)]]; [|congruence|injection E2 as E2 _; congruence|].
  - cbn [ser_blocks map concat app].
    assert (Hn : nst L s [0x3B] ONone (set_state L s (BlockStart 0x3B)) ONone (Ok (0%nat, DNothing))).
    { apply (N_be_trailer L s [0x3B] ONone []); [exact Hst|reflexivity]. }
    destruct (run_peek L safe s 0x3B tl _ DNothing (ds_wf _ _ _ Hd) ltac:(rewrite Hst; reflexivity) Hn) as [Ht W].
    eexists. eapply cn_nst1; [apply Hd|exact Hn| |lia]. apply Hgo; [apply set_state_docst; assumption|reflexivity|exact Hh].
  - eexists. apply Hgo; assumption.
Qed.

(** ** Images *)
Definition img_head (i : img) : list N :=
  word (im_left i) ++ word (im_top i) ++ word (im_w i) ++ word (im_h i) ++ [im_flags i].
Lemma body_img i : body (BImg i) = img_head i ++ im_lct i ++ im_mcs i :: ser_subs (im_subs i).
Proof. reflexivity. Qed.

Lemma oob_false a b c : b + a <= c -> out_of_bounds c a b = false.
Proof. unfold out_of_bounds. destruct (c <? a) eqn:E; lia. Qed.

(** The frame with the position of [i]. *)
Definition placed (c : ctl) (i : img) : frame :=
  set_geometry (ctl_only c) (im_left i) (im_top i) (im_w i) (im_h i) (is_interlaced (im_flags i)).
Definition words_ok (i : img) : Prop := u16_ok (im_left i) /\ u16_ok (im_top i) /\ u16_ok (im_w i) /\ u16_ok (im_h i).
Lemma img_head_frame c i : words_ok i -> img_frame (ctl_only c) (img_head i) = placed c i.
Proof.
  intros (K1 & K2 & K3 & K4). unfold img_frame, placed. change (at_ (img_head i) 8) with (im_flags i). rewrite land_interlaced.
  f_equal; apply word_rd; assumption.
Qed.

(** Up to the image descriptor. *)
Lemma image_start s0 c x i r0 : docst s0 c x -> sd_state L s0 = BlockStart 0x2C -> sd_header_end L s0 = true ->
  exists s1, run s0 (img_head i ++ r0) [DBlockStart BkImage] s1 (img_head i ++ r0) /\
    sd_state L s1 = ImageBlockStart /\ sd_opts L s1 = o /\ sd_width L s1 = g_w g /\ sd_height L s1 = g_h g /\
    sd_current L s1 = Some (ctl_only c) /\ lzr_ok (sd_lzw L s1) /\
    sd_header_end L s1 = true /\ (sd_ext_id L s1, sd_ext_data L s1) = x /\
    hdr L s1 (img_head i) = img_head i /\ hn L s1 = 9%nat.
Proof.
  intros D0 E0 H0.
  set (s1 := set_state L (set_current L s0 (Some (cur_or_default L s0)) (cap_or_0 L s0)) ImageBlockStart).
  assert (R1 : run s0 (img_head i ++ r0) [DBlockStart BkImage] s1 (img_head i ++ r0)).
  { change (img_head i ++ r0) with (im_left i mod 256 :: skipn 1 (img_head i) ++ r0).
    apply (run_peek L safe s0 _ _ s1 (DBlockStart BkImage)); [apply D0|rewrite E0; reflexivity|].
    apply N_bs_image; assumption. }
  assert (Ef : cur_or_default L s0 = ctl_only c).
  { unfold cur_or_default. destruct (ds_cur _ _ _ D0) as [[-> ->]| ->]; reflexivity. }
  assert (Hib : sd_ibuf L s1 = []).
  { pose proof (ds_wf _ _ _ D0) as (Hw & _). rewrite E0 in Hw. cbn [need] in Hw.
    change (sd_ibuf L s0 = []). destruct (sd_ibuf L s0); [reflexivity|cbn in Hw; lia]. }
  exists s1. split; [exact R1|]. split; [reflexivity|].
  destruct D0 as [W1' W2' W3 W4 W5 W6 W7].
  do 3 (split; [assumption|]). split; [unfold s1; sdcbn; now rewrite Ef|].
  do 3 (split; [assumption|]). split.
  - unfold hdr, hn. rewrite Hib. change (sd_state L s1) with ImageBlockStart. reflexivity.
  - unfold hn. rewrite Hib. reflexivity.
Qed.

(** Up to the minimum code size. *)
Lemma image_head s0 c x i rest : docst s0 c x -> sd_state L s0 = BlockStart 0x2C -> sd_header_end L s0 = true ->
  words_ok i -> table_ok (im_flags i) (im_lct i) ->
  (o_check_frame_consistency o = true -> im_left i + im_w i <= g_w g /\ im_top i + im_h i <= g_h g) ->
  exists s1, run s0 (img_head i ++ im_lct i ++ im_mcs i :: rest) [DBlockStart BkImage] s1 rest /\
    sd_state L s1 = LzwInit (im_mcs i) /\ sd_opts L s1 = o /\ sd_width L s1 = g_w g /\ sd_height L s1 = g_h g /\
    sd_current L s1 = Some (meta_frame c i (is_interlaced (im_flags i)) []) /\ lzr_ok (sd_lzw L s1) /\
    sd_header_end L s1 = true /\ (sd_ext_id L s1, sd_ext_data L s1) = x.
Proof.
  intros D0 E0 H0 Kw (K6 & K6') K9.
  set (r0 := im_lct i ++ im_mcs i :: rest).
  destruct (image_start s0 c x i r0 D0 E0 H0) as (s1 & R1 & S1 & S2 & S3 & S4 & Hcur1 & S6 & S7 & S8 & Ehd & Ehn).
  pose proof (img_head_frame c i Kw) as Eimg.
  set (s2 := after_image L s1 (ctl_only c) (img_head i)).
  assert (R2 : run s1 (img_head i ++ r0) [] s2 r0).
  { change r0 with (skipn 9 (img_head i) ++ r0) at 2.
    apply (run_step L safe s1 (img_head i) r0 s2 9 DNothing); [apply R1|intros E2; rewrite S1 in E2; discriminate E2|discriminate|].
    pose proof (N_image L s1 (img_head i) ONone (ctl_only c) S1) as Q. rewrite Ehd, Ehn in Q.
    apply Q; [cbn; lia|exact Hcur1|].
    unfold img_oob. rewrite Eimg, S2, S3, S4.
    destruct (o_check_frame_consistency o); [|reflexivity]. destruct (K9 eq_refl) as [K9a K9b].
    cbn [placed set_geometry f_width f_left f_height f_top andb]. rewrite !oob_false by assumption. reflexivity. }
  assert (F8 : at_ (img_head i) 8 = im_flags i) by reflexivity.
  set (r1 := im_mcs i :: rest).
  assert (R3 : exists s3, run s2 r0 [] s3 r1 /\
    sd_state L s3 = LocalPalette 0 /\ sd_opts L s3 = o /\ sd_width L s3 = g_w g /\ sd_height L s3 = g_h g /\
    sd_current L s3 = Some (meta_frame c i (is_interlaced (im_flags i)) []) /\ lzr_ok (sd_lzw L s3) /\
    sd_header_end L s3 = true /\ (sd_ext_id L s3, sd_ext_data L s3) = x).
  { pose proof (proj2 R2) as W2. unfold s2, after_image in *. rewrite F8, land_has_table, Eimg in *.
    change (f_palette (ctl_only c)) with (@None (list N)) in *. cbn iota in *. unfold placed in *.
    unfold meta_frame.
    destruct (has_table (im_flags i)) eqn:Eht.
    - assert (El : length (im_lct i) = table_bytes (im_flags i)) by (rewrite table_bytes_colors; lia).
      pose proof (table_colors_pos (im_flags i)) as Hpos.
      assert (Hl0 : (0 < length (im_lct i))%nat) by lia.
      match goal with |- context [run ?x r0 [] _ _] => set (s2' := x) in * end.
      set (f2 := set_palette (set_geometry (ctl_only c) (im_left i) (im_top i) (im_w i) (im_h i) (is_interlaced (im_flags i))) (Some [])).
      pose proof (run_step L safe s2' (im_lct i) r1 (set_state L (set_current L s2' (Some (set_palette f2 (Some (im_lct i)))) (sd_pal_cap L s2')) (LocalPalette 0)) (length (im_lct i)) DNothing W2) as R.
      rewrite skipn_all in R. cbn [app silent] in R.
      eexists. split; [apply R|].
      + intros E2; discriminate E2.
      + destruct (im_lct i); [cbn in Hl0; lia|discriminate].
      + pose proof (N_lp L s2' (im_lct i) ONone (table_bytes (im_flags i)) (length (im_lct i)) f2 [] eq_refl) as Q.
        rewrite firstn_all in Q. replace (table_bytes (im_flags i) - length (im_lct i))%nat with O in Q by lia.
        apply Q; [lia|lia|reflexivity|reflexivity].
      + sdcbn. split; [reflexivity|]. auto 12.
    - assert (En : im_lct i = []) by (destruct (im_lct i); [reflexivity|cbn in K6'; lia]).
      eexists. split; [unfold r0; rewrite En; cbn [app]; apply run_refl; exact W2|].
      sdcbn. split; [reflexivity|]. auto 12. }
  destruct R3 as (s3 & R3 & E31 & E32 & E33 & E34 & E35 & E36 & E37 & E38).
  exists (set_state L s3 (LzwInit (im_mcs i))).
  split; [|sdcbn; auto 12].
  change [DBlockStart BkImage] with ([DBlockStart BkImage] ++ [] ++ [] ++ []).
  eapply run_trans; [exact R1|]. intros _.
  eapply run_trans; [exact R2|]. intros _. eapply run_trans; [exact R3|]. intros W3.
  apply (run_byte L safe s3 (im_mcs i) _ _ DNothing); [exact W3|rewrite E31; reflexivity|].
  apply (N_lp_end L s3 [im_mcs i] ONone (im_mcs i) []); [exact E31|reflexivity].
Qed.
Lemma pos_image s str i bs tz c x : docst s c x -> pos s str (BImg i :: bs) tz -> sd_header_end L s = true ->
  img_ok o g i ->
  exists s0, run s str [DBlockStart BkImage] s0 (ser_subs (im_subs i) ++ ser_blocks bs ++ tz) /\
    sd_state L s0 = LzwInit (im_mcs i) /\ sd_opts L s0 = o /\ sd_width L s0 = g_w g /\ sd_height L s0 = g_h g /\
    sd_current L s0 = Some (meta_frame c i (is_interlaced (im_flags i)) []) /\ lzr_ok (sd_lzw L s0) /\
    sd_header_end L s0 = true /\ (sd_ext_id L s0, sd_ext_data L s0) = x.
Proof.
  intros Hd Hp Hh (K1 & K2 & K3 & K4 & K5 & K6 & K7 & K8 & K9 & K10).
  destruct (pos_start _ _ _ _ _ _ _ Hd Hp ltac:(discriminate)) as (s0 & R0 & D0 & E0 & H0). rewrite Hh in H0.
  cbn [lead] in E0. rewrite body_img in R0. rewrite <- !app_assoc in R0. cbn [app] in R0.
  destruct (image_head s0 c x i (ser_subs (im_subs i) ++ ser_blocks bs ++ tz) D0 E0 H0) as (s1 & R1 & H1);
    [repeat split; assumption|exact K6|exact K9|].
  exists s1. split; [|exact H1].
  change [DBlockStart BkImage] with ([] ++ [DBlockStart BkImage]).
  eapply run_trans; [exact R0|]. intros _. exact R1.
Qed.

(** Inside image data: [k] bytes of the current sub-block are still to come. *)
Definition inblk (k : nat) (str data rest : list N) : Prop :=
  exists cur subs, str = cur ++ concat (map ser_sub subs) ++ 0 :: rest /\ length cur = k /\
    Forall sub_ok subs /\ data = cur ++ payload subs.

(** The decoder right after the metadata of image [i] were reported, or later inside its data;
    [data] is the compressed data still to come, [rest] what follows the image, behind the label and the
    data of the last extension. *)
Definition tail : Type := (N * list N) * list N.
Record midst (s : sd) (str data : list N) (rest : tail) : Prop := mk_midst {
  md_wf : sd_wf L s;
  md_opts : sd_opts L s = o;
  md_w : sd_width L s = g_w g;
  md_h : sd_height L s = g_h g;
  md_lzw : lzr_ok (sd_lzw L s);
  md_he : sd_header_end L s = true;
  md_ext : (sd_ext_id L s, sd_ext_data L s) = fst rest;
  md_blk : exists k, inblk k str data (snd rest) /\
    (if o_skip_frame_decoding o then sd_state L s = CopySubBlock k
     else sd_state L s = DecodeSubBlock k /\ exists z, lr_decoder L (sd_lzw L s) = Some z)
}.

Definition img_ty (i : img) : frame_data_type := if o_skip_frame_decoding o then FLzw (im_mcs i) else FPixels.

Lemma code_size_ok m : 1 <= m <= 11 -> check_code_size m = true.
Proof. unfold check_code_size. lia. Qed.

(** A codec about to read its first byte. *)
Definition begun (z : lz_st L) (m : N) : Prop :=
  z = lz_new L m \/ exists z0, lz_size S z0 m /\ z = lz_reset L z0.

Lemma lr_reset_ok r m : lzr_ok r -> 1 <= m <= 11 ->
  exists r' z, lr_reset L r m = (r', Ok tt) /\ lzr_ok r' /\ lr_decoder L r' = Some z /\ lr_min_code_size L r' = m /\
    begun z m /\ forall inp out, lz_pending S (lz_new L m) inp out -> lz_pending S z inp out.
Proof.
  intros [H1 H2] Hm. unfold lr_reset. rewrite code_size_ok by exact Hm.
  destruct (lr_decoder L r) as [z|] eqn:Ez.
  - destruct (negb (lr_min_code_size L r =? m)) eqn:E.
    + eexists. eexists. split; [reflexivity|]. split; [split; [exact H1|cbn; apply lz_size_new]|].
      split; [reflexivity|]. split; [reflexivity|]. split; [left; reflexivity|auto].
    + assert (Em : lr_min_code_size L r = m) by (apply N.eqb_eq; destruct (_ =? _); [reflexivity|discriminate]).
      eexists. eexists. split; [reflexivity|]. split; [split; [exact H1|cbn; apply lz_size_reset; exact H2]|].
      split; [reflexivity|]. split; [exact Em|]. split; [right; exists z; split; [congruence|reflexivity]|]. intros inp out Hp. eapply lz_pending_reset; [|exact Hp]. congruence.
  - eexists. eexists. split; [reflexivity|]. split; [split; [exact H1|cbn; apply lz_size_new]|].
    split; [reflexivity|]. split; [reflexivity|]. split; [left; reflexivity|auto].
Qed.

Lemma inblk_first b subs rest : sub_ok b -> Forall sub_ok subs ->
  inblk (N.to_nat (N.of_nat (length b))) (b ++ concat (map ser_sub subs) ++ 0 :: rest) (payload (b :: subs)) rest.
Proof. intros Hb Hs. exists b, subs. split; [reflexivity|]. split; [lia|]. split; [exact Hs|]. reflexivity. Qed.

(** The metadata event. *)
Lemma pos_meta s str i bs tz c x : docst s c x -> pos s str (BImg i :: bs) tz -> sd_header_end L s = true ->
  img_ok o g i ->
  exists s1 str1, cinfo L s str (IMeta L s1 str1 (img_ty i)) /\
    (exists b0, ser_subs (im_subs i) ++ ser_blocks bs ++ tz = b0 :: str1) /\
    sd_current L s1 = Some (meta_frame c i (is_interlaced (im_flags i)) []) /\
    midst s1 str1 (payload (im_subs i)) (x, ser_blocks bs ++ tz) /\
    (o_skip_frame_decoding o = false ->
       exists z, lr_decoder L (sd_lzw L s1) = Some z /\ begun z (im_mcs i) /\
         forall inp out, lz_pending S (lz_new L (im_mcs i)) inp out -> lz_pending S z inp out).
Proof.
  intros Hd Hp Hh Hok.
  destruct (pos_image _ _ _ _ _ _ _ Hd Hp Hh Hok) as (s0 & R0 & E1 & E2 & E3 & E4 & E5 & E6 & E7 & E8).
  destruct Hok as (K1 & K2 & K3 & K4 & K5 & (K6 & K6') & K7 & (K8 & K8') & K9 & K10).
  destruct (im_subs i) as [|b subs] eqn:Esub; [congruence|]. clear K8.
  inversion K8' as [|? ? Kb Kr]; subst.
  unfold ser_subs in R0. cbn [map concat] in R0. unfold ser_sub at 1 in R0. cbn [app] in R0.
  rewrite <- !app_assoc in R0. cbn [app] in R0.
  set (rest := ser_blocks bs ++ tz) in *. set (b0 := N.of_nat (length b)) in *.
  set (str1 := b ++ concat (map ser_sub subs) ++ 0 :: rest) in *.
  assert (Estr : exists b1, ser_subs (b :: subs) ++ rest = b1 :: str1).
  { exists b0. unfold ser_subs, str1, b0. cbn [map concat]. unfold ser_sub at 1. cbn [app]. rewrite <- !app_assoc. reflexivity. }
  assert (Hbor : Forall boring [DBlockStart BkImage]).
  { constructor; [split; [intros t; discriminate|discriminate]|constructor]. }
  assert (Hgo : forall s1, nst L s0 [b0] ONone s1 ONone (Ok (1%nat, DFrameMetadata (img_ty i))) ->
     cinfo L s str (IMeta L s1 str1 (img_ty i)) /\ sd_wf L s1).
  { intros s1 Hn.
    destruct (run_byte L safe s0 b0 str1 s1 (DFrameMetadata (img_ty i)) (proj2 R0) ltac:(rewrite E1; reflexivity) Hn) as [_ W].
    split; [|exact W]. eapply cinfo_ctr; [apply R0|exact Hbor|].
    eapply ci_meta. eapply cn_nst1; [apply R0|exact Hn|reflexivity|lia]. }
  unfold img_ty in *. destruct (o_skip_frame_decoding o) eqn:Esk.
  - set (s1 := set_state L s0 (CopySubBlock (N.to_nat b0))) in *.
    destruct (Hgo s1) as [G1 G2].
    { apply (N_init_skip L s0 [b0] ONone b0 []); [exact E1|reflexivity|congruence|apply code_size_ok; exact K7]. }
    exists s1, str1. split; [exact G1|]. split; [exact Estr|]. split; [exact E5|]. split; [|discriminate].
    constructor; try assumption; [reflexivity|]. exists (N.to_nat b0). split; [now apply inblk_first|].
    rewrite Esk. reflexivity.
  - destruct (lr_reset_ok _ _ E6 K7) as (r & z & Er & Er2 & Er3 & Er4 & Er5).
    set (s1 := set_state L (set_lzw L s0 r) (DecodeSubBlock (N.to_nat b0))) in *.
    destruct (Hgo s1) as [G1 G2].
    { apply (N_init L s0 [b0] ONone b0 [] (im_mcs i) r); [exact E1|reflexivity|congruence|exact Er|apply code_size_ok; exact K7]. }
    exists s1, str1. split; [exact G1|]. split; [exact Estr|]. split; [exact E5|]. split.
    + constructor; try assumption; [reflexivity|]. exists (N.to_nat b0). split; [now apply inblk_first|].
      rewrite Esk. split; [reflexivity|]. exists z. exact Er3.
    + intros _. exists z. split; [exact Er3|exact Er5].
Qed.

(** ** Skipping image data *)
Lemma inblk_cases k str data rest : inblk k str data rest ->
  (exists cur tl, (0 < k)%nat /\ str = cur ++ tl /\ length cur = k /\ exists data', data = cur ++ data' /\
     inblk 0 tl data' rest) \/
  (k = O /\ ((exists b t, str = b :: t /\ b <> 0 /\ inblk (N.to_nat b) t data rest) \/
             (str = 0 :: rest /\ data = []))).
Proof.
  intros (cur & subs & -> & Hl & Hs & ->). destruct k as [|k].
  - right. split; [reflexivity|]. destruct cur; [|discriminate]. cbn [app].
    destruct subs as [|b subs]; [right; auto|]. left.
    inversion Hs as [|? ? [Hb1 Hb2] Hs']; subst.
    exists (N.of_nat (length b)), (b ++ concat (map ser_sub subs) ++ 0 :: rest).
    split; [cbn [map concat]; unfold ser_sub at 1; cbn [app]; now rewrite <- app_assoc|].
    split; [lia|]. apply inblk_first; [split; assumption|assumption].
  - left. exists cur, (concat (map ser_sub subs) ++ 0 :: rest). split; [lia|]. split; [reflexivity|].
    split; [exact Hl|]. exists (payload subs). split; [reflexivity|].
    exists [], subs. auto.
Qed.

Lemma run_data_end s rest : sd_wf L s -> sd_state L s = FrameDecoded ->
  forall ob, cn s (0 :: rest) ob (CEv (set_state L (set_current L s None 0) BlockEnd) rest ob DDataEnd).
Proof.
  intros Hw Hst ob. eapply cn_nst1; [exact Hw|apply (N_fd L s [0] ob []); [exact Hst|reflexivity]|reflexivity|lia].
Qed.

Lemma copy_cn n : forall s str data rest k ob y, (length str <= n)%nat -> sd_wf L s ->
  sd_state L s = CopySubBlock k -> inblk k str data rest -> is_slice ob = false ->
  ob_fits ob (o_limit (sd_opts L s)) (length data) = true ->
  cn (set_state L s FrameDecoded) (0 :: rest) (ob_app ob data) y -> cn s str ob y.
Proof.
  induction n as [|n IH]; intros s str data rest k ob y Hl Hw Hst Hi Hs Hf Hy.
  { destruct Hi as (cur & subs & -> & _). rewrite !app_length in Hl. cbn in Hl. lia. }
  apply inblk_cases in Hi. destruct Hi as [(cur & tl & Hk & -> & Hcur & data' & -> & Hi)|(-> & [(b & t & -> & Hb & Hi)|(-> & ->)])].
  - rewrite app_length in Hl, Hf.
    assert (Hf1 : ob_fits ob (o_limit (sd_opts L s)) (length cur) = true).
    { unfold ob_fits, check_size in *. destruct ob; try reflexivity. destruct (o_limit _); [lia|reflexivity]. }
    assert (Hf2 : ob_fits (ob_app ob cur) (o_limit (sd_opts L s)) (length data') = true).
    { unfold ob_fits, check_size, len in *. destruct ob; try reflexivity. cbn [ob_app]. rewrite app_length.
      destruct (o_limit _); [lia|reflexivity]. }
    assert (Ek : (k - length cur)%nat = O) by lia.
    assert (W : sd_wf L (set_state L s (CopySubBlock 0))).
    { destruct Hw as (W1 & W2 & W3 & W4). unfold gct_wf, cur_wf, mode_wf in *. rewrite Hst in *.
      split; [exact W1|]. split; [exact W2|]. split; [exact W3|exact W4]. }
    eapply cn_cp; [apply safe|exact Hw|exact Hst|lia|exact Hs|exact Hf1|]. rewrite Ek.
    eapply (IH _ tl data' rest 0%nat); [lia|exact W|reflexivity|exact Hi|destruct ob; easy|exact Hf2|].
    replace (ob_app (ob_app ob cur) data') with (ob_app ob (cur ++ data')); [exact Hy|].
    destruct ob; cbn; try reflexivity. now rewrite app_assoc.
  - pose proof (N_cp_next L s [b] ob b [] Hst eq_refl Hb) as Hn.
    eapply cn_nst1; [exact Hw|exact Hn| |lia]. cbn [silent skipn].
    eapply (IH _ t data rest); [cbn in Hl; lia| |reflexivity|exact Hi|exact Hs|exact Hf|exact Hy].
    eapply wf_step; [apply safe|exact Hw| |exact Hn]. intros E. rewrite Hst in E. discriminate.
  - pose proof (N_cp_end L s [0] ob [] Hst eq_refl) as Hn.
    eapply cn_nst1; [exact Hw|exact Hn| |lia]. cbn [silent skipn].
    replace (ob_app ob []) with ob in Hy; [exact Hy|]. destruct ob; cbn; rewrite ?app_nil_r; reflexivity.
Qed.

Lemma skip_cn n : forall s str data rest k r1 y, (length str <= n)%nat -> sd_wf L s ->
  sd_state L s = DecodeSubBlock k -> inblk k str data rest ->
  lr_decode_bytes L (sd_lzw L s) [] ONone = (r1, ONone, Ok (0%nat, 0%nat)) ->
  cn (set_state L (set_lzw L s r1) FrameDecoded) (0 :: rest) ONone y -> cn s str ONone y.
Proof.
  induction n as [|n IH]; intros s str data rest k r1 y Hl Hw Hst Hi Hr Hy.
  { destruct Hi as (cur & subs & -> & _). rewrite !app_length in Hl. cbn in Hl. lia. }
  apply inblk_cases in Hi. destruct Hi as [(cur & tl & Hk & -> & Hcur & data' & -> & Hi)|(-> & [(b & t & -> & Hb & Hi)|(-> & ->)])].
  - rewrite app_length in Hl.
    assert (Ek : (k - length cur)%nat = O) by lia.
    assert (W : sd_wf L (set_state L s (DecodeSubBlock 0))).
    { destruct Hw as (W1 & W2 & W3 & W4). unfold gct_wf, cur_wf, mode_wf in *. rewrite Hst in *.
      split; [exact W1|]. split; [exact W2|]. split; [exact W3|exact W4]. }
    eapply cn_de_skip; [apply safe|exact Hw|exact Hst|lia|apply orb_true_r|]. rewrite Ek.
    eapply (IH _ tl data' rest 0%nat); [lia|exact W|reflexivity|exact Hi|exact Hr|exact Hy].
  - pose proof (N_de_next L s [b] ONone b [] Hst eq_refl Hb) as Hn.
    eapply cn_nst1; [exact Hw|exact Hn| |lia]. cbn [silent skipn].
    eapply (IH _ t data rest); [cbn in Hl; lia| |reflexivity|exact Hi|exact Hr|exact Hy].
    eapply wf_step; [apply safe|exact Hw| |exact Hn]. intros E. rewrite Hst in E. discriminate.
  - pose proof (N_de_drain L s [0] ONone [] r1 ONone _ _ Hst eq_refl Hr) as Hn. cbn [Nat.eqb] in Hn.
    eapply cn_nst1; [exact Hw|exact Hn| |lia]. cbn [silent skipn]. exact Hy.
Qed.

(** What the LZW decoder has to satisfy to be skipped in the middle of a frame. *)
Definition lzw_alive (s : sd) : Prop :=
  o_check_for_end_code o = false /\
  exists z X out, lr_decoder L (sd_lzw L s) = Some z /\ lz_pending S z X out.

Lemma drain_none s : lzr_ok (sd_lzw L s) -> lzw_alive s ->
  exists r1, lr_decode_bytes L (sd_lzw L s) [] ONone = (r1, ONone, Ok (0%nat, 0%nat)) /\ lzr_ok r1.
Proof.
  intros [H1 H2] (Hc & z & X & out & Hz & Hp). unfold lr_decode_bytes. rewrite Hz in *.
  cbn [length]. destruct (lz_decode L z [] 0) as [z' [[n w] st]] eqn:E.
  destruct (lz_step L S z [] X 0 out z' n w st Hp E) as (Hst & _).
  destruct (safe _ _ _ _ _ _ _ E) as [Hn Hw]. cbn in Hn, Hw.
  assert (n = O) as -> by lia. assert (length w = O) as -> by lia.
  rewrite H1, Hc.
  assert (Hk : lzr_ok (mk_lr L (Some z') (lr_min_code_size L (sd_lzw L s)) false)).
  { split; [cbn; congruence|]. cbn. eapply lz_size_decode; [exact H2|exact E]. }
  destruct st; try congruence; eexists; (split; [reflexivity|]); exact Hk.
Qed.

Lemma mid_skip s str data rest : midst s str data rest ->
  (o_skip_frame_decoding o = false -> lzw_alive s) ->
  exists s', run s str [DDataEnd] s' (snd rest) /\ docst s' ctl_none (fst rest) /\ sd_state L s' = BlockEnd /\ sd_header_end L s' = true.
Proof.
  destruct rest as [x rest]. cbn [fst snd]. intros [M1 M2 M3 M4 M5 M6 M7 (k & Hi & Hk)] Ha.
  destruct (o_skip_frame_decoding o) eqn:Esk.
  - assert (W : sd_wf L (set_state L s FrameDecoded)).
    { destruct M1 as (W1 & W2 & W3 & W4). unfold gct_wf, cur_wf, mode_wf in *. rewrite Hk in *.
      split; [exact W1|]. split; [exact W2|]. split; [exact W3|exact I]. }
    set (s2 := set_state L (set_current L (set_state L s FrameDecoded) None 0) BlockEnd).
    destruct (run_zero L safe (set_state L s FrameDecoded) rest s2 1 DDataEnd W) as [_ W2].
    { apply (N_fd L (set_state L s FrameDecoded) [0] ONone []); reflexivity. }
    exists s2. split; [split; [|exact W2]|].
    + econstructor; [|apply ctr_refl]. eapply copy_cn; [apply Nat.le_refl|exact M1|exact Hk|exact Hi|reflexivity|reflexivity|].
      cbn [ob_app]. apply run_data_end; [exact W|reflexivity].
    + split; [|split; [reflexivity|exact M6]]. constructor; try assumption. left. split; reflexivity.
  - destruct Hk as [Hk (z & Hz)]. destruct (drain_none s M5 (Ha eq_refl)) as (r1 & Hr1 & Hr2).
    assert (W : sd_wf L (set_state L (set_lzw L s r1) FrameDecoded)).
    { destruct M1 as (W1 & W2 & W3 & W4). unfold gct_wf, cur_wf, mode_wf in *. rewrite Hk in *.
      split; [exact W1|]. split; [exact W2|]. split; [exact W3|exact I]. }
    set (s1 := set_state L (set_lzw L s r1) FrameDecoded) in *.
    set (s2 := set_state L (set_current L s1 None 0) BlockEnd).
    destruct (run_zero L safe s1 rest s2 1 DDataEnd W) as [_ W2].
    { apply (N_fd L s1 [0] ONone []); reflexivity. }
    exists s2. split; [split; [|exact W2]|].
    + econstructor; [|apply ctr_refl]. eapply skip_cn; [apply Nat.le_refl|exact M1|exact Hk|exact Hi|exact Hr1|].
      apply run_data_end; [exact W|reflexivity].
    + split; [|split; [reflexivity|exact M6]]. constructor; try assumption. left. split; reflexivity.
Qed.

(** Copying the compressed data of a frame. *)
Lemma mid_copy s str data rest v : midst s str data rest -> o_skip_frame_decoding o = true ->
  fits (o_limit o) (N.of_nat (length v + length data)) ->
  exists s', cn s str (OVec v) (CEv s' (snd rest) (OVec (v ++ data)) DDataEnd) /\
    docst s' ctl_none (fst rest) /\ sd_state L s' = BlockEnd /\ sd_header_end L s' = true.
Proof.
  destruct rest as [x rest]. cbn [fst snd]. intros [M1 M2 M3 M4 M5 M6 M7 (k & Hi & Hk)] Esk Hf. rewrite Esk in Hk.
  assert (W : sd_wf L (set_state L s FrameDecoded)).
  { destruct M1 as (W1 & W2 & W3 & W4). unfold gct_wf, cur_wf, mode_wf in *. rewrite Hk in *.
    split; [exact W1|]. split; [exact W2|]. split; [exact W3|exact I]. }
  set (s2 := set_state L (set_current L (set_state L s FrameDecoded) None 0) BlockEnd).
  destruct (run_zero L safe (set_state L s FrameDecoded) rest s2 1 DDataEnd W) as [_ W2].
  { apply (N_fd L (set_state L s FrameDecoded) [0] ONone []); reflexivity. }
  exists s2. split.
  - eapply copy_cn; [apply Nat.le_refl|exact M1|exact Hk|exact Hi|reflexivity| |].
    { cbn [ob_fits]. apply fits_check. rewrite M2. unfold len. now rewrite <- Nat2N.inj_add. }
    cbn [ob_app]. apply run_data_end; [exact W|reflexivity].
  - split; [|split; [reflexivity|exact M6]]. constructor; try assumption. left. split; reflexivity.
Qed.

End Blocks.
