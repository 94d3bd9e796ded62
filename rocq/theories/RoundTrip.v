(** What the encoder writes, the decoder reads back. *)
From Verif Require Import Base Common Lzw Encoder Stream Converter Reader DecoderSafe CanonReader SpecGif SpecPixels
  SpecEnc SpecRound DocRead DocAll EncLin EncSpec EncSession.
Open Scope N_scope.

Section RT.
Variable L : lzw_codec.
Variable S : lzw_spec L.
Variable umax : N.
Hypothesis Humax : 2 ^ 32 - 1 <= umax.

(** ** The file is well-formed *)
Lemma bytes_ok_app a b : bytes_ok (a ++ b) <-> bytes_ok a /\ bytes_ok b.
Proof. apply Forall_app. Qed.
Lemma bytes_ok_firstn n a : bytes_ok a -> bytes_ok (firstn n a).
Proof. intros H. rewrite <- (firstn_skipn n a) in H. apply bytes_ok_app in H. apply H. Qed.
Lemma bytes_ok_zeros n : bytes_ok (repeat 0 n).
Proof. apply Forall_forall. intros x Hx. apply repeat_spec in Hx. subst x. unfold byte_ok. lia. Qed.
Lemma word_bytes n : u16_ok n -> bytes_ok (word n).
Proof. unfold u16_ok. intros H. repeat constructor; unfold byte_ok; lia. Qed.

Lemma table_flags k b : k <= 7 -> has_table (b * 64 + (128 + k)) = N.testbit (b * 64 + (128 + k)) 7.
Proof. reflexivity. Qed.

Lemma size_cases k : k <= 7 -> k = 0 \/ k = 1 \/ k = 2 \/ k = 3 \/ k = 4 \/ k = 5 \/ k = 6 \/ k = 7.
Proof. lia. Qed.
Lemma gflags_spec k : k <= 7 -> let f := 128 + 16 * k + k in byte_ok f /\ has_table f = true /\ table_colors f = 2 ^ (k + 1).
Proof.
  intros H. apply size_cases in H. repeat (destruct H as [->|H]; [repeat split; reflexivity|]). subst k. repeat split; reflexivity.
Qed.
Lemma lflags_spec k (b : bool) : k <= 7 -> let f := (if b then 64 else 0) + (128 + k) in
  byte_ok f /\ has_table f = true /\ table_colors f = 2 ^ (k + 1) /\ is_interlaced f = b.
Proof.
  intros H. apply size_cases in H. destruct b; repeat (destruct H as [->|H]; [repeat split; reflexivity|]); subst k; repeat split; reflexivity.
Qed.

Lemma padded_ok p flags : (colors p <= 256)%nat -> bytes_ok p -> has_table flags = true ->
  table_colors flags = 2 ^ (size_field (colors p) + 1) -> table_ok flags (padded p).
Proof.
  intros Hc Hb H1 H2. split.
  - unfold padded. apply bytes_ok_app. split; [now apply bytes_ok_firstn|apply bytes_ok_zeros].
  - rewrite H1, H2, padded_length by exact Hc. lia.
Qed.

Lemma cut_subs_ok l : l <> [] -> bytes_ok l -> subs_ok (cut_subs l).
Proof.
  intros Hl Hb. split; [intros E; apply cut_subs_nil in E; contradiction|].
  pose proof (cut_subs_sizes l) as H1. pose proof (cut_subs_bytes l Hb) as H2.
  apply Forall_forall. intros b Hin. split; [|exact (proj1 (Forall_forall _ _) H2 b Hin)].
  eapply Forall_forall in H1; [|exact Hin]. lia.
Qed.

Lemma control_blk_ok o g flags delay t : byte_ok flags -> u16_ok delay -> byte_ok t -> fits (o_limit o) 5 ->
  blk_ok o g (control_blk flags delay t).
Proof.
  intros H1 H2 H3 H4. split; [right; left; reflexivity|]. split.
  - split; [discriminate|]. constructor; [|constructor]. cbn [app word length]. split; [lia|].
    constructor; [exact H1|]. apply bytes_ok_app with (a := word delay). split; [now apply word_bytes|]. constructor; [exact H3|constructor].
  - split; [reflexivity|exact H4].
Qed.
Lemma control_flags_ok d b t : byte_ok (control_flags d b t).
Proof. unfold control_flags, byte_ok. destruct d, b, t; cbn; lia. Qed.
Lemma control_of_ok o g f : frame_rng f -> fits (o_limit o) 5 -> blk_ok o g (control_of f).
Proof.
  intros (R1 & R2 & R3 & R4 & R5 & R6 & _) H. apply control_blk_ok; try assumption; [apply control_flags_ok|].
  destruct (f_transparent f) as [t|]; [now apply R6|unfold byte_ok; lia].
Qed.

Lemma repeat_ok o g r : repeat_rng r -> r = RFinite 0 \/ fits (o_limit o) 15 -> Forall (blk_ok o g) (repeat_blks r).
Proof.
  intros R H. assert (Hl : forall n, u16_ok n -> fits (o_limit o) 15 -> blk_ok o g (loop_blk n)).
  { intros n Hn Hf. split; [right; right; right; reflexivity|]. split; [|split; [discriminate|exact Hf]].
    split; [discriminate|]. constructor; [split; [cbn [length]; lia|repeat constructor; unfold byte_ok; lia]|].
    constructor; [|constructor]. split; [cbn; lia|]. constructor; [unfold byte_ok; lia|]. now apply word_bytes. }
  destruct r as [n|]; [destruct n as [|p]; [constructor|]|]; (constructor; [|constructor]);
    apply Hl; try assumption; try (unfold u16_ok; lia); destruct H as [H|H]; try discriminate H; exact H.
Qed.

Lemma image_ok o g f m data : frame_rng f -> (forall p, f_palette f = Some p -> (colors p <= 256)%nat) ->
  has_table (g_flags g) = true -> 1 <= m <= 11 -> data <> [] -> bytes_ok data ->
  (o_check_frame_consistency o = true -> f_left f + f_width f <= g_w g /\ f_top f + f_height f <= g_h g) ->
  img_ok o g (image_of f m data).
Proof.
  intros (R1 & R2 & R3 & R4 & R5 & R6 & R7 & R8) Hp Hg Hm Hd Hb Hs.
  unfold img_ok, image_of. cbn [im_left im_top im_w im_h im_flags im_lct im_mcs im_subs].
  split; [exact R2|]. split; [exact R3|]. split; [exact R4|]. split; [exact R5|].
  assert (Hf : byte_ok ((if f_interlaced f then 64 else 0) + match f_palette f with Some p => 128 + size_field (colors p) | None => 0 end) /\
    table_ok ((if f_interlaced f then 64 else 0) + match f_palette f with Some p => 128 + size_field (colors p) | None => 0 end)
      (match f_palette f with Some p => padded p | None => [] end)).
  { destruct (f_palette f) as [p|].
    - destruct (lflags_spec (size_field (colors p)) (f_interlaced f)) as (K1 & K2 & K3 & _); [apply size_field_fits, Hp; reflexivity|].
      split; [exact K1|]. apply padded_ok; auto.
    - destruct (f_interlaced f); (split; [unfold byte_ok; cbn; lia|split; [constructor|reflexivity]]). }
  split; [apply Hf|]. split; [apply Hf|]. split; [exact Hm|]. split; [now apply cut_subs_ok|]. split; [exact Hs|]. right. exact Hg.
Qed.

(** ** Images of the written file *)
Definition op_image (o : enc_op) : option img :=
  match o with
  | OWriteFrame f => Some (image_of f (code_bits (f_buffer f)) (lz_encode L (code_bits (f_buffer f)) (f_buffer f)))
  | OWritePre f => match f_buffer f with [] => Some (image_of f 2 []) | m :: data => Some (image_of f m data) end
  | _ => None
  end.
Definition frame_ctl (f : frame) : ctl := mk_ctl (f_delay f) (f_dispose f) (f_transparent f) (f_needs_user_input f).

(** C05. *)
Lemma control_roundtrip f : u16_ok (f_delay f) ->
  ctl_of (payload [[control_flags (f_dispose f) (f_needs_user_input f) (f_transparent f)] ++ word (f_delay f) ++
    [match f_transparent f with Some t => t | None => 0 end]]) = frame_ctl f.
Proof.
  intros H. unfold payload, ctl_of, frame_ctl, word. cbn [concat app nth].
  assert (Hd : f_delay f mod 256 + 256 * (f_delay f / 256) = f_delay f) by lia. rewrite Hd.
  unfold control_flags. destruct (f_dispose f), (f_needs_user_input f), (f_transparent f); reflexivity.
Qed.

(** Control data in force after the calls so far do not reach a frame, which brings its own. *)
Lemma controlled_frame f m data c bs : u16_ok (f_delay f) ->
  controlled c (frame_blks f m data ++ bs) = (frame_ctl f, image_of f m data) :: controlled ctl_none bs.
Proof.
  intros H. unfold frame_blks, control_of, control_blk. cbn [app controlled N.eqb Pos.eqb]. rewrite <- control_roundtrip by exact H. reflexivity.
Qed.

Inductive shows : list enc_op -> list (ctl * img) -> Prop :=
| shows_nil : shows [] []
| shows_frame o f i ops l : frame_of o = Some f -> op_image o = Some i -> shows ops l -> shows (o :: ops) ((frame_ctl f, i) :: l)
| shows_other o ops l : frame_of o = None -> shows ops l -> shows (o :: ops) l.

Lemma controlled_shows ops : forall c, Forall op_rng ops -> shows ops (controlled c (flat_map (op_blocks L) ops)).
Proof.
  induction ops as [|op ops IH]; intros c Hr; [constructor|]. inversion Hr as [|? ? R1 R2]; subst. cbn [flat_map].
  destruct op as [r|f|f|l data|x].
  - assert (H : exists c', controlled c (op_blocks L (OSetRepeat r) ++ flat_map (op_blocks L) ops) = controlled c' (flat_map (op_blocks L) ops)).
    { destruct r as [[|p]|]; exists c; reflexivity. }
    destruct H as [c' ->]. apply shows_other; [reflexivity|]. now apply IH.
  - cbn [op_blocks]. rewrite controlled_frame by apply R1. apply shows_frame; [reflexivity|reflexivity|now apply IH].
  - cbn [op_blocks]. destruct (f_buffer f) as [|m data] eqn:Eb.
    + rewrite controlled_frame by apply R1. apply shows_frame; [reflexivity|cbn [op_image]; now rewrite Eb|now apply IH].
    + rewrite controlled_frame by apply R1. apply shows_frame; [reflexivity|cbn [op_image]; now rewrite Eb|now apply IH].
  - cbn [op_blocks app controlled]. apply shows_other; [reflexivity|]. now apply IH.
  - destruct x as [flags delay t|r].
    + cbn [op_blocks control_blk app controlled N.eqb Pos.eqb]. apply shows_other; [reflexivity|]. now apply IH.
    + assert (H : exists c', controlled c (op_blocks L (OExt (ERepetitions r)) ++ flat_map (op_blocks L) ops) = controlled c' (flat_map (op_blocks L) ops)).
      { destruct r as [[|p]|]; exists c; reflexivity. }
      destruct H as [c' ->]. apply shows_other; [reflexivity|]. now apply IH.
Qed.

(** Accepted frames have acceptable palettes. *)
Lemma op_ok_palette dbg gp op f : frame_of op = Some f -> op_result dbg gp op = Ok tt ->
  (forall p, f_palette f = Some p -> (colors p <= 256)%nat) /\ (f_palette f = None -> gp = true).
Proof.
  intros Hf Ho. assert (Hp : palette_error gp f = None).
  { destruct op as [r|f1|f1|l data|x]; try discriminate Hf; injection Hf as ->; cbn [op_result] in Ho.
    - destruct (len (f_buffer f) <? _); [discriminate|]. destruct (dbg && _ && _); [discriminate|]. destruct (palette_error gp f); [discriminate|reflexivity].
    - destruct (f_buffer f) as [|m data]; [|destruct ((2 <=? m) && (m <=? 11)); [|discriminate]]; destruct (palette_error gp f); try discriminate; reflexivity. }
  unfold palette_error in Hp. split.
  - intros p Ep. rewrite Ep in Hp. destruct (Nat.ltb_spec 256 (colors p)); [discriminate|assumption].
  - intros Ep. rewrite Ep in Hp. destruct gp; [reflexivity|discriminate].
Qed.
Lemma op_ok_pre dbg gp f m data : f_buffer f = m :: data -> op_result dbg gp (OWritePre f) = Ok tt -> 2 <= m <= 11.
Proof.
  intros Eb Ho. cbn [op_result] in Ho. rewrite Eb in Ho. destruct ((2 <=? m) && (m <=? 11)) eqn:E; [|discriminate].
  apply andb_true_iff in E. destruct E as [E1 E2]. apply N.leb_le in E1, E2. lia.
Qed.

Lemma payload_image f m data : payload (im_subs (image_of f m data)) = data.
Proof. apply cut_subs_concat. Qed.

Lemma image_holds o sw sh c f m data px : lz_pending S (lz_new L m) data px -> frame_readable o umax sw sh f px ->
  holds L S umax o (c, image_of f m data) px.
Proof.
  intros Hp (F1 & F2 & F3 & F4 & F5). unfold holds. cbn [snd]. rewrite payload_image.
  unfold frame_bytes, im_pixels, image_of. cbn [im_w im_h im_mcs].
  split; [exact Hp|]. split; [lia|].
  replace (N.of_nat (px_bytes (o_color o) * (N.to_nat (f_width f) * N.to_nat (f_height f)))) with
    (N.of_nat (px_bytes (o_color o)) * (f_width f * f_height f)) by lia. auto.
Qed.

Lemma image_interlaced f m data : (forall p, f_palette f = Some p -> (colors p <= 256)%nat) ->
  is_interlaced (im_flags (image_of f m data)) = f_interlaced f /\
  has_table (im_flags (image_of f m data)) = match f_palette f with Some _ => true | None => false end.
Proof.
  intros Hp. unfold image_of. cbn [im_flags]. destruct (f_palette f) as [p|].
  - destruct (lflags_spec (size_field (colors p)) (f_interlaced f)) as (_ & K2 & _ & K4); [apply size_field_fits, Hp; reflexivity|]. auto.
  - destruct (f_interlaced f); split; reflexivity.
Qed.

Lemma image_seen o pal g' f m data px : (forall p, f_palette f = Some p -> (colors p <= 256)%nat) ->
  has_table (g_flags g') = true -> g_gct g' = padded pal ->
  seen o g' (frame_ctl f, image_of f m data) px = wanted (o_color o) pal f px.
Proof.
  intros Hp H1 H2. destruct (image_interlaced f m data Hp) as [I1 I2].
  unfold seen, wanted, meta_frame, pal_of, im_picture. cbn [fst snd]. rewrite I1, I2, H1, H2.
  cbn [frame_ctl c_delay c_dispose c_transparent c_input image_of im_left im_top im_w im_h im_lct].
  destruct (f_palette f); reflexivity.
Qed.

Section Session.
Variables (o : options) (sw sh : N) (pal : list N) (dbg : bool) (ops : list enc_op).
Hypothesis Rw : u16_ok sw.
Hypothesis Rh : u16_ok sh.
Hypothesis Rp : bytes_ok pal.
Hypothesis Ro : Forall op_rng ops.
Hypothesis Hc : (colors pal <= 256)%nat.
Hypothesis Hok : Forall (fun op => op_result dbg (usable pal) op = Ok tt) ops.
Hypothesis Hread : Forall (call_readable o) ops.
Notation g := (enc_gif L sw sh pal ops).
Variable frames : list (frame * list N).
Hypothesis Hw : written S ops frames.
Hypothesis Hfr : Forall (fun p => frame_readable o umax sw sh (fst p) (snd p)) frames.

Lemma g_table : has_table (g_flags g) = true.
Proof. cbn [enc_gif g_flags]. apply gflags_spec. apply size_field_fits. exact Hc. Qed.

Lemma len_lt_false f : len (f_buffer f) <? f_width f * f_height f = false -> f_width f * f_height f <= N.of_nat (length (f_buffer f)).
Proof. intros H. apply N.ltb_ge in H. exact H. Qed.

Lemma enc_blocks_ok : Forall (blk_ok o g) (flat_map (op_blocks L) ops).
Proof.
  pose proof g_table as Hg. assert (Egw : g_w g = sw) by reflexivity. assert (Egh : g_h g = sh) by reflexivity.
  revert Hg Egw Egh. generalize g as g'. intros g' Hg Egw Egh. clear Rw Rh Rp Hc.
  revert frames Hw Hfr. induction ops as [|op l IH]; intros fr W F; [constructor|]. cbn [flat_map].
  inversion Ro as [|? ? R1 R2]; subst. inversion Hok as [|? ? O1 O2]; subst. inversion Hread as [|? ? C1 C2]; subst.
  inversion W as [|? f px ? l' Wf Wc Wr|? ? ? Wf Wr]; subst.
  - inversion F as [|? ? F1 F2]; subst. cbn [fst snd] in F1. apply Forall_app. split; [|exact (IH R2 O2 C2 _ Wr F2)].
    destruct (op_ok_palette _ _ _ _ Wf O1) as [P1 _]. destruct F1 as (F1 & F3 & F4 & _).
    destruct op as [r|f1|f1|lb data|x]; try discriminate Wf; injection Wf as ->; cbn [op_blocks op_rng] in *.
    + inversion Wc; subst. pose proof (code_bits_range (f_buffer f)) as Hm.
      assert (Hb : bytes_ok (f_buffer f)) by apply R1.
      pose proof (code_bits_fit _ Hb) as Hfit.
      constructor; [now apply control_of_ok|]. constructor; [|constructor]. apply image_ok; auto; try lia.
      * apply (lz_encode_nonempty L S); [lia|exact Hfit|]. intros E. rewrite E in F4. cbn [length] in F4. lia.
      * apply (lz_encode_bytes L S); [lia|exact Hfit].
    + destruct C1 as (m & b & data & Eb). rewrite Eb. assert (Hb : bytes_ok (f_buffer f)) by apply R1. rewrite Eb in Hb.
      pose proof (op_ok_pre _ _ _ _ _ Eb O1) as Hm.
      constructor; [now apply control_of_ok|]. constructor; [|constructor]. apply image_ok; auto; try lia; [discriminate|].
      now inversion Hb.
  - apply Forall_app. split; [|exact (IH R2 O2 C2 _ Wr F)].
    destruct op as [r|f1|f1|lb data|x]; try discriminate Wf; cbn [op_blocks op_rng call_readable] in *.
    + now apply repeat_ok.
    + constructor; [|constructor]. destruct R1 as [R1 R1']. destruct C1 as (C1 & C3 & C4 & C5).
      assert (Epl : payload (flat_map cut_subs data) = concat data).
      { unfold payload. clear. induction data as [|b data IH]; [reflexivity|]. cbn [flat_map concat]. now rewrite concat_app, cut_subs_concat, IH. }
      split; [exact C1|]. rewrite Epl. split; [|auto]. split.
      * intros E. apply C3. rewrite <- Epl, E. reflexivity.
      * apply Forall_forall. intros b Hin. apply in_flat_map in Hin. destruct Hin as (blk & Hb1 & Hb2).
        pose proof (cut_subs_sizes blk) as Hs. eapply Forall_forall in Hs; [|exact Hb2]. split; [lia|].
        assert (Hbb : bytes_ok blk) by exact (proj1 (Forall_forall _ _) R1' blk Hb1).
        pose proof (cut_subs_bytes blk Hbb) as Hs2. eapply Forall_forall in Hs2; [|exact Hb2]. exact Hs2.
    + destruct x as [flags delay t|r]; [|now apply repeat_ok].
      constructor; [|constructor]. destruct R1 as (R1 & R3 & R4). now apply control_blk_ok.
Qed.

Lemma enc_known : Forall known (flat_map (op_blocks L) ops).
Proof.
  clear. induction ops as [|op l IH]; [constructor|]. cbn [flat_map]. apply Forall_app. split; [|exact IH].
  destruct op as [[n|]|f|f|lb data|[fl de t|[n|]]]; cbn [op_blocks]; try (repeat constructor; fail).
  all: try (destruct (f_buffer _); repeat constructor; fail).
  all: unfold repeat_blks; repeat match goal with |- context [if ?b then _ else _] => destruct b end; repeat constructor.
Qed.
Lemma enc_gif_ok : flat_map (op_blocks L) ops <> [] -> gif_ok o g.
Proof.
  intros Hne. destruct (gflags_spec (size_field (colors pal))) as (K1 & K2 & K3); [apply size_field_fits; exact Hc|].
  split; [exact Rw|]. split; [exact Rh|]. split; [exact K1|]. split; [unfold byte_ok; cbn; lia|]. split; [unfold byte_ok; cbn; lia|].
  split; [apply padded_ok; auto|]. split; [exact Hne|]. split; [exact enc_blocks_ok|]. apply known_unknown. exact enc_known.
Qed.

(** The images of the file are the frames of the session. *)
Lemma shows_written g' : has_table (g_flags g') = true -> g_gct g' = padded pal ->
  forall l, shows ops l -> Forall2 (holds L S umax o) l (map snd frames) /\
    all_seen o g' l (map snd frames) = map (fun p => wanted (o_color o) pal (fst p) (snd p)) frames.
Proof.
  intros H1 H2. clear Hread Hc Rp Rw Rh. revert frames Hw Hfr. induction ops as [|op ops' IH]; intros fr W F l Hs.
  { inversion W; subst. inversion Hs; subst. split; [constructor|reflexivity]. }
  inversion Ro as [|? ? R1 R2]; subst. inversion Hok as [|? ? O1 O2]; subst.
  inversion W as [|? f px ? l' Wf Wc Wr|? ? ? Wf Wr]; subst; inversion Hs as [|? f' i ? l2 Sf Si Sr|? ? ? Sf Sr]; subst;
    rewrite Wf in Sf; try discriminate Sf.
  - injection Sf as <-. inversion F as [|? ? F1 F2]; subst. cbn [fst snd] in F1.
    destruct (op_ok_palette _ _ _ _ Wf O1) as [P1 _].
    destruct (IH R2 O2 _ Wr F2 _ Sr) as [I1 I2].
    assert (Hi : exists m data, i = image_of f m data /\ lz_pending S (lz_new L m) data px).
    { destruct op as [r|f1|f1|lb data|x]; try discriminate Wf; injection Wf as ->; cbn [op_image op_rng] in *.
      - injection Si as <-. eexists _, _. split; [reflexivity|]. inversion Wc; subst.
        apply (lz_encode_pending L S); [pose proof (code_bits_range (f_buffer f)); lia|]. apply code_bits_fit. apply R1.
      - inversion Wc as [|? m data ? Eb Hp]; subst. rewrite Eb in Si. injection Si as <-. eexists _, _. split; [reflexivity|exact Hp]. }
    destruct Hi as (m & data & -> & Hp). cbn [map]. split.
    + constructor; [|exact I1]. cbn [snd]. now apply image_holds with (sw := sw) (sh := sh).
    + unfold all_seen in *. cbn [combine map fst snd]. rewrite I2. f_equal. now apply image_seen.
  - exact (IH R2 O2 _ Wr F _ Sr).
Qed.

Lemma enc_images : Forall2 (holds L S umax o) (gif_images g) (map snd frames) /\
  all_seen o g (gif_images g) (map snd frames) = map (fun p => wanted (o_color o) pal (fst p) (snd p)) frames.
Proof. apply shows_written; [exact g_table|reflexivity|]. apply controlled_shows. exact Ro. Qed.

Lemma some_blocks : Exists writes_block ops -> flat_map (op_blocks L) ops <> [].
Proof.
  clear. induction 1 as [op ops' H|op ops' H IH]; cbn [flat_map]; intros E; apply app_eq_nil in E; destruct E as [E1 E2]; [|exact (IH E2)].
  destruct op as [[[|r]|]|f1|f1|lb data|[flags delay t|[[|r]|]]]; try contradiction; try discriminate E1.
  cbn [op_blocks] in E1. destruct (f_buffer f1); discriminate E1.
Qed.
Lemma frames_block : frames <> [] -> Exists writes_block ops.
Proof.
  clear Rw Rh Rp Ro Hc Hok Hread Hfr. induction Hw as [|op f px ops' l Wf Wc Wr IH|op ops' l Wf Wr IH]; intros Hne; [congruence| |].
  - apply Exists_cons_hd. destruct op as [r|f1|f1|lb data|x]; try discriminate Wf; exact I.
  - apply Exists_cons_tl. exact (IH Wr Hne).
Qed.
End Session.

(** ** Loop count *)
Lemma loop_of_blk n : u16_ok n ->
  loop_of (payload [[78; 69; 84; 83; 67; 65; 80; 69; 50; 46; 48]; 1 :: word n]) = Some (if n =? 0 then RInfinite else RFinite n).
Proof.
  intros H. unfold payload, word. cbn [concat app]. unfold loop_of. cbn [firstn length nth].
  assert (Hd : n mod 256 + 256 * (n / 256) = n) by lia. rewrite Hd. reflexivity.
Qed.
Lemma enc_loops ops : forall r, Forall op_rng ops -> Forall no_app_ext ops ->
  loops r (flat_map (op_blocks L) ops) = last_repeat r ops.
Proof.
  induction ops as [|op ops IH]; intros r Ro Hn; [reflexivity|].
  inversion Ro as [|? ? R1 R2]; subst. inversion Hn as [|? ? N1 N2]; subst.
  assert (Hl : forall n, repeat_rng n -> loops r (repeat_blks n ++ flat_map (op_blocks L) ops) =
     last_repeat (match n with RFinite 0 => r | _ => n end) ops).
  { intros n Rn. destruct n as [[|p]|]; cbn [repeat_blks app]; [now apply IH| |];
      cbn [loops loop_blk N.eqb Pos.eqb]; rewrite loop_of_blk by (exact Rn || (unfold u16_ok; lia)); cbn [N.eqb]; now apply IH. }
  destruct op as [n|f|f|l data|[flags delay t|n]]; cbn [flat_map op_blocks last_repeat op_rng no_app_ext] in *.
  - now apply Hl.
  - reflexivity.
  - destruct (f_buffer f); reflexivity.
  - cbn [app loops]. destruct (N.eqb_spec l 0xFF); [congruence|]. now apply IH.
  - cbn [app loops control_blk N.eqb Pos.eqb]. now apply IH.
  - now apply Hl.
Qed.

(** ** The round trip *)
Theorem round_trip o w sw sh pal dbg ops e1 e2 e3 w3 frames tl src n :
  u16_ok sw -> u16_ok sh -> bytes_ok pal -> Forall op_rng ops ->
  encoder_new w sw sh pal = (e1, Ok tt) -> run_ops L dbg e1 ops = (e2, Ok tt) -> into_inner e2 = (e3, Ok w3) ->
  w_out w = [] -> delivers src (w_out w3 ++ tl) ->
  Forall (call_readable o) ops -> written S ops frames -> Exists writes_block ops ->
  Forall (fun p => frame_readable o umax sw sh (fst p) (snd p)) frames ->
  o_skip_frame_decoding o = false -> o_check_for_end_code o = false -> (length frames < n)%nat ->
  exists d d', read_info L src o = Ok d /\
    dec_width L d = sw /\ dec_height L d = sh /\ dec_global_palette L d = Some (padded pal) /\
    (Forall no_app_ext ops -> dec_repeat L d = last_repeat (RFinite 0) ops) /\
    read_all L umax n d = (d', map (fun p => wanted (o_color o) pal (fst p) (snd p)) frames, Ok false) /\
    rd_rest L (dc_rd L d') = tl.
Proof.
  intros Rw Rh Rp Ro H1 H2 H3 Hw0 Hsrc Hread Hwr Hne Hfr N1 N2 Hn.
  destruct (session_ok L dbg w sw sh pal ops e1 e2 e3 w3 Rw Rh Ro H1 H2 H3) as (Hout & _ & Hc & Hok).
  rewrite Hw0 in Hout. cbn [app] in Hout.
  assert (Etl : w_out w3 ++ tl = ser_gif (enc_gif L sw sh pal ops) tl).
  { rewrite Hout. unfold ser_gif. rewrite <- !app_assoc. reflexivity. }
  rewrite Etl in Hsrc.
  pose proof (enc_gif_ok o sw sh pal dbg ops Rw Rh Rp Ro Hc Hok Hread frames Hwr Hfr (some_blocks ops Hne)) as Hg.
  destruct (enc_images o sw sh pal dbg ops Ro Hc Hok frames Hwr Hfr) as [Ho Hs].
  destruct (file_info L S umax Humax o _ tl src Hg Hsrc) as (d & E & I1 & I2 & I3 & I4 & I5).
  destruct (file_frames L S umax Humax o _ tl src (map snd frames) n Hg Hsrc N1 N2 Ho) as (d0 & d' & E0 & Er & Et); [now rewrite map_length|].
  rewrite E in E0. injection E0 as <-.
  exists d, d'. split; [exact E|]. split; [exact I1|]. split; [exact I2|]. split.
  { rewrite I3. unfold gif_palette. rewrite g_table by exact Hc. reflexivity. }
  split. { intros Hna. rewrite I5. unfold gif_repeat. cbn [enc_gif g_blocks]. now apply enc_loops. }
  rewrite Er, Hs. split; [reflexivity|exact Et].
Qed.
End RT.
