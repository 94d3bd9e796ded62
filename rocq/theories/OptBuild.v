(** The options builder (C60): proofs. *)
From Verif Require Import Base Common Lzw Encoder Stream Converter Reader StreamInv Steps StepsRev
  ReaderInv Interlace Ranges ConvInv DecoderSafe Canon CanonReader SpecGif DocTrace DocBlocks SpecPixels
  Pixels PixelRead DocRead DocAll Mixed SpecVerdict Verdict Rewrite SpecBuild.
Open Scope nat_scope.

Lemma last_set_fold {A} (pick : opt_call -> option A) (field : options -> A) :
  (forall o c, field (opt_apply o c) = match pick c with Some v => v | None => field o end) ->
  forall cs o, last_set pick (field o) cs (field (configure o cs)).
Proof.
  intros H cs. induction cs as [|c cs IH]; intros o; [right; split; [reflexivity|intros x []]|].
  unfold configure in *. cbn [fold_left]. destruct (IH (opt_apply o c)) as [(a & c' & b & -> & E1 & E2)|[E1 E2]].
  - left. exists (c :: a), c', b. auto.
  - rewrite E1, H. destruct (pick c) as [v|] eqn:E.
    + left. exists [], c, cs. auto.
    + right. split; [reflexivity|]. intros x [<-|Hx]; [exact E|auto].
Qed.
Lemma configured cs : settings_of cs (configure options_new cs).
Proof.
  unfold settings_of. repeat split;
    match goal with |- last_set ?p _ _ (?f _) => apply (last_set_fold p f) end; intros [] []; reflexivity.
Qed.
Lemma last_set_unique {A} (pick : opt_call -> option A) dflt cs v w :
  last_set pick dflt cs v -> last_set pick dflt cs w -> v = w.
Proof.
  intros [(a & c & b & -> & E1 & E2)|[-> N1]] [(a' & c' & b' & E & E3 & E4)|[-> N2]].
  - revert a' E. induction a as [|x a IH]; intros [|x' a'] E; cbn [app] in E; injection E as Ex E; subst.
    + congruence.
    + rewrite (E2 c') in E3 by (apply in_or_app; right; left; reflexivity). discriminate.
    + rewrite (E4 c) in E1 by (apply in_or_app; right; left; reflexivity). discriminate.
    + eapply IH. exact E.
  - rewrite (N2 c) in E1 by (apply in_or_app; right; left; reflexivity). discriminate.
  - subst cs. rewrite (N1 c') in E3 by (apply in_or_app; right; left; reflexivity). discriminate.
  - reflexivity.
Qed.

Section File.
Variable L : lzw_codec.
Variable S : lzw_spec L.
Variable umax : N.
Hypothesis Humax : (2 ^ 64 - 1 <= umax)%N.

Lemma size_small o g i : img_ok o g i -> (N.of_nat (frame_bytes o i) < 2 ^ 40)%N.
Proof.
  intros (_ & _ & Hw & Hh & _). unfold u16_ok in *. unfold frame_bytes, im_pixels.
  rewrite !Nat2N.inj_mul, !N2Nat.id.
  assert (Hp : (N.of_nat (px_bytes (o_color o)) <= 4)%N) by (destruct (o_color o); cbn; lia).
  assert (Hm : (im_w i * im_h i < 2 ^ 32)%N) by nia.
  change (2 ^ 40)%N with 1099511627776%N. change (2 ^ 32)%N with 4294967296%N in *. nia.
Qed.

Lemma images_img_ok o g : gif_ok o g -> Forall (fun ci => img_ok o g (snd ci)) (gif_images g).
Proof. intros H. eapply Forall_impl; [|apply images_rng; exact H]. intros ci [_ Hi]. exact Hi. Qed.

Theorem configured_frames cs g tl src outs : gif_ok (configure options_new cs) g -> delivers src (ser_gif g tl) ->
  last_set p_skip false cs false -> last_set p_end false cs false ->
  Forall2 (one_frame L S) (gif_images g) outs ->
  exists d d' rs, read_info L src (configure options_new cs) = Ok d /\
    read_each L umax d (map (fun _ => HFrame) outs) = (d', rs, Ok false) /\
    forall l c, last_set p_limit (Some 50000000%N) cs l -> last_set p_color CIndexed cs c ->
    Forall2 (fun cm r => delivered l c g (fst cm) (snd cm) r) (combine (gif_images g) outs) rs.
Proof.
  intros Hg Hd Hsk Hen Ho. set (o := configure options_new cs) in *.
  destruct (configured cs) as (Q1 & Q2 & Q3 & Q4 & Q5 & Q6). fold o in Q1, Q2, Q3, Q4, Q5, Q6.
  pose proof (last_set_unique _ _ _ _ _ Q4 Hsk) as N1. pose proof (last_set_unique _ _ _ _ _ Q5 Hen) as N2.
  assert (Hu : (2 ^ 32 - 1 <= umax)%N) by (clear -Humax; change (2 ^ 64 - 1)%N with 18446744073709551615%N in *; change (2 ^ 32 - 1)%N with 4294967295%N; lia).
  assert (Hl : limit_ok umax (o_limit o)).
  { left. change (2 ^ 64 - 1)%N with 18446744073709551615%N in Humax. pose proof (N.div_le_mono _ _ 2 ltac:(discriminate) Humax) as H.
    change (18446744073709551615 / 2)%N with 9223372036854775807%N in H. lia. }
  assert (Hm : Forall2 (asked L S umax o) (gif_images g) (map (fun out => (HFrame, out)) outs)).
  { clear -Ho. induction Ho as [|ci out cis outs [H1 H2] _ IH]; cbn [map]; constructor; [|exact IH].
    split; [intros _; exact H1|exact H2]. }
  destruct (file_verdicts L S umax Hu o g tl src _ Hg Hd N1 N2 Hl Hm) as (d & d' & rs & E1 & E2 & _ & T).
  exists d, d', rs. split; [exact E1|]. split. { rewrite map_map in E2. exact E2. }
  intros l c Hl1 Hc1. rewrite <- (last_set_unique _ _ _ _ _ Q1 Hl1), <- (last_set_unique _ _ _ _ _ Q2 Hc1).
  pose proof (images_img_ok o g Hg) as Hi. clear -T Hi Humax. revert rs outs T.
  induction (gif_images g) as [|ci cis IH]; intros rs outs T; [inversion T; constructor|].
  destruct outs as [|out outs]; [inversion T; constructor|]. cbn [map combine] in *.
  inversion Hi as [|? ? Hi1 Hi2]; subst. inversion T as [|? r ? rs' T1 T2]; subst. constructor; [|apply IH; assumption].
  clear -T1 Hi1 Humax. cbn [fst snd] in *. destruct r as [[f b] x]. unfold told in T1. unfold delivered. cbn [fst snd].
  pose proof (size_small o g (snd ci) Hi1) as Hs. unfold frame_verdict in T1.
  assert (Es : N.of_nat (frame_bytes o (snd ci)) = (N.of_nat (px_bytes (o_color o)) * im_w (snd ci) * im_h (snd ci))%N).
  { unfold frame_bytes, im_pixels. rewrite !Nat2N.inj_mul, !N2Nat.id. ring. }
  rewrite Es in *. set (size := (N.of_nat (px_bytes (o_color o)) * im_w (snd ci) * im_h (snd ci))%N) in *.
  replace (umax <? size)%N with false in T1.
  2:{ symmetry. apply N.ltb_ge. change (2 ^ 64 - 1)%N with 18446744073709551615%N in Humax. change (2 ^ 40)%N with 1099511627776%N in Hs. lia. }
  cbn [orb] in T1. destruct (match o_limit o with Some n => (n <? size)%N | None => false end); [exact T1|].
  replace (length out <? im_pixels (snd ci)) with (len out <? im_w (snd ci) * im_h (snd ci))%N in T1; [destruct (len out <? im_w (snd ci) * im_h (snd ci))%N; exact T1|].
  unfold len, im_pixels. clear. rewrite <- N2Nat.inj_mul. destruct (Nat.ltb_spec (length out) (N.to_nat (im_w (snd ci) * im_h (snd ci)))), (N.ltb_spec (N.of_nat (length out)) (im_w (snd ci) * im_h (snd ci))); try reflexivity; lia.
Qed.
End File.
