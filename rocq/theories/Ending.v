(** With the check for end codes, all frames are read only if the data of every image have one. *)
From Verif Require Import Base Common Lzw LzwEnds Encoder Stream Converter Reader StreamInv ConvInv DecoderSafe CanonReader DocAll
  SpecGif SpecAccept SpecCount Accept AcceptDec AcceptUnique DocRead SpecOptions Relax Sound SoundAcc.
Open Scope N_scope.

Section En.
Variable L : lzw_codec.
Variable S : lzw_spec L.
Variable Y : lzw_ends S.
Variable o : options.
Hypothesis check_on : o_check_for_end_code o = true.
Notation lzr := (lzw_reader L).

Definition has_end (m : N) (p : list N) : Prop := o_skip_frame_decoding o = false -> lz_ends Y (lz_new L m) p.
(** The reader checks, and its codec was made for the code size that it remembers. *)
Definition sized (r : lzr) : Prop :=
  lr_check L r = true /\ match lr_decoder L r with Some d => lz_size S d (lr_min_code_size L r) | None => True end.
(** All data went into the codec. *)
Definition fed (r : lzr) (m : N) (p : list N) : Prop :=
  lr_check L r = true /\ exists d, lr_decoder L r = Some d /\ forall b, lz_ends Y d b -> lz_ends Y (lz_new L m) (p ++ b).
(** Some did not. *)
Definition passed (r : lzr) (m : N) (p : list N) : Prop :=
  lr_check L r = true /\ exists d, lr_decoder L r = Some d /\ (lz_ends Y d [] -> lz_ends Y (lz_new L m) p).

Lemma fed_passed r m p : fed r m p -> passed r m p.
Proof. intros (A & d & B & C). split; [exact A|]. exists d. split; [exact B|]. intros H. specialize (C [] H). now rewrite app_nil_r in C. Qed.
Lemma sized_reset r m r' x : sized r -> lr_reset L r m = (r', x) -> sized r'.
Proof.
  unfold sized, lr_reset. intros [A B] H. destruct (check_code_size m); [|injection H as <- _; auto].
  destruct (lr_decoder L r) as [d|] eqn:E; [|injection H as <- _; cbn; split; [exact A|apply lz_size_new]].
  destruct (negb _); injection H as <- _; cbn; (split; [exact A|]); [apply lz_size_new|now apply lz_size_reset].
Qed.
Lemma sized_decode r data ob r' ob' x : sized r -> lr_decode_bytes L r data ob = (r', ob', x) -> sized r'.
Proof.
  unfold sized, lr_decode_bytes. intros [A B] H. destruct (lr_decoder L r) as [d|] eqn:E; [|injection H as <- _ _; rewrite E; auto].
  destruct ob; try (injection H as <- _ _; rewrite E; auto; fail).
  all: match type of H with context [lz_decode L ?d0 ?x0 ?n] => destruct (lz_decode L d0 x0 n) as [d' [[k w] st]] eqn:Ed end;
    destruct st; try destruct (lr_check L r) eqn:Ec; injection H as <- _ _; cbn; (split; [congruence|eapply lz_size_decode; eassumption]).
Qed.
Lemma fed_start r m r' : sized r -> lr_reset L r m = (r', Ok tt) -> fed r' m [].
Proof.
  unfold sized, fed, lr_reset. intros [A B] H. destruct (check_code_size m); [|discriminate H].
  destruct (lr_decoder L r) as [d|] eqn:E; [|injection H as <-; cbn; split; [exact A|]; eexists; split; [reflexivity|auto]].
  destruct (N.eqb_spec (lr_min_code_size L r) m) as [<-|Hm]; injection H as <-; cbn; (split; [exact A|]); eexists; (split; [reflexivity|auto]).
  intros b Hb. cbn [app]. eapply le_reset; eassumption.
Qed.
(** A call that succeeds. *)
Lemma decode_cases r data ob r1 ob1 c w : lr_check L r = true -> lr_decode_bytes L r data ob = (r1, ob1, Ok (c, w)) ->
  exists d d' k out, lr_decoder L r = Some d /\ lr_decoder L r1 = Some d' /\ lr_check L r1 = true /\ w = length out /\
    (exists st, lz_decode L d data k = (d', (c, out, st)) /\ st <> LzInvalid /\ st <> LzNoProgress).
Proof.
  unfold lr_decode_bytes. intros Hc H. destruct (lr_decoder L r) as [d|] eqn:E; [|discriminate H].
  destruct ob; try discriminate H.
  all: match type of H with context [lz_decode L ?d0 ?x0 ?n] => destruct (lz_decode L d0 x0 n) as [d' [[k out] st]] eqn:Ed end;
    rewrite Hc in H; destruct st; try discriminate H; injection H as <- _ <- <-;
    exists d, d'; eexists; exists out; (split; [reflexivity|]); (split; [reflexivity|]); (split; [reflexivity|]); (split; [reflexivity|]);
    eexists; (split; [exact Ed|]); split; discriminate.
Qed.
Lemma fed_skip r m p x : lr_has_ended L r = true -> fed r m p -> fed r m (p ++ x).
Proof.
  intros He (A & d & B & C). split; [exact A|]. exists d. split; [exact B|]. intros b _. rewrite <- app_assoc. apply C.
  unfold lr_has_ended in He. rewrite B in He. now apply le_ended.
Qed.
Lemma fed_decode r m p data ob r1 ob1 c w : lr_decode_bytes L r data ob = (r1, ob1, Ok (c, w)) -> fed r m p ->
  fed r1 m (p ++ firstn (if (c =? 0)%nat && (w =? 0)%nat then length data else c) data).
Proof.
  intros H (A & d & B & C). destruct (decode_cases _ _ _ _ _ _ _ A H) as (d0 & d' & k & out & E1 & E2 & E3 & -> & st & E4 & E5 & E6).
  rewrite B in E1. injection E1 as <-. split; [exact E3|]. exists d'. split; [exact E2|]. intros b Hb. rewrite <- app_assoc. apply C.
  destruct (Nat.eqb_spec c 0) as [->|Hc]; cbn [andb]; [|eapply le_step; eassumption].
  destruct (Nat.eqb_spec (length out) 0) as [Eo|Ho]; [|exact (le_step _ Y _ _ _ _ _ _ _ _ E4 Hb)].
  apply length_zero_iff_nil in Eo. subst out. rewrite firstn_all.
  destruct (lz_ended L d') eqn:Ee.
  - apply (le_step _ Y d data (data ++ b) k d' 0%nat [] st E4). now apply le_ended.
  - destruct (le_tells _ Y _ _ _ _ _ E4 Ee); contradiction.
Qed.
(** The call at the end of the data. *)
Lemma drain_cases r ob r1 ob1 c w : lr_check L r = true -> lr_decode_bytes L r [] ob = (r1, ob1, Ok (c, w)) ->
  exists d d', lr_decoder L r = Some d /\ lr_decoder L r1 = Some d' /\ lr_check L r1 = true /\
    (forall b, lz_ends Y d' b -> lz_ends Y d b) /\ (w = 0%nat -> lz_ends Y d []).
Proof.
  intros A H. destruct (decode_cases _ _ _ _ _ _ _ A H) as (d & d' & k & out & E1 & E2 & E3 & -> & st & E4 & E5 & E6).
  exists d, d'. split; [exact E1|]. split; [exact E2|]. split; [exact E3|].
  assert (Hs : forall b, lz_ends Y d' b -> lz_ends Y d b).
  { intros b Hb. pose proof (le_step _ Y _ _ _ _ _ _ _ _ E4 Hb) as Q. rewrite firstn_nil in Q. exact Q. }
  split; [exact Hs|]. intros Eo. apply length_zero_iff_nil in Eo. subst out.
  assert (c = 0%nat) by (destruct (lz_is_safe _ S _ _ _ _ _ _ _ E4) as [Q _]; cbn in Q; lia). subst c.
  destruct (lz_ended L d') eqn:Ee; [apply Hs; now apply le_ended|]. destruct (le_tells _ Y _ _ _ _ _ E4 Ee); contradiction.
Qed.
Lemma passed_drain r m p ob r1 ob1 c w : lr_decode_bytes L r [] ob = (r1, ob1, Ok (c, w)) -> passed r m p ->
  if (w =? 0)%nat then has_end m p else passed r1 m p.
Proof.
  intros H (A & d & B & C). destruct (drain_cases _ _ _ _ _ _ A H) as (d0 & d' & E1 & E2 & E3 & E4 & E5).
  rewrite B in E1. injection E1 as <-. destruct (Nat.eqb_spec w 0) as [E|E].
  - intros _. auto.
  - split; [exact E3|]. exists d'. auto.
Qed.
Lemma fed_drain r m p ob r1 ob1 c w : lr_decode_bytes L r [] ob = (r1, ob1, Ok (c, w)) -> fed r m p ->
  if (w =? 0)%nat then has_end m p else fed r1 m p.
Proof.
  intros H Hf. pose proof (passed_drain _ _ _ _ _ _ _ _ H (fed_passed _ _ _ Hf)) as Q. destruct (w =? 0)%nat; [exact Q|].
  destruct Hf as (A & d & B & C). destruct (drain_cases _ _ _ _ _ _ A H) as (d0 & d' & E1 & E2 & E3 & E4 & E5).
  rewrite B in E1. injection E1 as <-. split; [exact E3|]. exists d'. auto.
Qed.
Lemma fed_slice s : keeps L has_end fed (OSlice s).
Proof.
  split; [|split].
  - intros r m p x H. rewrite orb_false_r in H. now apply fed_skip.
  - intros r m p data r1 ob1 c w _ H Hf. eapply fed_decode; eassumption.
  - intros r m p r1 ob1 c w H Hf. eapply fed_drain; eassumption.
Qed.
Lemma passed_more r m p x : passed r m p -> passed r m (p ++ x).
Proof. intros (A & d & B & C). split; [exact A|]. exists d. split; [exact B|]. intros H. apply le_more. auto. Qed.
Lemma passed_none : keeps L has_end passed ONone.
Proof.
  split; [|split].
  - intros r m p x _. apply passed_more.
  - intros r m p data r1 ob1 c w H. now rewrite orb_true_r in H.
  - intros r m p r1 ob1 c w H Hf. eapply passed_drain; eassumption.
Qed.
Lemma fed_vec v : keeps L has_end fed (OVec v).
Proof.
  split; [|split].
  - intros r m p x H. rewrite orb_false_r in H. now apply fed_skip.
  - intros r m p data r1 ob1 c w _ H. unfold lr_decode_bytes in H. destruct (lr_decoder L r); discriminate H.
  - intros r m p r1 ob1 c w H. unfold lr_decode_bytes in H. destruct (lr_decoder L r); discriminate H.
Qed.

Variable umax : N.
Hypothesis Humax : 2 ^ 32 - 1 <= umax.
Lemma no_skip_ends : o_skip_frame_decoding o = false -> forall g,
  Forall (fun b => match b with BImg i => has_end (im_mcs i) (payload (im_subs i)) | _ => True end) (g_blocks g) ->
  Forall (fun b => match b with BImg i => lz_ends Y (lz_new L (im_mcs i)) (payload (im_subs i)) | _ => True end) (g_blocks g).
Proof. intros Hk g. apply Forall_impl. intros [l subs|i|t subs]; [auto| |auto]. intros Q. exact (Q Hk). Qed.
Theorem read_ends src d n d' fs : src_ok src -> limit_ok umax (o_limit o) -> o_skip_frame_decoding o = false ->
  read_info L src o = Ok d -> read_all L umax n d = (d', fs, Ok false) ->
  exists g tl, concat (map ev_bytes src) = ser_gif g tl /\ file_acc true o g tl /\
    Forall (fun b => match b with BImg i => lz_ends Y (lz_new L (im_mcs i)) (payload (im_subs i)) | _ => True end) (g_blocks g).
Proof.
  intros Hs Hl Hk Hi H.
  assert (Hskip : o_skip_frame_decoding o = true -> forall m p, has_end m p) by (intros Q; congruence).
  assert (Hnew : sized (lr_new L (o_check_for_end_code o))) by (split; [exact check_on|exact I]).
  destruct (read_whole L (lz_is_safe _ S) umax Humax o _ (src_bytes _ Hs) has_end Hskip sized sized_reset sized_decode fed passed fed_start fed_passed
    fed_slice passed_none fed_vec Hnew src d n d' fs Hs eq_refl Hl Hi H) as (g & tl & E & F & G).
  exists g, tl. split; [exact E|]. split; [exact F|]. now apply no_skip_ends.
Qed.
Theorem calls_end src d os d' ys : src_ok src -> limit_ok umax (o_limit o) -> o_skip_frame_decoding o = false -> Forall (op_ok umax) os ->
  read_info L src o = Ok d -> run_dops L umax d os = (d', ys) -> Forall went_well ys -> In (OutBool (Ok false)) ys ->
  exists g tl, concat (map ev_bytes src) = ser_gif g tl /\ file_acc true o g tl /\
    Forall (fun b => match b with BImg i => lz_ends Y (lz_new L (im_mcs i)) (payload (im_subs i)) | _ => True end) (g_blocks g).
Proof.
  intros Hs Hl Hk Ho Hi H Hy Hin.
  assert (Hskip : o_skip_frame_decoding o = true -> forall m p, has_end m p) by (intros Q; congruence).
  assert (Hnew : sized (lr_new L (o_check_for_end_code o))) by (split; [exact check_on|exact I]).
  destruct (calls_whole L (lz_is_safe _ S) umax Humax o _ (src_bytes _ Hs) has_end Hskip sized sized_reset sized_decode fed passed fed_start fed_passed
    fed_slice passed_none fed_vec Hnew src d os d' ys Hs eq_refl Hl Ho Hi H Hy Hin) as (g & tl & E & F & G).
  exists g, tl. split; [exact E|]. split; [exact F|]. now apply no_skip_ends.
Qed.
End En.

(** A well-formed file with an image without an end code is refused: the frames before it at most, then [InvalidData]. *)
Theorem endless_refused : forall L umax o, o_check_for_end_code o = true -> forall (S : lzw_spec L) (Y : lzw_ends S), 2 ^ 32 - 1 <= umax ->
  forall g tl src outs n, gif_ok o g -> delivers src (ser_gif g tl) -> o_skip_frame_decoding o = false -> limit_ok umax (o_limit o) ->
  Forall2 (holds L S umax o) (gif_images g) outs -> (length outs < n)%nat ->
  Exists (fun b => match b with BImg i => ~ lz_ends Y (lz_new L (im_mcs i)) (payload (im_subs i)) | _ => False end) (g_blocks g) ->
  exists d d' fs rest, read_info L src o = Ok d /\ read_all L umax n d = (d', fs, Err (DIo InvalidData)) /\
    all_seen o g (gif_images g) outs = fs ++ rest.
Proof.
  intros L umax o Hc S Y Hu g tl src outs n Hg Hd Hk Hl Ho Hn Hx.
  destruct (end_check_frames L umax o Hc S Hu g tl src outs n Hg Hd Hk Ho Hn) as (d & d' & fs & rest & x & E & F & G & [[-> _]| ->]).
  2:{ eauto 10. }
  exfalso. destruct Hd as (D1 & D2 & D3).
  destruct (read_ends L S Y o Hc umax Hu src d n d' fs D1 Hl Hk E F) as (g' & tl' & E1 & E2 & E3). rewrite D3 in E1.
  destruct (file_unique _ _ _ _ _ _ _ _ (ok_file_acc o g tl Hg) E2 E1) as [<- _].
  clear - Hx E3. induction Hx as [b bs Hb|b bs _ IH]; inversion E3; subst; [|auto]. destruct b; auto.
Qed.
