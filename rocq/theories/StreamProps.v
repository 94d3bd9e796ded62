(** The streaming decoder driven by a caller: [update] returns, and events follow the grammar. *)
From Verif Require Import Base Common Lzw Encoder Stream Converter Reader StreamInv Steps ReaderInv Ranges SpecStream.
Open Scope N_scope.

(** ** The grammar, on its own *)
Lemma phase_run_app unk evs1 : forall evs2 p, phase_run unk p (evs1 ++ evs2) =
  match phase_run unk p evs1 with Some p' => phase_run unk p' evs2 | None => None end.
Proof.
  induction evs1 as [|d evs1 IH]; intros evs2 p; cbn [phase_run app]; [reflexivity|].
  destruct (phase_step unk p d); [apply IH|reflexivity].
Qed.
Definition after_header (p : phase) : bool :=
  match p with PStart | PPalette => false | PBetween h _ | PExt h => h | _ => true end.
Lemma step_header unk p d p' : phase_step unk p d = Some p' ->
  (d = DHeaderEnd /\ after_header p = false /\ after_header p' = true) \/ (d <> DHeaderEnd /\ after_header p' = after_header p).
Proof.
  destruct p as [ | |[|] [|]|[|]| | | ], d as [ | | | | |[ | | ]| | | | | | ]; cbn; intros H; try discriminate H;
    try (destruct unk; try discriminate H); injection H as <-; auto;
    right; (split; [discriminate|reflexivity]).
Qed.
Definition is_header_end (d : decoded) : bool := match d with DHeaderEnd => true | _ => false end.
Lemma run_header unk evs : forall p p', phase_run unk p evs = Some p' ->
  (length (filter is_header_end evs) + (if after_header p then 1 else 0) = if after_header p' then 1 else 0)%nat.
Proof.
  induction evs as [|d evs IH]; intros p p' H; cbn [phase_run] in H.
  { injection H as <-. reflexivity. }
  destruct (phase_step unk p d) as [p1|] eqn:E; [|discriminate H]. apply IH in H.
  destruct (step_header _ _ _ _ E) as [(-> & E1 & E2)|(E1 & E2)].
  - rewrite E1. rewrite E2 in H. cbn [filter is_header_end length]. lia.
  - rewrite E2 in H. destruct d; try exact H. congruence.
Qed.

(** What the grammar says about headers, images and the trailer. *)
Lemma grammar_header unk evs p : phase_run unk PStart evs = Some p -> (length (filter is_header_end evs) <= 1)%nat.
Proof. intros H. apply run_header in H. cbn [after_header] in H. destruct (after_header p); lia. Qed.
Lemma grammar_after_header unk a d b p : phase_run unk PStart (a ++ d :: b) = Some p ->
  (d = DBlockStart BkImage \/ d = DBlockStart BkTrailer \/ (exists t, d = DFrameMetadata t) \/
   (exists k, d = DBytesDecoded k) \/ (exists k, d = DLzwDataCopied k) \/ d = DDataEnd) ->
  In DHeaderEnd a.
Proof.
  intros H Hd. rewrite phase_run_app in H. destruct (phase_run unk PStart a) as [p1|] eqn:E; [|discriminate H].
  cbn [phase_run] in H. destruct (phase_step unk p1 d) as [p2|] eqn:E2; [|discriminate H].
  assert (Ha : after_header p1 = true).
  { destruct Hd as [->|[->|[(t & ->)|[(k & ->)|[(k & ->)| ->]]]]]; destruct p1 as [ | |[|] [|]|[|]| | | ]; try discriminate E2; reflexivity. }
  apply run_header in E. rewrite Ha in E. cbn [after_header] in E.
  destruct (filter is_header_end a) as [|x l] eqn:Ef; [cbn [length] in E; lia|].
  assert (Hin : In x (filter is_header_end a)) by (rewrite Ef; now left). apply filter_In in Hin.
  destruct Hin as [Hin Hx]. destruct x; try discriminate Hx. exact Hin.
Qed.
Lemma end_stays unk evs : forall p, phase_run unk PEnd evs = Some p -> Forall (eq DNothing) evs.
Proof.
  induction evs as [|d evs IH]; intros p H; cbn [phase_run] in H; [constructor|].
  destruct d; try discriminate H. constructor; [reflexivity|]. eapply IH. exact H.
Qed.
Lemma grammar_trailer_last unk a b p : phase_run unk PStart (a ++ DBlockStart BkTrailer :: b) = Some p ->
  Forall (eq DNothing) b.
Proof.
  intros H. rewrite phase_run_app in H. destruct (phase_run unk PStart a) as [p1|]; [|discriminate H].
  cbn [phase_run] in H. destruct p1 as [ | |[|] [|]|[|]| | | ]; try discriminate H; cbn in H; eapply end_stays; exact H.
Qed.

Section SP.
Variable L : lzw_codec.
Hypothesis safe : lzw_safe L.
Notation sd := (sd L).

(** ** The decoder follows the grammar *)
Definition at_phase (p : phase) (s : sd) : Prop :=
  match p, sd_state L s with
  | PStart, (Magic | ScreenDescriptor) => sd_header_end L s = false
  | PPalette, GlobalPalette _ => sd_header_end L s = false
  | PBetween h _, (BlockStart _ | BlockEnd) => sd_header_end L s = h
  | PBetween h true, ApplicationExtension => sd_header_end L s = h
  | PBetween true _, ExtensionDataBlock _ => sd_header_end L s = true /\ o_allow_unknown_blocks (sd_opts L s) = true
  | PExt h, (ExtensionBlockStart | ExtensionDataBlock _) => sd_header_end L s = h
  | PImage, (ImageBlockStart | LocalPalette _ | LzwInit _) => sd_header_end L s = true
  | PData, (DecodeSubBlock _ | CopySubBlock _ | FrameDecoded) => sd_header_end L s = true
  | PEnd, Trailer => sd_header_end L s = true
  | _, _ => False
  end.

Lemma ext_app x : extension_from_u8 x = Some XApplication -> (x =? 0xFF) = true.
Proof.
  unfold extension_from_u8. destruct (x =? 1); [discriminate|]. destruct (x =? 0xF9); [discriminate|].
  destruct (x =? 0xFE); [discriminate|]. destruct (x =? 0xFF); [reflexivity|discriminate].
Qed.

Ltac phases p := destruct p as [ | |[|] [|]|[|]| | | ].
Lemma nst_phase s buf ob s' ob' r p : nst L s buf ob s' ob' r -> at_phase p s ->
  match r with
  | Ok (_, d) => exists p', phase_step (o_allow_unknown_blocks (sd_opts L s)) p d = Some p' /\ at_phase p' s'
  | _ => at_phase p s'
  end.
Proof.
  intros H Hp.
  assert (Hsame : forall s1, sd_state L s1 = sd_state L s -> sd_header_end L s1 = sd_header_end L s ->
     sd_opts L s1 = sd_opts L s -> at_phase p s1).
  { intros s1 E1 E2 E3. unfold at_phase in *. rewrite E1, E2, E3. exact Hp. }
  destruct r as [[n d]|e| | ]; [|inversion H; subst; apply Hsame; reflexivity..].
  assert (Hnone : d = DNothing -> at_phase p s' -> exists p', phase_step (o_allow_unknown_blocks (sd_opts L s)) p d = Some p' /\ at_phase p' s').
  { intros -> Hq. exists p. split; [|exact Hq]. phases p; reflexivity. }
  unfold at_phase in Hp.
  inversion H; subst; try (apply Hnone; [reflexivity|]; apply Hsame; reflexivity);
    clear Hsame Hnone;
    repeat match goal with E : sd_state L s = _ |- _ => rewrite E in Hp; clear E end.
  all: try (destruct ver).
  all: try match goal with |- context [after_screen] => unfold after_screen; destruct (negb _) end.
  all: try match goal with |- context [after_image] => unfold after_image; destruct (negb _) end.
  all: try match goal with E : extension_from_u8 _ = Some XApplication |- _ => apply ext_app in E end.
  all: try match goal with |- context [is_netscape ?x] => destruct (is_netscape x) end.
  all: try match goal with |- context [(?w =? 0)%nat] => destruct (w =? 0)%nat end.
  all: phases p; cbn [phase_step] in *; try contradiction Hp; try congruence.
  all: try match type of Hp with _ /\ _ => destruct Hp as [Hp Hu]; rewrite ?Hu end.
  all: eexists; (split; [reflexivity|]); unfold at_phase; sdcbn; auto.
  all: destruct (sd_ext_id L s =? 255); auto; congruence.
Qed.

Lemma phase_nothing unk p : phase_step unk p DNothing = Some p.
Proof. destruct p as [ | |[|] [|]|[|]| | | ]; reflexivity. Qed.

Lemma nsteps_phase s buf ob s' buf' ob' : nsteps L s buf ob s' buf' ob' -> pre L s buf ->
  forall p, at_phase p s -> at_phase p s' /\ sd_opts L s' = sd_opts L s.
Proof.
  induction 1 as [|s buf ob s1 ob1 n s' buf' ob' Hb He Hn IH]; intros (Hw & Hz & Ht) p Hp; [auto|].
  pose proof (next_state_nst L safe s buf ob _ _ _ Hw Hz Hb He) as Hst.
  pose proof (next_state_good L safe s buf ob Hw Hz Hb) as Hg. rewrite He in Hg.
  destruct Hg as (Go & _ & _ & Gw & Gz & Gt & _).
  destruct (nst_phase _ _ _ _ _ _ p Hst Hp) as (p' & E & Hp').
  rewrite phase_nothing in E. injection E as <-.
  destruct (IH (conj Gw (conj Gz (fun E => match Gt E with or_introl A => Ht A | or_intror A => ltac:(discriminate A) end))) p Hp')
    as [A B]. split; [exact A|congruence].
Qed.

Lemma at_trailer p s : at_phase p s -> (p = PEnd <-> sd_state L s = Trailer).
Proof.
  unfold at_phase. intros H. split.
  - intros ->. destruct (sd_state L s); try contradiction H. reflexivity.
  - intros E. rewrite E in H. phases p; try contradiction H. reflexivity.
Qed.

(** After the trailer a call on more input never returns, however long it runs. *)
Lemma trailer_hangs s buf ob fuel total : sd_state L s = Trailer -> buf <> [] -> sd_wf L s ->
  snd (update_loop L fuel s buf ob total) = Hang.
Proof.
  intros Ht Hb Hw. revert s Ht Hw. induction fuel as [|fuel IH]; intros s Ht Hw; (destruct buf as [|b buf]; [congruence|]); [reflexivity|].
  cbn [update_loop]. unfold next_state. rewrite Ht. cbn [skipn]. apply IH; [reflexivity|].
  destruct Hw as (H1 & _). repeat split. rewrite Ht in H1. exact H1.
Qed.

(** The invariant of a driven decoder. *)
Definition drv (o : options) (s : sd) (rest : list N) (evs : list decoded) : Prop :=
  sd_opts L s = o /\ sd_wf L s /\ zero_ok L s rest /\
  exists p, phase_run (o_allow_unknown_blocks o) PStart evs = Some p /\ at_phase p s.

Lemma zero_piece s buf tl : zero_ok L s (buf ++ tl) -> buf <> [] -> zero_ok L s buf.
Proof.
  intros H Hb E. destruct (H E) as [t Ht]. destruct buf as [|b buf]; [congruence|].
  injection Ht as -> _. eauto.
Qed.
Lemma zero_longer s buf tl : zero_ok L s buf -> zero_ok L s (buf ++ tl).
Proof. intros H E. destruct (H E) as [t ->]. cbn [app]. eauto. Qed.

Lemma driven_drv o s rest evs : driven L o s rest evs -> drv o s rest evs.
Proof.
  induction 1 as [rest|s buf tl ob s' ob' n d evs _ IH Hu|s buf tl ob s' ob' e rest evs _ IH Hu].
  - split; [reflexivity|]. split; [apply sd_new_wf|]. split; [intros E; discriminate E|].
    exists PStart. split; reflexivity.
  - destruct IH as (Ho & Hw & Hz & p & Hr & Hp).
    destruct buf as [|b buf].
    { cbn in Hu. injection Hu as <- _ <- <-. rewrite skipn_nil. repeat (split; [assumption|]).
      exists p. split; [|exact Hp]. rewrite phase_run_app, Hr. cbn [phase_run]. now rewrite phase_nothing. }
    assert (Hb : b :: buf <> []) by discriminate. remember (b :: buf) as bf eqn:Eb. clear Eb.
    pose proof (zero_piece _ _ _ Hz Hb) as Hz1.
    assert (Ht : sd_state L s <> Trailer).
    { intros Ht. pose proof (trailer_hangs s bf ob (update_fuel bf) (length bf) Ht Hb Hw : snd (update L s bf ob) = Hang) as Hh. rewrite Hu in Hh. discriminate Hh. }
    pose proof (conj Hw (conj Hz1 Ht) : pre L s bf) as Hpre.
    destruct (update_flat L safe _ _ _ _ _ _ Hpre Hu) as (s1 & buf1 & ob1 & Hns & (Hw1 & Hz2 & Ht1) & _ & Hc).
    destruct (nsteps_suffix L safe _ _ _ _ _ _ Hns Hpre) as (k & Hk & Hkl).
    destruct (nsteps_phase _ _ _ _ _ _ Hns Hpre p Hp) as [Hp1 Ho1].
    destruct Hc as [(Hnil & -> & -> & E)|(Hb1 & r0 & Hns0 & [(n0 & d0 & -> & Hd & E)|(e0 & _ & E)])]; [| |discriminate E].
    + injection E as -> ->. split; [congruence|]. split; [exact Hw1|]. split.
      { rewrite skipn_all. apply zero_longer. now rewrite <- Hnil. }
      exists p. split; [|exact Hp1]. rewrite phase_run_app, Hr. cbn [phase_run]. now rewrite phase_nothing.
    + injection E as -> ->.
      pose proof (next_state_nst L safe _ _ _ _ _ _ Hw1 Hz2 Hb1 Hns0) as Hst.
      pose proof (next_state_good L safe _ _ ob1 Hw1 Hz2 Hb1) as Hg. rewrite Hns0 in Hg.
      destruct Hg as (Go & _ & Gn & Gw & Gz & _).
      split; [congruence|]. split; [exact Gw|]. split.
      { apply zero_longer. rewrite Hk in *. rewrite skipn_skipn_suffix by assumption. exact Gz. }
      destruct (nst_phase _ _ _ _ _ _ p Hst Hp1) as (p' & Ep & Hp').
      exists p'. split; [|exact Hp']. rewrite phase_run_app, Hr. cbn [phase_run].
      rewrite Ho1, Ho in Ep. now rewrite Ep.
  - destruct IH as (Ho & Hw & Hz & p & Hr & Hp).
    destruct buf as [|b buf]; [discriminate Hu|].
    assert (Hb : b :: buf <> []) by discriminate. remember (b :: buf) as bf eqn:Eb. clear Eb.
    pose proof (zero_piece _ _ _ Hz Hb) as Hz1.
    assert (Ht : sd_state L s <> Trailer).
    { intros Ht. pose proof (trailer_hangs s bf ob (update_fuel bf) (length bf) Ht Hb Hw : snd (update L s bf ob) = Hang) as Hh. rewrite Hu in Hh. discriminate Hh. }
    pose proof (conj Hw (conj Hz1 Ht) : pre L s bf) as Hpre.
    destruct (update_flat L safe _ _ _ _ _ _ Hpre Hu) as (s1 & buf1 & ob1 & Hns & (Hw1 & Hz2 & Ht1) & _ & Hc).
    destruct (nsteps_phase _ _ _ _ _ _ Hns Hpre p Hp) as [Hp1 Ho1].
    destruct Hc as [(_ & _ & _ & E)|(Hb1 & r0 & Hns0 & [(n0 & d0 & _ & _ & E)|(e0 & -> & E)])]; [discriminate E..|].
    pose proof (next_state_nst L safe _ _ _ _ _ _ Hw1 Hz2 Hb1 Hns0) as Hst.
    pose proof (next_state_good L safe _ _ ob1 Hw1 Hz2 Hb1) as Hg. rewrite Hns0 in Hg.
    destruct Hg as (Go & _ & Gw & Gl & _).
    split; [congruence|]. split; [exact Gw|]. split; [intros El; congruence|].
    exists p. split; [exact Hr|]. exact (nst_phase _ _ _ _ _ _ p Hst Hp1).
Qed.

Lemma no_trailer unk evs : ~ In (DBlockStart BkTrailer) evs -> forall p, p <> PEnd ->
  phase_run unk p evs <> Some PEnd.
Proof.
  induction evs as [|d evs IH]; intros Hn p Hp H; cbn [phase_run] in H; [congruence|].
  destruct (phase_step unk p d) as [q|] eqn:E; [|discriminate H].
  revert H. apply IH; [intros A; apply Hn; now right|]. intros ->.
  assert (Hd : d <> DBlockStart BkTrailer) by (intros ->; apply Hn; now left).
  revert E Hd Hp. clear. phases p; destruct d as [ | | | | |[ | | ]| | | | | | ]; cbn; try destruct unk; congruence.
Qed.

(** C41 *)
Theorem driven_grammar o s rest evs : driven L o s rest evs ->
  exists p, phase_run (o_allow_unknown_blocks o) PStart evs = Some p.
Proof. intros H. destruct (driven_drv _ _ _ _ H) as (_ & _ & _ & p & Hp & _). eauto. Qed.

(** C16, in every state before the trailer *)
Theorem update_returns o s buf tl evs ob : driven L o s (buf ++ tl) evs ->
  ~ In (DBlockStart BkTrailer) evs -> returns (snd (update L s buf ob)).
Proof.
  intros H Hn. destruct (driven_drv _ _ _ _ H) as (_ & Hw & Hz & p & Hr & Hp).
  destruct buf as [|b buf]; [exact I|].
  assert (Ht : sd_state L s <> Trailer).
  { intros Ht. apply (at_trailer p s Hp) in Ht. subst p. revert Hr. now apply no_trailer. }
  assert (Hb : b :: buf <> []) by discriminate. remember (b :: buf) as bf eqn:Eb. clear Eb.
  pose proof (conj Hw (conj (zero_piece _ _ _ Hz Hb) Ht) : pre L s bf) as Hpre.
  destruct (update L s bf ob) as [[s' ob'] r] eqn:Hu.
  destruct (update_flat L safe _ _ _ _ _ _ Hpre Hu) as (s1 & buf1 & ob1 & _ & _ & _ & Hc).
  destruct Hc as [(_ & _ & _ & ->)|(_ & r0 & _ & [(n0 & d0 & _ & _ & ->)|(e0 & _ & ->)])]; exact I.
Qed.

(** C16, after the trailer: no call on further input returns, however many rounds its loop makes *)
Theorem update_after_trailer o s buf tl evs ob fuel total : driven L o s (buf ++ tl) evs ->
  In (DBlockStart BkTrailer) evs -> buf <> [] -> snd (update_loop L fuel s buf ob total) = Hang.
Proof.
  intros H Hin Hb. destruct (driven_drv _ _ _ _ H) as (_ & Hw & _ & p & Hr & Hp).
  apply trailer_hangs; [|exact Hb|exact Hw]. apply (at_trailer p s Hp).
  apply in_split in Hin. destruct Hin as (a & b & ->). rewrite phase_run_app in Hr.
  destruct (phase_run _ PStart a) as [q|]; [|discriminate Hr]. cbn [phase_run] in Hr.
  destruct (phase_step _ q (DBlockStart BkTrailer)) as [q'|] eqn:E; [|discriminate Hr].
  assert (q' = PEnd). { revert E. clear. phases q; cbn; congruence. } subst q'.
  clear - Hr. revert Hr. induction b as [|d b IH]; cbn [phase_run]; [congruence|].
  destruct d; cbn; try discriminate. exact IH.
Qed.

(** ** Invariants of single steps hold for a driven decoder *)
Lemma nsteps_inv (P : sd -> Prop) s buf ob s' buf' ob' :
  (forall s buf ob s' ob' r, P s -> sd_wf L s -> nst L s buf ob s' ob' r -> P s') ->
  nsteps L s buf ob s' buf' ob' -> pre L s buf -> P s -> P s'.
Proof.
  intros Hstep. induction 1 as [|s buf ob s1 ob1 n s' buf' ob' Hb He Hn IH]; intros (Hw & Hz & Ht) Hp; [exact Hp|].
  pose proof (next_state_good L safe s buf ob Hw Hz Hb) as Hg. rewrite He in Hg.
  destruct Hg as (_ & _ & _ & Gw & Gz & Gt & _). apply next_state_nst in He; auto.
  apply IH; [|eauto]. split; [exact Gw|]. split; [exact Gz|]. intros E. destruct (Gt E) as [A|A]; [auto|discriminate A].
Qed.

Lemma driven_inv (P : sd -> Prop) o s rest evs : P (sd_new L o) ->
  (forall s buf ob s' ob' r, P s -> sd_wf L s -> nst L s buf ob s' ob' r -> P s') ->
  driven L o s rest evs -> P s.
Proof.
  intros H0 Hstep. induction 1 as [rest|s buf tl ob s' ob' n d evs Hd IH Hu|s buf tl ob s' ob' e rest evs Hd IH Hu];
    [exact H0| |].
  all: destruct buf as [|b buf]; [cbn in Hu; injection Hu as <- _ _; exact IH|].
  all: destruct (driven_drv _ _ _ _ Hd) as (Ho & Hw & Hz & p & Hr & Hp).
  all: assert (Hb : b :: buf <> []) by discriminate; remember (b :: buf) as bf eqn:Eb; clear Eb.
  all: pose proof (zero_piece _ _ _ Hz Hb) as Hz1.
  all: assert (Ht : sd_state L s <> Trailer) by
   (intros Ht; pose proof (trailer_hangs s bf ob (update_fuel bf) (length bf) Ht Hb Hw : snd (update L s bf ob) = Hang) as Hh;
    rewrite Hu in Hh; discriminate Hh).
  all: pose proof (conj Hw (conj Hz1 Ht) : pre L s bf) as Hpre.
  all: destruct (update_flat L safe _ _ _ _ _ _ Hpre Hu) as (s1 & buf1 & ob1 & Hns & (Hw1 & Hz2 & Ht1) & _ & Hc).
  all: pose proof (nsteps_inv P _ _ _ _ _ _ Hstep Hns Hpre IH) as Hp1.
  all: destruct Hc as [(_ & -> & _ & _)|(Hb1 & r0 & Hns0 & _)]; [exact Hp1|].
  all: apply next_state_nst in Hns0; eauto.
Qed.

(** C21, extensions: the data reported by [last_ext] stays within the limit *)
Definition ext_bounded (n : N) (s : sd) : Prop := o_limit (sd_opts L s) = Some n -> len (sd_ext_data L s) <= N.max n 1.
Lemma ext_bounded_step n s buf ob s' ob' r : ext_bounded n s ->
  (sd_state L s = ExtensionBlockStart -> sd_ext_data L s = []) -> nst L s buf ob s' ob' r -> ext_bounded n s'.
Proof.
  intros H Hx Hn. unfold ext_bounded in *. inversion Hn; subst; sdcbn; try exact H;
    try (unfold after_screen; destruct (negb _); exact H); try (unfold after_image; destruct (negb _); exact H).
  - intros _. cbn. lia.
  - intros _. cbn. lia.
  - intros _. rewrite Hx by assumption. cbn. lia.
  - intros E. match goal with C : check_size _ _ = true |- _ => rewrite E in C; unfold check_size in C; apply N.leb_le in C end.
    unfold len in *. rewrite app_length, firstn_length. lia.
Qed.
Lemma ext_empty_step s buf ob s' ob' r : nst L s buf ob s' ob' r ->
  (sd_state L s = ExtensionBlockStart -> sd_ext_data L s = []) -> sd_state L s' = ExtensionBlockStart -> sd_ext_data L s' = [].
Proof.
  intros Hn Hx. inversion Hn; subst; sdcbn; try exact Hx; try discriminate; auto;
    try (unfold after_screen; destruct (negb _); discriminate); try (unfold after_image; destruct (negb _); discriminate);
    try (destruct (w =? 0)%nat; discriminate).
Qed.
Theorem ext_limit o s rest evs n : driven L o s rest evs -> o_limit o = Some n ->
  len (snd (fst (last_ext L s))) <= N.max n 1.
Proof.
  intros H Hl.
  assert (G : ext_bounded n s /\ (sd_state L s = ExtensionBlockStart -> sd_ext_data L s = [])).
  { refine (driven_inv (fun s => ext_bounded n s /\ (sd_state L s = ExtensionBlockStart -> sd_ext_data L s = [])) o s rest evs _ _ H).
    - split; [intros _; cbn; lia|discriminate].
    - intros s0 buf ob s' ob' r [A B] _ Hn. split; [eapply ext_bounded_step|eapply ext_empty_step]; eassumption. }
  destruct G as [G _]. apply G. destruct (driven_drv _ _ _ _ H) as [-> _]. exact Hl.
Qed.

(** C22 *)
Lemma oob_spec screen size off : out_of_bounds screen size off = false <-> off + size <= screen.
Proof. unfold out_of_bounds. destruct (N.ltb_spec screen size); [split; [discriminate|lia]|]. rewrite N.ltb_ge. lia. Qed.
Lemma img_oob_spec s f : img_oob L s f = true <->
  o_check_frame_consistency (sd_opts L s) = true /\ ~ in_bounds (sd_width L s) (sd_height L s) f.
Proof.
  unfold img_oob, in_bounds. rewrite andb_true_iff, <- !oob_spec.
  destruct (out_of_bounds _ _ _), (out_of_bounds _ _ _); cbn; intuition congruence.
Qed.
Lemma img_oob_false s f : img_oob L s f = false -> o_check_frame_consistency (sd_opts L s) = true ->
  in_bounds (sd_width L s) (sd_height L s) f.
Proof.
  unfold img_oob, in_bounds. intros H Hc. rewrite Hc in H. cbn in H. apply orb_false_iff in H.
  now rewrite !oob_spec in H.
Qed.
Definition checked (s : sd) : Prop :=
  o_check_frame_consistency (sd_opts L s) = true ->
  match sd_state L s, sd_current L s with
  | (LocalPalette _ | LzwInit _ | DecodeSubBlock _ | CopySubBlock _ | FrameDecoded), Some f =>
    in_bounds (sd_width L s) (sd_height L s) f
  | _, _ => True
  end.
Lemma checked_step s buf ob s' ob' r : checked s -> nst L s buf ob s' ob' r -> checked s'.
Proof.
  intros H Hn. unfold checked in *. inversion Hn; subst;
    repeat match goal with E : sd_state L s = _ |- _ => rewrite E in H end;
    sdcbn; try exact H; try (intros _; exact I).
  all: try match goal with E : sd_state L _ = _ |- _ => rewrite E; intros _; exact I end.
  - unfold after_screen. destruct (negb _); sdcbn; intros _; exact I.
  - match goal with E : img_oob _ _ _ = false |- _ => pose proof (img_oob_false _ _ E) as Hb end.
    unfold after_image. destruct (negb _); sdcbn; exact Hb.
  - intros Hc. specialize (H Hc). match goal with E : sd_current L s = _ |- _ => rewrite E in H end. exact H.
  - match goal with E : sd_state L s = _ |- _ => rewrite E end. exact H.
  - destruct (w =? 0)%nat; exact H.
  - match goal with E : sd_state L s = _ |- _ => rewrite E end. exact H.
Qed.

Lemma checked_new o : checked (sd_new L o).
Proof. intros _. exact I. Qed.

Lemma dd_nothing (d : decoded) : d = DNothing \/ d <> DNothing.
Proof. destruct d; auto; right; discriminate. Qed.

Theorem consistency_kept o s buf tl ob s' ob' n t evs : driven L o s (buf ++ tl) evs ->
  update L s buf ob = (s', ob', Ok (n, DFrameMetadata t)) -> o_check_frame_consistency o = true ->
  exists f, sd_current L s' = Some f /\ in_bounds (sd_width L s') (sd_height L s') f.
Proof.
  intros Hd Hu Hc. pose proof (dr_ok L o s buf tl ob s' ob' n _ evs Hd Hu) as Hd'.
  pose proof (driven_inv checked o _ _ _ (checked_new o) (fun s b ob s' ob' r A _ B => checked_step s b ob s' ob' r A B) Hd') as H.
  destruct (driven_drv _ _ _ _ Hd') as (Ho & Hw & _ & p & Hr & Hp).
  rewrite phase_run_app in Hr. destruct (phase_run _ PStart evs) as [q|]; [|discriminate Hr].
  assert (p = PData).
  { cbn [phase_run] in Hr. destruct (phase_step _ q _) eqn:E; [|discriminate Hr]. revert E Hr. clear.
    phases q; cbn; congruence. } subst p.
  unfold at_phase in Hp. unfold checked in H. rewrite Ho in H. specialize (H Hc).
  destruct Hw as (_ & _ & Hcw & _). unfold cur_wf in Hcw.
  destruct (sd_state L s'); try contradiction Hp; (destruct (sd_current L s') as [f|]; [|congruence]); eauto.
Qed.

Lemma lr_err r data ob r1 ob1 e (Q : Prop) : lr_decode_bytes L r data ob = (r1, ob1, Err (DFormat e)) -> Q.
Proof.
  unfold lr_decode_bytes. destruct (lr_decoder L r); [|discriminate].
  destruct ob; try discriminate; destruct (lz_decode L _ _ _) as [d' [[n w] []]]; try discriminate;
    destruct (lr_check L r); discriminate.
Qed.
Theorem consistency_refused o s buf tl ob s' ob' evs : driven L o s (buf ++ tl) evs ->
  update L s buf ob = (s', ob', Err (DFormat FrameOutOfBounds)) ->
  o_check_frame_consistency o = true /\
  exists f, sd_current L s' = Some f /\ ~ in_bounds (sd_width L s') (sd_height L s') f.
Proof.
  intros Hd Hu. destruct (driven_drv _ _ _ _ Hd) as (Ho & Hw & Hz & p & Hr & Hp).
  destruct buf as [|b buf]; [discriminate Hu|].
  assert (Hb : b :: buf <> []) by discriminate. remember (b :: buf) as bf eqn:Eb. clear Eb.
  pose proof (zero_piece _ _ _ Hz Hb) as Hz1.
  assert (Ht : sd_state L s <> Trailer).
  { intros Ht; pose proof (trailer_hangs s bf ob (update_fuel bf) (length bf) Ht Hb Hw : snd (update L s bf ob) = Hang) as Hh.
    rewrite Hu in Hh. discriminate Hh. }
  pose proof (conj Hw (conj Hz1 Ht) : pre L s bf) as Hpre.
  destruct (update_flat L safe _ _ _ _ _ _ Hpre Hu) as (s1 & buf1 & ob1 & Hns & (Hw1 & Hz2 & Ht1) & _ & Hc).
  destruct (nsteps_phase _ _ _ _ _ _ Hns Hpre p Hp) as [_ Ho1].
  destruct Hc as [(_ & _ & _ & E)|(Hb1 & r0 & Hns0 & [(n0 & d0 & _ & _ & E)|(e0 & -> & E)])]; [discriminate E..|].
  injection E as <-. apply next_state_nst in Hns0; auto. inversion Hns0; subst.
  - match goal with E : img_oob _ _ _ = true |- _ => apply img_oob_spec in E; destruct E as [E1 E2] end.
    split; [congruence|]. eexists. split; [reflexivity|]. sdcbn. exact E2.
  - match goal with E : obuf_append _ _ _ = _ |- _ => revert E end. unfold obuf_append.
    destruct ob'; [|destruct (check_size _ _)|]; congruence.
  - match goal with E : lr_decode_bytes _ _ _ _ = _ |- _ => revert E end. apply lr_err.
  - match goal with E : lr_decode_bytes _ _ _ _ = _ |- _ => revert E end. apply lr_err.
Qed.
End SP.
