(** The streaming decoder on a well-formed file: every event and what can be seen after it, for every way of
    passing the file in pieces. *)
From Verif Require Import Base Common Lzw Encoder Stream Converter Reader StreamInv Steps StepsRev
  ReaderInv Interlace Ranges ConvInv DecoderSafe Canon CanonReader SpecGif DocTrace DocBlocks DocRead DocAll SpecStream StreamProps StreamCount SpecWatch.
Open Scope N_scope.

Section ST.
Variable L : lzw_codec.
Variable S : lzw_spec L.
Notation safe := (lz_is_safe L S).
Notation sd := (sd L).
Notation cn := (cn L).
Notation CEv := (CEv L).

(** ** Stretches of the canonical reading with what is seen *)
Inductive atr : sd -> list N -> list sight -> sd -> list N -> Prop :=
| atr_nil s str s' str' : (forall y, cn s' str' ONone y -> cn s str ONone y) -> atr s str [] s' str'
| atr_cons s str s1 str1 d obs s' str' :
    cn s str ONone (CEv s1 str1 ONone d) -> atr s1 str1 obs s' str' -> atr s str (observe s1 d :: obs) s' str'.
Lemma atr_refl s str : atr s str [] s str.
Proof. constructor. auto. Qed.
Lemma atr_slide s str obs s' str' s0 str0 : (forall y, cn s str ONone y -> cn s0 str0 ONone y) ->
  atr s str obs s' str' -> atr s0 str0 obs s' str'.
Proof.
  intros H Hc. destruct Hc as [s str s' str' Hs|s str s1 str1 d evs s' str' H1 H2].
  - constructor. auto.
  - econstructor; [apply H; exact H1|exact H2].
Qed.
Lemma atr_trans s str e1 s1 str1 e2 s2 str2 :
  atr s str e1 s1 str1 -> atr s1 str1 e2 s2 str2 -> atr s str (e1 ++ e2) s2 str2.
Proof.
  induction 1 as [s str s1 str1 Hs|s str s3 str3 d evs s1 str1 H1 H2 IH]; intros H.
  - eapply atr_slide; eassumption.
  - cbn [app]. econstructor; eauto.
Qed.
Definition plain (d : decoded) : Prop :=
  match d with DSubBlockFinished _ | DBlockFinished _ | DFrameMetadata _ => False | _ => True end.
Lemma plain_observe s d : plain d -> @observe L s d = SPlain d.
Proof. destruct d; easy. Qed.
Lemma ctr_atr s str evs s' str' : ctr L s str evs s' str' -> Forall plain evs -> atr s str (map SPlain evs) s' str'.
Proof.
  induction 1 as [s str s1 str1 Hs|s str s3 str3 d evs s1 str1 H1 H2 IH]; intros Hp.
  - now constructor.
  - inversion Hp; subst. cbn [map]. rewrite <- (plain_observe s3) by assumption. econstructor; [exact H1|auto].
Qed.
Definition arun (s : sd) (str : list N) (obs : list sight) (s' : sd) (str' : list N) : Prop :=
  atr s str obs s' str' /\ sd_wf L s'.
Lemma arun_refl s str : sd_wf L s -> arun s str [] s str.
Proof. split; [apply atr_refl|assumption]. Qed.
Lemma arun_trans s str e1 s1 str1 e2 s2 str2 :
  arun s str e1 s1 str1 -> (sd_wf L s1 -> arun s1 str1 e2 s2 str2) -> arun s str (e1 ++ e2) s2 str2.
Proof. intros [H1 H2] H. destruct (H H2) as [H3 H4]. split; [eapply atr_trans; eassumption|exact H4]. Qed.
Lemma run_arun s str evs s' str' : run L s str evs s' str' -> Forall plain evs -> arun s str (map SPlain evs) s' str'.
Proof. intros [H1 H2] Hp. split; [now apply ctr_atr|exact H2]. Qed.
Lemma arun_event s buf tl s' n d : sd_wf L s -> zero_ok L s buf -> buf <> [] ->
  nst L s buf ONone s' ONone (Ok (n, d)) -> silent d = false ->
  arun s (buf ++ tl) [observe s' d] s' (skipn n buf ++ tl).
Proof.
  intros Hw Hz Hb Hn Hs.
  pose proof (absorb L safe s buf ONone s' ONone _ tl Hw Hz Hb eq_refl Hn) as Ha. cbn [absorbed] in Ha. rewrite Hs in Ha.
  pose proof (next_state_good L safe s buf ONone Hw Hz Hb) as Hg.
  rewrite (nst_next_state L _ _ _ _ _ _ Hw Hb Hn) in Hg. destruct Hg as (_ & _ & _ & Hw' & _).
  split; [|exact Hw']. econstructor; [apply Ha; reflexivity|apply atr_refl].
Qed.

(** ** Extensions *)
Lemma arun_subs subs : forall s tl, sd_wf L s -> sd_state L s = ExtensionDataBlock 0 ->
  Forall sub_ok subs -> fits (o_limit (sd_opts L s)) (len (sd_ext_data L s) + N.of_nat (length (payload subs))) ->
  exists e, arun s (concat (map ser_sub subs) ++ tl) (sub_sights (sd_ext_id L s) (sd_ext_data L s) subs)
    (set_state L (set_ext L s (sd_ext_id L s) (sd_ext_data L s ++ payload subs) e) (ExtensionDataBlock 0)) tl.
Proof.
  induction subs as [|b subs IH]; intros s tl Hw Hst Hok Hf.
  - exists (sd_ext_end L s). cbn [map concat app sub_sights payload]. rewrite app_nil_r.
    replace (set_state L _ _) with s; [now apply arun_refl|]. destruct s. cbn in *. subst. reflexivity.
  - inversion Hok as [|? ? [Hb1 Hb2] Hok']; subst. cbn [map concat].
    unfold payload in Hf. cbn [concat] in Hf. rewrite app_length in Hf. fold (payload subs) in Hf.
    assert (Hne : b <> []) by (intros ->; cbn in Hb1; lia).
    set (s1 := set_state L (set_ext L s (sd_ext_id L s) (sd_ext_data L s) false)
                 (ExtensionDataBlock (N.to_nat (N.of_nat (length b))))).
    assert (R1 : arun s (ser_sub b ++ concat (map ser_sub subs) ++ tl)
                   [SExt (DSubBlockFinished (sd_ext_id L s)) (sd_ext_id L s, sd_ext_data L s, false)]
                   s1 (b ++ concat (map ser_sub subs) ++ tl)).
    { apply (arun_event s [N.of_nat (length b)] (b ++ concat (map ser_sub subs) ++ tl) s1 1 (DSubBlockFinished (sd_ext_id L s)));
        [exact Hw|intros E; rewrite Hst in E; discriminate E|discriminate| |reflexivity].
      eapply N_xd_next; [exact Hst|reflexivity|lia]. }
    assert (Hst1 : sd_state L s1 = ExtensionDataBlock (length b)) by (unfold s1; sdcbn; f_equal; lia).
    pose proof (fun H => run_body L safe s1 b (concat (map ser_sub subs) ++ tl) H Hst1 Hne) as R2.
    assert (Hx : sd_ext_data L s1 = sd_ext_data L s) by reflexivity. rewrite Hx in R2.
    assert (Ho : sd_opts L s1 = sd_opts L s) by reflexivity. rewrite Ho in R2.
    match type of R2 with _ -> _ -> run _ _ _ _ ?x _ => set (s2 := x) in * end.
    assert (Hx2 : sd_ext_data L s2 = sd_ext_data L s ++ b) by reflexivity.
    assert (Hst2 : sd_state L s2 = ExtensionDataBlock 0) by reflexivity.
    assert (Ho2 : sd_opts L s2 = sd_opts L s) by reflexivity.
    assert (Hw2 : sd_wf L s2).
    { eapply R2; [apply R1|]. eapply fits_mono; [|exact Hf]. lia. }
    destruct (IH s2 tl Hw2 Hst2 Hok') as (e & R3).
    { rewrite Ho2, Hx2. unfold len in *. rewrite app_length. eapply fits_mono; [|exact Hf]. lia. }
    exists e. rewrite <- app_assoc. cbn [sub_sights].
    change (SExt (DSubBlockFinished (sd_ext_id L s)) (sd_ext_id L s, sd_ext_data L s, false) ::
            sub_sights (sd_ext_id L s) (sd_ext_data L s ++ b) subs)
      with ([SExt (DSubBlockFinished (sd_ext_id L s)) (sd_ext_id L s, sd_ext_data L s, false)] ++ map SPlain [] ++
            sub_sights (sd_ext_id L s) (sd_ext_data L s ++ b) subs).
    eapply arun_trans; [exact R1|]. intros _.
    eapply arun_trans; [apply run_arun; [apply R2; [apply R1|]; eapply fits_mono; [|exact Hf]; lia|constructor]|]. intros _.
    unfold payload. cbn [concat]. rewrite app_assoc. exact R3.
Qed.

Lemma arun_ext_data s l b subs tl : sd_wf L s -> sd_state L s = BlockStart 0x21 ->
  ext_ok (sd_opts L s) l (b :: subs) ->
  exists e, arun s (l :: ser_subs (b :: subs) ++ tl)
    (SPlain (DBlockStart BkExtension) :: sub_sights l (N.of_nat (length b) :: b) subs)
    (set_state L (set_ext L s l (ext_blob (b :: subs)) e) (ExtensionDataBlock 0)) (0 :: tl).
Proof.
  intros Hw Hst (Hl & (Hne & Hsub) & Hctl & Hfit). clear Hne.
  inversion Hsub as [|? ? [Hb1 Hb2] Hsub']; subst.
  assert (Hne : b <> []) by (intros ->; cbn in Hb1; lia).
  assert (Hx : exists x, extension_from_u8 l = Some x).
  { destruct Hl as [->|[->|[->| ->]]]; cbn; eauto. }
  destruct Hx as (x & Hx).
  set (s1 := set_state L (set_ext L s l [] (sd_ext_end L s)) ExtensionBlockStart).
  unfold ser_subs. cbn [map concat]. unfold ser_sub at 1. cbn [app]. rewrite <- !app_assoc. cbn [app].
  match goal with |- context [arun s (l :: ?q) _ _ _] => set (rest := q) in * end.
  assert (R1 : run L s (l :: rest) [DBlockStart BkExtension] s1 rest).
  { apply (run_byte L safe s l rest s1 (DBlockStart BkExtension)); [exact Hw|rewrite Hst; reflexivity|].
    eapply N_bs_ext; [exact Hst|reflexivity|exact Hx]. }
  unfold rest in R1 at 2.
  match type of R1 with run _ _ _ _ _ (_ :: ?q) => set (rest1 := q) in * end.
  set (s2 := set_state L (set_ext L s1 (sd_ext_id L s1) (sd_ext_data L s1 ++ [N.of_nat (length b)]) (sd_ext_end L s1))
               (ExtensionDataBlock (N.to_nat (N.of_nat (length b))))).
  assert (R2 : run L s1 (N.of_nat (length b) :: rest1) [] s2 rest1).
  { apply (run_byte L safe s1 _ rest1 s2 DNothing); [apply R1|reflexivity|]. eapply N_xb; reflexivity. }
  assert (Hst2 : sd_state L s2 = ExtensionDataBlock (length b)) by (unfold s2; sdcbn; f_equal; lia).
  pose proof (run_body L safe s2 b (concat (map ser_sub subs) ++ 0 :: tl) (proj2 R2) Hst2 Hne) as R3.
  assert (Hp : length (payload (b :: subs)) = (length b + length (payload subs))%nat).
  { unfold payload. cbn [concat]. apply app_length. }
  rewrite Hp in Hfit.
  assert (Hl2 : len (sd_ext_data L s2) = 1) by reflexivity.
  specialize (R3 ltac:(eapply fits_mono; [|exact Hfit]; rewrite Hl2; lia)).
  match type of R3 with run _ _ _ _ ?x _ => set (s3 := x) in * end.
  destruct (arun_subs subs s3 (0 :: tl) (proj2 R3) eq_refl Hsub') as (e & R4).
  { eapply fits_mono; [|exact Hfit].
    change (sd_ext_data L s3) with ([N.of_nat (length b)] ++ b). unfold len. rewrite app_length. cbn [length]. lia. }
  exists e.
  change (SPlain (DBlockStart BkExtension) :: sub_sights l (N.of_nat (length b) :: b) subs)
    with (map SPlain [DBlockStart BkExtension] ++ map SPlain [] ++ map SPlain [] ++ sub_sights l (N.of_nat (length b) :: b) subs).
  eapply arun_trans; [apply run_arun; [exact R1|repeat constructor]|]. intros _.
  eapply arun_trans; [apply run_arun; [exact R2|constructor]|]. intros _.
  eapply arun_trans; [apply run_arun; [exact R3|constructor]|]. intros _. exact R4.
Qed.

Lemma arun_ext s l subs tl : sd_wf L s -> sd_state L s = BlockStart 0x21 ->
  ext_ok (sd_opts L s) l subs ->
  arun s (l :: ser_subs subs ++ tl) (ext_sights l subs) (after_ext L s l subs) tl.
Proof.
  intros Hw Hst Hok. pose proof Hok as (Hl & (Hne & Hsub) & Hctl & Hfit).
  destruct subs as [|b subs]; [congruence|]. clear Hne.
  destruct (arun_ext_data s l b subs tl Hw Hst Hok) as (e & R1).
  unfold ext_sights. cbv zeta.
  match goal with |- arun _ _ (?x :: ?a ++ ?b) _ _ => change (x :: a ++ b) with ((x :: a) ++ b) end.
  eapply arun_trans; [exact R1|]. intros Hw1. clear R1.
  set (s1 := set_state L (set_ext L s l (ext_blob (b :: subs)) e) (ExtensionDataBlock 0)) in *.
  set (sb := b :: subs) in *.
  assert (Hcase : (l = 0x01 \/ l = 0xFE) \/ l = 0xF9 \/ l = 0xFF) by (unfold known_label in Hl; tauto).
  assert (Hz : zero_ok L s1 [0]) by (intros _; eauto).
  destruct Hcase as [Hq|[->| ->]].
  - assert (El : (l =? 0xF9) = false /\ (l =? 0xFF) = false) by (destruct Hq as [->| ->]; split; reflexivity).
    destruct El as [El1 El2]. unfold after_ext. rewrite El1, El2. cbn [app].
    match goal with |- arun _ _ _ ?x _ =>
      apply (arun_event s1 [0] tl x 1 (DBlockFinished l)); [exact Hw1|exact Hz|discriminate| |reflexivity] end.
    apply (N_xd_end L s1 [0] ONone []); try reflexivity;
      change (sd_ext_id L s1) with l; destruct Hq as [->| ->]; discriminate.
  - unfold after_ext. cbn [N.eqb Pos.eqb app].
    match goal with |- arun _ _ _ ?x _ =>
      apply (arun_event s1 [0] tl x 1 (DBlockFinished 0xF9)); [exact Hw1|exact Hz|discriminate| |reflexivity] end.
    apply (N_xd_ctl L s1 [0] ONone []); try reflexivity.
    change (Datatypes.S (length (payload sb)) = 5%nat). rewrite Hctl; reflexivity.
  - unfold after_ext. cbn [N.eqb Pos.eqb].
    set (s2 := set_state L (set_ext L s1 (sd_ext_id L s1) (sd_ext_data L s1) true) ApplicationExtension).
    assert (R2 : arun s1 (0 :: tl) [SExt (DBlockFinished 0xFF) (0xFF, N.of_nat (length b) :: payload sb, true)] s2 (0 :: tl)).
    { apply (arun_event s1 [0] tl s2 0 (DBlockFinished 0xFF)); [exact Hw1|exact Hz|discriminate| |reflexivity].
      apply (N_xd_app L s1 [0] ONone []); reflexivity. }
    eapply arun_trans; [exact R2|]. intros Hw2.
    set (d := if is_netscape (sd_ext_data L s2) then
           let r := rd16 (at_ (sd_ext_data L s2) 13) (at_ (sd_ext_data L s2) 14) in
           DRepetitions (if r =? 0 then RInfinite else RFinite r) else DNothing).
    assert (Ed : match loop_of (payload sb) with Some n => [SPlain (DRepetitions n)] | None => [] end =
                 map SPlain (if silent d then [] else [d])).
    { unfold loop_of, d. change (sd_ext_data L s2) with (ext_blob sb).
      unfold sb. rewrite netscape_spec. fold sb. destruct (_ && _); [|reflexivity]. cbn [silent map].
      unfold rd16, at_. reflexivity. }
    rewrite Ed. apply run_arun.
    + apply (run_zero L safe s2 tl _ 1 d); [exact Hw2|]. apply (N_app L s2 [0] ONone [] d); reflexivity.
    + unfold d. destruct (is_netscape _); repeat constructor.
Qed.

(** Unknown blocks. *)
Lemma arun_unk_end s x tl : sd_wf L s -> sd_state L s = ExtensionDataBlock 0 -> (sd_ext_id L s, sd_ext_data L s) = x ->
  fst x <> 0xF9 ->
  arun s (0 :: tl) ([SExt (DBlockFinished (fst x)) (fst x, snd x, true)] ++
    match (if fst x =? 0xFF then loop_of (skipn 1 (snd x)) else None) with
    | Some n => [SPlain (DRepetitions n)] | None => [] end) (after_unk L s x) tl.
Proof.
  intros Hw Hst <- Hx. cbn [fst snd] in *. unfold after_unk. cbn [fst snd].
  assert (Hz : zero_ok L s [0]) by (intros _; eauto).
  destruct (N.eq_dec (sd_ext_id L s) 0xFF) as [E|E].
  - rewrite (proj2 (N.eqb_eq _ _) E).
    set (s2 := set_state L (set_ext L s (sd_ext_id L s) (sd_ext_data L s) true) ApplicationExtension).
    assert (R2 : arun s (0 :: tl) [SExt (DBlockFinished (sd_ext_id L s)) (sd_ext_id L s, sd_ext_data L s, true)] s2 (0 :: tl)).
    { apply (arun_event s [0] tl s2 0 (DBlockFinished (sd_ext_id L s))); [exact Hw|exact Hz|discriminate| |reflexivity].
      apply (N_xd_app L s [0] ONone []); [exact Hst|reflexivity|]. rewrite E. reflexivity. }
    eapply arun_trans; [exact R2|]. intros Hw2.
    set (d := if is_netscape (sd_ext_data L s2) then
           let r := rd16 (at_ (sd_ext_data L s2) 13) (at_ (sd_ext_data L s2) 14) in
           DRepetitions (if r =? 0 then RInfinite else RFinite r) else DNothing).
    assert (Ed : match loop_of (skipn 1 (sd_ext_data L s)) with Some n => [SPlain (DRepetitions n)] | None => [] end =
                 map SPlain (if silent d then [] else [d])).
    { unfold loop_of, d. change (sd_ext_data L s2) with (sd_ext_data L s). rewrite netscape_data.
      destruct (_ && _); [|reflexivity]. cbn [silent map]. unfold rd16, at_.
      destruct (sd_ext_data L s) as [|y q]; reflexivity. }
    rewrite Ed. apply run_arun.
    + apply (run_zero L safe s2 tl _ 1 d); [exact Hw2|]. apply (N_app L s2 [0] ONone [] d); reflexivity.
    + unfold d. destruct (is_netscape _); repeat constructor.
  - rewrite (proj2 (N.eqb_neq _ _) E). cbn [app].
    match goal with |- arun _ _ _ ?x _ =>
      apply (arun_event s [0] tl x 1 (DBlockFinished (sd_ext_id L s))); [exact Hw|exact Hz|discriminate| |reflexivity] end.
    apply (N_xd_end L s [0] ONone []); [exact Hst|reflexivity| |].
    + intros Q. now apply label_app in Q.
    + intros Q. now apply label_ctl in Q.
Qed.
Lemma arun_unk s x t subs tl : sd_wf L s -> sd_state L s = BlockStart t -> sd_header_end L s = true ->
  t <> 0x2C -> t <> 0x21 -> t <> 0x3B -> o_allow_unknown_blocks (sd_opts L s) = true -> subs_ok subs ->
  (sd_ext_id L s, sd_ext_data L s) = x -> fst x <> 0xF9 ->
  fits (o_limit (sd_opts L s)) (len (snd x) + N.of_nat (length (payload subs))) ->
  arun s (ser_subs subs ++ tl) (unk_sights x subs) (after_unk L s (unk_next x subs)) tl.
Proof.
  intros Hw Hst Hh Ht1 Ht2 Ht3 Ha (Hne & Hsub) Hx Hx9 Hfit.
  destruct subs as [|b subs]; [congruence|]. clear Hne.
  pose proof (Forall_inv Hsub) as [Hb1 Hb2]. pose proof (Forall_inv_tail Hsub) as Hsub'.
  assert (Hne : b <> []) by (intros ->; cbn in Hb1; lia).
  unfold ser_subs. cbn [map concat]. unfold ser_sub at 1. cbn [app]. rewrite <- !app_assoc. cbn [app].
  match goal with |- context [arun s (_ :: ?q) _ _ _] => set (rest1 := q) in * end.
  set (s2 := set_state L s (ExtensionDataBlock (N.to_nat (N.of_nat (length b))))).
  assert (R2 : run L s (N.of_nat (length b) :: rest1) [] s2 rest1).
  { apply (run_byte L safe s _ rest1 s2 DNothing); [exact Hw|rewrite Hst; reflexivity|]. eapply N_bs_unknown; eauto. }
  assert (Hst2 : sd_state L s2 = ExtensionDataBlock (length b)) by (unfold s2; sdcbn; f_equal; lia).
  pose proof (run_body L safe s2 b (concat (map ser_sub subs) ++ 0 :: tl) (proj2 R2) Hst2 Hne) as R3.
  assert (Hp : length (payload (b :: subs)) = (length b + length (payload subs))%nat).
  { unfold payload. cbn [concat]. apply app_length. }
  rewrite Hp in Hfit. rewrite <- Hx in *. cbn [fst snd] in *.
  change (sd_ext_data L s2) with (sd_ext_data L s) in R3. change (sd_opts L s2) with (sd_opts L s) in R3.
  specialize (R3 ltac:(eapply fits_mono; [|exact Hfit]; lia)).
  match type of R3 with run _ _ _ _ ?x _ => set (s3 := x) in * end.
  destruct (arun_subs subs s3 (0 :: tl) (proj2 R3) eq_refl Hsub') as (e & R4).
  { eapply fits_mono; [|exact Hfit].
    change (sd_ext_data L s3) with (sd_ext_data L s ++ b). unfold len. rewrite app_length. lia. }
  match type of R4 with arun _ _ _ ?x _ => set (s4 := x) in * end.
  assert (X4 : (sd_ext_id L s4, sd_ext_data L s4) = unk_next (sd_ext_id L s, sd_ext_data L s) (b :: subs)).
  { unfold unk_next, payload. cbn [fst snd concat]. rewrite app_assoc. reflexivity. }
  unfold unk_sights. cbn [fst snd].
  change (sub_sights (sd_ext_id L s) (sd_ext_data L s ++ b) subs) with
    (map SPlain [] ++ map SPlain [] ++ sub_sights (sd_ext_id L s3) (sd_ext_data L s3) subs).
  rewrite <- !app_assoc.
  eapply arun_trans; [apply run_arun; [exact R2|constructor]|]. intros _.
  eapply arun_trans; [apply run_arun; [exact R3|constructor]|]. intros _.
  eapply arun_trans; [exact R4|]. intros _.
  exact (arun_unk_end s4 _ tl (proj2 R4) eq_refl X4 Hx9).
Qed.

(** ** Blocks *)
Section Blocks.
Variable o : options.
Variable g : gif.
Variable tl : list N.
Notation docst := (docst L S o g).
Notation pos := (pos L).

Lemma apos_ext s str l subs bs c x : docst s c x -> pos s str (BExt l subs :: bs) (0x3B :: tl) -> ext_ok o l subs ->
  exists s' str', arun s str (ext_sights l subs) s' str' /\ docst s' (ctl_next c (BExt l subs)) (l, N.of_nat (length (hd [] subs)) :: payload subs) /\
    pos s' str' bs (0x3B :: tl) /\ sd_header_end L s' = sd_header_end L s.
Proof.
  intros Hd Hp Hok. destruct (pos_start L S o g _ _ _ _ _ _ _ Hd Hp ltac:(discriminate)) as (s0 & R0 & D0 & E0 & H0).
  pose proof (arun_ext s0 l subs (ser_blocks bs ++ 0x3B :: tl) (ds_wf _ _ _ _ _ _ _ D0) E0) as R1.
  rewrite (ds_opts _ _ _ _ _ _ _ D0) in R1. specialize (R1 Hok).
  exists (after_ext L s0 l subs), (ser_blocks bs ++ 0x3B :: tl).
  assert (R : arun s str (map SPlain [] ++ ext_sights l subs) (after_ext L s0 l subs) (ser_blocks bs ++ 0x3B :: tl)).
  { eapply arun_trans; [apply run_arun; [exact R0|constructor]|]. intros _. cbn [body ser_blk skipn app] in *. exact R1. }
  cbn [app map] in R. split; [exact R|]. unfold after_ext in *.
  split; [|split].
  - assert (Eb : ext_blob subs = N.of_nat (length (hd [] subs)) :: payload subs).
    { destruct Hok as (_ & (Hne & _) & _). destruct subs; [congruence|reflexivity]. }
    destruct D0 as [W1 W2 W3 W4 W5 W6 W7]. cbn [ctl_next]. rewrite <- Eb. destruct (l =? 0xF9).
    + constructor; sdcbn; try assumption; [apply R1| |reflexivity]. right. f_equal.
      unfold cur_or_default. destruct W5 as [[-> ->]| ->]; [|apply ctl_frame_spec].
      apply (ctl_frame_spec ctl_none).
    + constructor; sdcbn; try assumption; [apply R1|reflexivity].
  - left. split; reflexivity.
  - destruct (l =? 0xF9); exact H0.
Qed.

(** The metadata event. *)
Lemma apos_unk s str t subs bs c x : docst s c x -> pos s str (BUnk t subs :: bs) (0x3B :: tl) -> sd_header_end L s = true ->
  blk_ok o g (BUnk t subs) -> fst x <> 0xF9 -> fits (o_limit o) (len (snd x) + N.of_nat (length (payload subs))) ->
  exists s' str', arun s str (unk_sights x subs) s' str' /\ docst s' c (unk_next x subs) /\
    pos s' str' bs (0x3B :: tl) /\ sd_header_end L s' = true.
Proof.
  intros Hd Hp Hh (B1 & B2 & B3 & B4 & B5 & B6) Hx Hf.
  destruct (pos_start L S o g _ _ _ _ _ _ _ Hd Hp B4) as (s0 & R0 & D0 & E0 & H0). cbn [lead] in E0. rewrite Hh in H0.
  pose proof (arun_unk s0 x t subs (ser_blocks bs ++ 0x3B :: tl) (ds_wf _ _ _ _ _ _ _ D0) E0 H0 B2 B3 B4) as R1.
  rewrite (ds_opts _ _ _ _ _ _ _ D0) in R1. specialize (R1 B6 B5 (ds_ext _ _ _ _ _ _ _ D0) Hx Hf).
  exists (after_unk L s0 (unk_next x subs)), (ser_blocks bs ++ 0x3B :: tl).
  split; [|split; [|split; [left; split; reflexivity|exact H0]]].
  - change (unk_sights x subs) with (map SPlain [] ++ unk_sights x subs).
    eapply arun_trans; [apply run_arun; [exact R0|constructor]|]. intros _. exact R1.
  - destruct D0 as [W1 W2 W3 W4 W5 W6 W7]. constructor; unfold after_unk; sdcbn; try assumption; [apply R1|].
    unfold unk_next. reflexivity.
Qed.

Lemma apos_meta s str i bs c x : docst s c x -> pos s str (BImg i :: bs) (0x3B :: tl) -> sd_header_end L s = true ->
  img_ok o g i ->
  exists s1 str1, atr s str [SPlain (DBlockStart BkImage);
      SFrame (DFrameMetadata (img_ty o i)) (Some (meta_frame c i (is_interlaced (im_flags i)) []))] s1 str1 /\
    midst L S o g s1 str1 (payload (im_subs i)) (x, ser_blocks bs ++ 0x3B :: tl) /\
    (o_skip_frame_decoding o = false ->
       exists z, lr_decoder L (sd_lzw L s1) = Some z /\
         forall inp out, lz_pending S (lz_new L (im_mcs i)) inp out -> lz_pending S z inp out).
Proof.
  intros Hd Hp Hh Hok.
  destruct (pos_image L S o g _ _ _ _ _ _ _ Hd Hp Hh Hok) as (s0 & R0 & E1 & E2 & E3 & E4 & E5 & E6 & E7 & E8).
  destruct Hok as (K1 & K2 & K3 & K4 & K5 & (K6 & K6') & K7 & (K8 & K8') & K9 & K10).
  destruct (im_subs i) as [|b subs] eqn:Esub; [congruence|]. clear K8.
  pose proof (Forall_inv K8') as Kb. pose proof (Forall_inv_tail K8') as Kr. clear K8'.
  unfold ser_subs in R0. cbn [map concat] in R0. unfold ser_sub at 1 in R0. cbn [app] in R0.
  rewrite <- !app_assoc in R0. cbn [app] in R0.
  set (rest := ser_blocks bs ++ 0x3B :: tl) in *. set (b0 := N.of_nat (length b)) in *.
  set (str1 := b ++ concat (map ser_sub subs) ++ 0 :: rest) in *.
  assert (Hgo : forall s1, nst L s0 [b0] ONone s1 ONone (Ok (1%nat, DFrameMetadata (img_ty o i))) ->
     sd_current L s1 = Some (meta_frame c i (is_interlaced (im_flags i)) []) ->
     atr s str [SPlain (DBlockStart BkImage);
      SFrame (DFrameMetadata (img_ty o i)) (Some (meta_frame c i (is_interlaced (im_flags i)) []))] s1 str1 /\ sd_wf L s1).
  { intros s1 Hn Hc.
    assert (R1 : arun s0 (b0 :: str1) [observe s1 (DFrameMetadata (img_ty o i))] s1 str1).
    { apply (arun_event s0 [b0] str1 s1 1); [apply R0|intros E; rewrite E1 in E; discriminate E|discriminate|exact Hn|reflexivity]. }
    split; [|apply R1]. cbn [observe] in R1. rewrite Hc in R1.
    match goal with |- atr _ _ [?x; ?y] _ _ => change [x; y] with (map SPlain [DBlockStart BkImage] ++ [y]) end.
    eapply atr_trans; [apply ctr_atr; [apply R0|repeat constructor]|]. apply R1. }
  unfold img_ty in *. destruct (o_skip_frame_decoding o) eqn:Esk.
  - set (s1 := set_state L s0 (CopySubBlock (N.to_nat b0))) in *.
    destruct (Hgo s1) as [G1 G2].
    { apply (N_init_skip L s0 [b0] ONone b0 []); [exact E1|reflexivity|congruence|apply code_size_ok; exact K7]. }
    { exact E5. }
    exists s1, str1. split; [exact G1|]. split; [|discriminate].
    constructor; try assumption. exists (N.to_nat b0). split; [now apply inblk_first|].
    rewrite Esk. reflexivity.
  - destruct (lr_reset_ok L S o _ _ E6 K7) as (r & z & Er & Er2 & Er3 & Er4 & _ & Er5).
    set (s1 := set_state L (set_lzw L s0 r) (DecodeSubBlock (N.to_nat b0))) in *.
    destruct (Hgo s1) as [G1 G2].
    { apply (N_init L s0 [b0] ONone b0 [] (im_mcs i) r); [exact E1|reflexivity|congruence|exact Er|apply code_size_ok; exact K7]. }
    { exact E5. }
    exists s1, str1. split; [exact G1|]. split.
    + constructor; try assumption. exists (N.to_nat b0). split; [now apply inblk_first|].
      rewrite Esk. split; [reflexivity|]. exists z. exact Er3.
    + intros _. exists z. split; [exact Er3|exact Er5].
Qed.

(** ** The rest of a file *)

(** All that is still to be seen, up to the trailer. *)
Inductive full : sd -> list N -> list sight -> Prop :=
| full_end s : full s tl []
| full_cons s str s1 str1 d obs :
    cn s str ONone (CEv s1 str1 ONone d) -> full s1 str1 obs -> full s str (observe s1 d :: obs).
Lemma atr_full s str obs s' str' : atr s str obs s' str' ->
  forall obs', obs' <> [] -> full s' str' obs' -> full s str (obs ++ obs').
Proof.
  induction 1 as [s str s1 str1 Hs|s str s3 str3 d evs s1 str1 H1 H2 IH]; intros obs' Hne H.
  - cbn [app]. destruct H as [|s' str' s2 str2 d obs' H H']; [congruence|]. econstructor; [apply Hs; exact H|exact H'].
  - cbn [app]. econstructor; [exact H1|]. now apply IH.
Qed.
Lemma sights_nonempty h c x bs : blocks_sights o h c x bs <> [].
Proof.
  revert h c x. induction bs as [|[l subs|i|t subs] bs IH]; intros h c x; cbn [blocks_sights]; [destruct h; discriminate| |destruct h; discriminate|].
  - intros E. apply app_eq_nil in E. destruct E as [_ E]. revert E. apply IH.
  - intros E. apply app_eq_nil in E. destruct E as [_ E]. apply app_eq_nil in E. destruct E as [_ E]. revert E. apply IH.
Qed.
Lemma header_full s str bs c x h : docst s c x -> pos s str bs (0x3B :: tl) -> sd_header_end L s = h ->
  heads_on bs (0x3B :: tl) ->
  exists s1 str1, docst s1 c x /\ pos s1 str1 bs (0x3B :: tl) /\ sd_header_end L s1 = true /\
    forall obs, obs <> [] -> full s1 str1 obs -> full s str ((if h then [] else [SPlain DHeaderEnd]) ++ obs).
Proof.
  intros Hd Hp Hh Hb. destruct h.
  - exists s, str. auto.
  - destruct (pos_header_end L S o g _ _ _ _ _ _ Hd Hp Hh Hb) as (s1 & str1 & H1 & H2 & H3 & H4).
    exists s1, str1. repeat (split; [assumption|]). intros obs _ Hf. cbn [app].
    change (SPlain DHeaderEnd) with (observe s1 DHeaderEnd). econstructor; eassumption.
Qed.

Lemma blocks_full bs : forall s str c x h, docst s c x -> pos s str bs (0x3B :: tl) -> sd_header_end L s = h ->
  follow o g x bs -> scannable o -> full s str (blocks_sights o h c x bs).
Proof.
  induction bs as [|b bs IH]; intros s str c x h Hd Hp Hh Hok Hsc; pose proof (follow_lead o g _ _ Hok) as Hlead.
  - cbn [blocks_sights].
    destruct (header_full _ _ _ _ _ _ Hd Hp Hh (or_introl (conj eq_refl (ex_intro _ tl eq_refl)))) as (s1 & str1 & D1 & P1 & H1 & Hf). apply Hf; [discriminate|].
    destruct (pos_trailer L S o g _ _ _ _ _ D1 P1 H1) as (s2 & H2).
    change (SPlain (DBlockStart BkTrailer)) with (observe s2 (DBlockStart BkTrailer)). econstructor; [exact H2|constructor].
  - destruct b as [l subs|i|t subs]; cbn [blocks_sights].
    + apply follow_ext in Hok as [Hb Hok']. destruct (apos_ext _ _ _ _ _ _ _ Hd Hp Hb) as (s1 & str1 & [R1 _] & D1 & P1 & H1).
      eapply atr_full; [exact R1|apply sights_nonempty|]. apply IH; try assumption; [congruence|].
      destruct subs; [destruct Hb as (_ & (Hne & _) & _); congruence|exact Hok'].
    + apply follow_img in Hok as [Hb Hok']. destruct (header_full _ _ _ _ _ _ Hd Hp Hh (heads_on_cons _ _ _ (proj1 Hlead) (proj2 Hlead))) as (s1 & str1 & D1 & P1 & H1 & Hf). apply Hf; [discriminate|].
      destruct (apos_meta _ _ _ _ _ _ D1 P1 H1 Hb) as (s2 & str2 & A2 & M2 & Hl).
      destruct (mid_skip L S o g _ _ _ _ M2) as (s3 & [R3 _] & D3 & E3 & H3).
      { intros Esk. destruct Hsc as [Hsc|Hc]; [congruence|]. split; [exact Hc|].
        destruct (Hl Esk) as (z & Hz & Hz'). exists z, [], []. split; [exact Hz|]. apply Hz', lz_new_nil. apply Hb. }
      match goal with |- full _ _ ([?x; ?y; ?z] ++ ?w) => change ([x; y; z] ++ w) with ([x; y] ++ [z] ++ w) end.
      eapply atr_full; [exact A2|discriminate|].
      eapply (atr_full _ _ [SPlain DDataEnd]); [apply (ctr_atr _ _ [DDataEnd]); [exact R3|repeat constructor]|apply sights_nonempty|].
      apply IH; [exact D3|left; auto|exact H3|assumption|assumption].
    + apply follow_unk in Hok as (Hb & Hx & Hf9 & Hok').
      destruct (header_full _ _ _ _ _ _ Hd Hp Hh (heads_on_cons _ _ _ (proj1 Hlead) (proj2 Hlead))) as (s1 & str1 & D1 & P1 & H1 & Hf).
      destruct (apos_unk _ _ _ _ _ _ _ D1 P1 H1 Hb Hx Hf9) as (s2 & str2 & [A2 _] & D2 & P2 & H2).
      apply Hf; [intros E; apply app_eq_nil in E; destruct E as [_ E]; revert E; apply sights_nonempty|].
      eapply atr_full; [exact A2|apply sights_nonempty|]. apply IH; assumption.
Qed.

Lemma file_full : gif_ok o g -> scannable o -> full (sd_new L o) (ser_gif g tl) (file_sights o g).
Proof.
  intros (G1 & G2 & G3 & G4 & G5 & G6 & G7 & G8 & G9) Hsc. unfold file_sights, ser_gif.
  assert (E : exists b q, ser_blocks (g_blocks g) ++ 0x3B :: tl = b :: q /\ pos (head_sd L o g b) q (g_blocks g) (0x3B :: tl)).
  { destruct (g_blocks g) as [|b bs]; [congruence|]. exists (lead b), (body b ++ ser_blocks bs ++ 0x3B :: tl).
    assert (E : ser_blocks (b :: bs) ++ 0x3B :: tl = lead b :: body b ++ ser_blocks bs ++ 0x3B :: tl).
    { unfold ser_blocks. cbn [map concat]. rewrite ser_blk_lead. cbn [app]. now rewrite <- app_assoc. }
    split; [exact E|]. right. left. exists (lead b). split; [reflexivity|]. split; [left; discriminate|]. symmetry. exact E. }
  destruct E as (b & q & E & P). rewrite E.
  destruct (run_head L safe o g b q G1 G2 G6) as [R W].
  eapply (atr_full _ _ (map SPlain (head_events g))); [apply ctr_atr; [exact R|repeat constructor]|apply sights_nonempty|].
  apply blocks_full; try assumption; [|reflexivity|split; assumption].
  constructor; try reflexivity; try assumption; [left; split; reflexivity|]. split; [reflexivity|exact I].
Qed.
End Blocks.

(** ** Any caller *)

(** The canonical reading is total. *)
Lemma cn_total n : forall s str, (meas L s str < n)%nat -> pre L s str -> exists y, cn s str ONone y.
Proof.
  induction n as [|n IH]; intros s str Hm (Hw & Hz & Ht); [lia|].
  destruct str as [|b t]; [exists (CStuck L); constructor|].
  assert (Hz1 : zero_ok L s [b]) by (intros E; destruct (Hz E) as (q & Hq); injection Hq as -> _; eauto).
  pose proof (next_state_good L safe s [b] ONone Hw Hz1 ltac:(discriminate)) as Hg.
  destruct (next_state L s [b] ONone) as [[s1 ob1] r] eqn:En. destruct Hg as (Ho & Hsh & Hg).
  destruct r as [[k d]|e| | ]; [|exists (CErr L e); eapply cn_err; exact En|easy|easy].
  cbn [same_shape] in Hsh. subst ob1.
  destruct (silent d) eqn:Es; [|eexists; eapply cn_ev; eassumption].
  destruct Hg as (Hn & Hw1 & Hzz & Htr & Hms & _). specialize (Hms Ht (or_introl eq_refl)).
  unfold meas in Hm, Hms. cbn [length] in Hm, Hms, Hn. rewrite skipn_length in Hms. cbn [length] in Hms.
  destruct (IH s1 (skipn k [b] ++ t)) as (y & Hy).
  - unfold meas. rewrite app_length, skipn_length. cbn [length]. lia.
  - split; [exact Hw1|]. split; [now apply zero_longer|]. intros E. destruct (Htr E); [congruence|]. subst d. discriminate Es.
  - exists y. eapply cn_silent; eassumption.
Qed.
Lemma cn_trailer s str ob y : cn s str ob y -> sd_state L s = Trailer -> y = CStuck L.
Proof.
  induction 1 as [s ob|s b t ob s1 ob1 n d H Hs|s b t ob s1 ob1 n d x H Hs Hc IH|s b t ob s1 ob1 e H]; intros Ht.
  - reflexivity.
  - unfold next_state in H. rewrite Ht in H. injection H as _ _ _ <-. discriminate Hs.
  - unfold next_state in H. rewrite Ht in H. injection H as <- _ _ _. apply IH. reflexivity.
  - unfold next_state in H. rewrite Ht in H. discriminate H.
Qed.

Lemma nsteps_cn s buf ob s1 buf1 ob1 : nsteps L s buf ob s1 buf1 ob1 -> pre L s buf -> ob = ONone ->
  ob1 = ONone /\ pre L s1 buf1 /\ forall tl y, cn s1 (buf1 ++ tl) ONone y -> cn s (buf ++ tl) ONone y.
Proof.
  induction 1 as [|s buf ob s1 ob1 n s' buf' ob' Hb He Hn IH]; intros (Hw & Hz & Ht) Eo; subst; [unfold pre; auto|].
  pose proof (next_state_nst L safe s buf ONone _ _ _ Hw Hz Hb He) as Hst.
  pose proof (next_state_good L safe s buf ONone Hw Hz Hb) as Hg. rewrite He in Hg.
  destruct Hg as (_ & Hsh & _ & Gw & Gz & Gt & _). cbn [same_shape] in Hsh. subst ob1.
  destruct IH as (I1 & I2 & I3); [|reflexivity|].
  { split; [exact Gw|]. split; [exact Gz|]. intros E. destruct (Gt E) as [A|A]; [congruence|discriminate A]. }
  split; [exact I1|]. split; [exact I2|]. intros tl y Hy.
  exact (absorb L safe s buf ONone s1 ONone _ tl Hw Hz Hb eq_refl Hst y (I3 tl y Hy)).
Qed.

Section Watch.
Variable o : options.
Variable g : gif.
Variable tl : list N.
Hypothesis Hok : gif_ok o g.
Hypothesis Hsc : scannable o.

Lemma blocks_last bs : forall h c x, exists l, blocks_sights o h c x bs = l ++ [SPlain (DBlockStart BkTrailer)].
Proof.
  induction bs as [|[l subs|i|t subs] bs IH]; intros h c x; cbn [blocks_sights].
  - eexists. reflexivity.
  - destruct (IH h (if l =? 0xF9 then ctl_of (payload subs) else c) (l, N.of_nat (length (hd [] subs)) :: payload subs)) as (q & ->). rewrite app_assoc. eauto.
  - destruct (IH true ctl_none x) as (q & ->). rewrite !app_assoc. eauto.
  - destruct (IH true c (fst x, snd x ++ payload subs)) as (q & ->). rewrite !app_assoc. eauto.
Qed.

Definition winv (s : sd) (rest : list N) (obs : list sight) : Prop :=
  sd_wf L s /\ zero_ok L s rest /\ exists missing, file_sights o g = obs ++ missing /\ full tl s rest missing /\
    (missing = [] <-> sd_state L s = Trailer).

(** One call. *)
Lemma watch_call s buf r obs missing : sd_wf L s -> zero_ok L s (buf ++ r) -> file_sights o g = obs ++ missing ->
  full tl s (buf ++ r) missing -> missing <> [] -> sd_state L s <> Trailer ->
  exists s' n d, update L s buf ONone = (s', ONone, Ok (n, d)) /\ (d = DNothing -> n = length buf) /\
    winv s' (skipn n buf ++ r) (obs ++ match d with DNothing | DLzwDataCopied _ => [] | _ => [observe s' d] end).
Proof.
  intros Hw Hz Hf Hfull Hm Ht.
  destruct buf as [|b0 buf].
  { exists s, O, DNothing. split; [reflexivity|]. split; [reflexivity|]. cbn [skipn app] in *. rewrite app_nil_r.
    split; [exact Hw|]. split; [exact Hz|]. exists missing. split; [exact Hf|]. split; [exact Hfull|]. tauto. }
  assert (Hb : b0 :: buf <> []) by discriminate. remember (b0 :: buf) as bf eqn:Eb. clear Eb b0 buf.
  pose proof (conj Hw (conj (zero_piece L _ _ _ Hz Hb) Ht) : pre L s bf) as Hpre.
  destruct (update L s bf ONone) as [[s' ob'] x] eqn:Hu.
  destruct (update_flat L safe _ _ _ _ _ _ Hpre Hu) as (s1 & buf1 & ob1 & Hns & _ & _ & Hc).
  destruct (nsteps_cn _ _ _ _ _ _ Hns Hpre eq_refl) as (-> & Hpre1 & Hslide).
  destruct (nsteps_suffix L safe _ _ _ _ _ _ Hns Hpre) as (k & Hk & Hkl).
  remember (bf ++ r) as str0 eqn:Estr. symmetry in Estr.
  destruct Hfull as [|s str s2 str2 d2 obs2 Hcn Hfull]; [congruence|].
  (* the rest of the sights after silent steps to [s3] *)
  assert (Hgo : forall s3 str3, (forall y, cn s3 str3 ONone y -> cn s str ONone y) -> pre L s3 str3 ->
    full tl s3 str3 (observe s2 d2 :: obs2)).
  { intros s3 str3 Hs3 Hp3. destruct (cn_total _ s3 str3 (Nat.lt_succ_diag_r _) Hp3) as (y & Hy).
    pose proof (cn_det L _ _ _ _ Hcn _ (Hs3 _ Hy)) as <-. econstructor; eassumption. }
  assert (Hlast : forall s3 str3, full tl s3 str3 (observe s2 d2 :: obs2) -> sd_state L s3 <> Trailer ->
    (observe s2 d2 :: obs2 = [] <-> sd_state L s3 = Trailer)) by (intros; split; [discriminate|contradiction]).
  destruct Hc as [(Hnil & -> & -> & ->)|(Hb1 & r0 & Hn0 & [(n0 & d & -> & Hd & ->)|(e & -> & ->)])].
  - exists s1, (length bf), DNothing. split; [reflexivity|]. split; [reflexivity|]. rewrite skipn_all. cbn [app]. rewrite app_nil_r.
    destruct Hpre1 as (W1 & Z1 & T1). rewrite Hnil in Z1.
    assert (Z : zero_ok L s1 r) by (apply (zero_longer L s1 [] r); exact Z1).
    split; [exact W1|]. split; [exact Z|]. exists (observe s2 d2 :: obs2). split; [exact Hf|].
    assert (F : full tl s1 r (observe s2 d2 :: obs2)).
    { apply Hgo; [|split; [|split]; assumption]. intros y Hy. subst str. apply Hslide. rewrite Hnil. exact Hy. }
    split; [exact F|]. eapply Hlast; eassumption.
  - destruct Hpre1 as (W1 & Z1 & T1).
    pose proof (next_state_nst L safe _ _ _ _ _ _ W1 Z1 Hb1 Hn0) as Hst.
    pose proof (next_state_good L safe _ _ ONone W1 Z1 Hb1) as Hg. rewrite Hn0 in Hg.
    destruct Hg as (_ & Hsh & Gn & Gw & Gz & Gt & _). cbn [same_shape] in Hsh. subst ob'.
    pose proof (absorb L safe _ _ ONone _ ONone _ r W1 Z1 Hb1 eq_refl Hst) as Ha. cbn [absorbed] in Ha.
    set (n := (length bf - length (skipn n0 buf1))%nat).
    assert (En : skipn n bf = skipn n0 buf1).
    { unfold n. rewrite Hk in *. apply skipn_skipn_suffix. exact Hkl. exact Gn. }
    exists s', n, d. split; [reflexivity|]. split; [contradiction|]. rewrite En.
    assert (Z : zero_ok L s' (skipn n0 buf1 ++ r)) by (now apply zero_longer).
    split; [exact Gw|]. split; [exact Z|].
    destruct (silent d) eqn:Es.
    + destruct d; try discriminate Es; [congruence|]. rewrite app_nil_r.
      assert (T : sd_state L s' <> Trailer) by (intros E; destruct (Gt E) as [A|A]; [congruence|discriminate A]).
      exists (observe s2 d2 :: obs2). split; [exact Hf|].
      assert (F : full tl s' (skipn n0 buf1 ++ r) (observe s2 d2 :: obs2)).
      { apply Hgo; [|split; [|split]; assumption]. intros y Hy. subst str. apply Hslide. apply Ha. exact Hy. }
      split; [exact F|]. eapply Hlast; eassumption.
    + specialize (Ha _ eq_refl). apply Hslide in Ha. rewrite Estr in Ha.
      pose proof (cn_det L _ _ _ _ Hcn _ Ha) as E. injection E as -> -> ->.
      exists obs2.
      assert (Eo : match d with DNothing | DLzwDataCopied _ => [] | _ => [observe s' d] end = [observe s' d]) by (destruct d; try discriminate Es; reflexivity).
      rewrite Eo. split; [rewrite <- app_assoc; exact Hf|]. split; [exact Hfull|]. split.
      * intros ->.
        assert (El : exists l, file_sights o g = l ++ [SPlain (DBlockStart BkTrailer)]).
        { unfold file_sights. destruct (blocks_last (g_blocks g) false ctl_none (0, [])) as (l & ->). rewrite app_assoc. eauto. }
        destruct El as (l & El). rewrite El in Hf. apply app_inj_tail in Hf. destruct Hf as [_ Hf].
        assert (d = DBlockStart BkTrailer) as ->.
        { destruct d as [ | | | | |[ | | ]| | | | | | ]; try discriminate Hf; try reflexivity. }
        clear - Hst. inversion Hst; subst; try reflexivity; exfalso;
          [destruct (is_netscape _) in *|destruct (w =? 0)%nat in *|destruct (w =? 0)%nat in *]; discriminate.
      * intros E. destruct Hfull as [|s' str' s3 str3 d3 obs3 Q Hq]; [reflexivity|].
        apply cn_trailer in Q; [discriminate Q|exact E].
  - exfalso. destruct Hpre1 as (W1 & Z1 & T1).
    pose proof (next_state_nst L safe _ _ _ _ _ _ W1 Z1 Hb1 Hn0) as Hst.
    pose proof (next_state_good L safe _ _ ONone W1 Z1 Hb1) as Hg. rewrite Hn0 in Hg.
    destruct Hg as (_ & Hsh & _). cbn [same_shape] in Hsh. subst ob'.
    pose proof (absorb L safe _ _ ONone _ ONone _ r W1 Z1 Hb1 eq_refl Hst) as Ha. cbn [absorbed] in Ha.
    apply Hslide in Ha. rewrite Estr in Ha. pose proof (cn_det L _ _ _ _ Hcn _ Ha) as E. discriminate E.
Qed.

Lemma watched_inv s rest obs : watched L o (ser_gif g tl) s rest obs -> winv s rest obs.
Proof.
  induction 1 as [|s buf r s' ob' n d obs _ IH Hu].
  - split; [apply sd_new_wf|]. split; [intros E; discriminate E|]. exists (file_sights o g). split; [reflexivity|].
    split; [now apply file_full|]. split; [|discriminate]. unfold file_sights. discriminate.
  - destruct IH as (Hw & Hz & missing & Hf & Hfull & Hm).
    destruct missing as [|x missing].
    + pose proof (proj1 Hm eq_refl) as Ht. destruct buf as [|b buf].
      * cbn in Hu. injection Hu as <- _ <- <-. cbn [skipn app] in *. rewrite app_nil_r.
        split; [exact Hw|]. split; [exact Hz|]. exists []. auto.
      * pose proof (trailer_hangs L s (b :: buf) ONone (update_fuel (b :: buf)) (length (b :: buf)) Ht ltac:(discriminate) Hw
          : snd (update L s (b :: buf) ONone) = Hang) as Hh. rewrite Hu in Hh. discriminate Hh.
    + destruct (watch_call s buf r obs (x :: missing) Hw Hz Hf Hfull ltac:(discriminate)) as (s2 & n2 & d2 & E & _ & Hi).
      { intros E. apply Hm in E. discriminate E. }
      rewrite E in Hu. injection Hu as <- _ <- <-. exact Hi.
Qed.

(** What has been seen is the beginning of what the file shows; until all of it has been seen the caller
    can go on with any piece of what is left, and every call that reports nothing has taken its whole piece. *)
Theorem stream_report s rest obs : watched L o (ser_gif g tl) s rest obs ->
  exists missing, file_sights o g = obs ++ missing /\ (missing = [] -> rest = tl) /\
    (missing <> [] -> rest <> [] /\
       forall buf r, rest = buf ++ r -> exists s' n d, update L s buf ONone = (s', ONone, Ok (n, d)) /\ (d = DNothing -> n = length buf)).
Proof.
  intros H. destruct (watched_inv _ _ _ H) as (Hw & Hz & missing & Hf & Hfull & Hm).
  exists missing. split; [exact Hf|]. split.
  - intros ->. inversion Hfull. reflexivity.
  - intros Hne. split.
    + intros ->. inversion Hfull as [|? ? s1 str1 d obs' Q _]; subst; [congruence|]. inversion Q.
    + intros buf r ->. destruct (watch_call s buf r obs missing Hw Hz Hf Hfull Hne) as (s' & n & d & E & Hn & _).
      { intros E. apply Hm in E. congruence. }
      eauto 6.
Qed.

(** All of it is seen if the caller goes on. *)
Lemma watch_on m : forall s rest obs, (meas L s rest < m)%nat -> watched L o (ser_gif g tl) s rest obs ->
  exists s', watched L o (ser_gif g tl) s' tl (file_sights o g).
Proof.
  induction m as [|m IH]; intros s rest obs Hm H; [lia|].
  destruct (watched_inv _ _ _ H) as (Hw & Hz & missing & Hf & Hfull & Ht).
  destruct (stream_report _ _ _ H) as (missing' & Hf' & Hend & Hgo).
  assert (missing' = missing) as -> by (rewrite Hf in Hf'; now apply app_inv_head in Hf').
  destruct missing as [|x missing].
  - exists s. rewrite (Hend eq_refl) in H. rewrite Hf, app_nil_r. exact H.
  - destruct (Hgo ltac:(discriminate)) as [Hr Hu]. destruct (Hu rest [] ltac:(now rewrite app_nil_r)) as (s' & n & d & E & _).
    assert (Hnt : sd_state L s <> Trailer) by (intros A; apply Ht in A; discriminate A).
    destruct (update_meas L safe s rest ONone s' ONone n d (conj Hw (conj Hz Hnt)) Hr E) as [_ Hmm].
    specialize (Hmm eq_refl).
    assert (H0 : watched L o (ser_gif g tl) s (rest ++ []) obs) by (now rewrite app_nil_r).
    pose proof (wt_ok L o (ser_gif g tl) _ _ _ _ _ _ _ _ H0 E) as H1. revert H1. apply IH. rewrite app_nil_r. lia.
Qed.
Theorem stream_complete s rest obs : watched L o (ser_gif g tl) s rest obs ->
  exists s', watched L o (ser_gif g tl) s' tl (file_sights o g).
Proof. apply watch_on with (m := Datatypes.S (meas L s rest)). lia. Qed.
End Watch.
End ST.
