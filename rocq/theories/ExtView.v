(** What [last_ext] shows after each call of [update], on arbitrary input. *)
From Verif Require Import Base Common Lzw Encoder Stream Converter Reader StreamInv ReaderInv Steps SpecStream SpecExt StreamProps.
Open Scope N_scope.

Lemma taken_length (bf used buf1 : list N) n : bf = used ++ buf1 ->
  firstn (length bf - length (skipn n buf1)) bf = used ++ firstn n buf1.
Proof.
  intros ->. assert (El : (length (skipn n buf1) + length (firstn n buf1) = length buf1)%nat).
  { rewrite <- (firstn_skipn n buf1) at 3. rewrite app_length. lia. }
  rewrite app_length.
  replace (length used + length buf1 - length (skipn n buf1))%nat with (length used + length (firstn n buf1))%nat by lia.
  rewrite firstn_app_2. f_equal. rewrite firstn_length. destruct (Nat.le_gt_cases n (length buf1)) as [Hl|Hl].
  - now rewrite Nat.min_l by exact Hl.
  - rewrite Nat.min_r by lia. rewrite firstn_all. symmetry. apply firstn_all2. lia.
Qed.

Section Ext.
Variable L : lzw_codec.
Hypothesis safe : lzw_safe L.
Notation sd := (sd L).

Definition in_ext (s : sd) : Prop := match sd_state L s with ExtensionDataBlock _ => True | _ => False end.

(** Steps without an event that take [used]. *)
Definition quiet (s : sd) (used : list N) (s' : sd) : Prop :=
  sd_ext_id L s' = sd_ext_id L s /\ sd_ext_end L s' = sd_ext_end L s /\ (in_ext s -> in_ext s') /\
  exists front xs, used = front ++ xs /\ sd_ext_data L s' = sd_ext_data L s ++ xs /\
    (xs <> [] -> in_ext s') /\ (in_ext s -> front = []).
Lemma quiet_refl s : quiet s [] s.
Proof.
  split; [reflexivity|]. split; [reflexivity|]. split; [auto|]. exists [], []. rewrite !app_nil_r.
  split; [reflexivity|]. split; [reflexivity|]. split; [congruence|auto].
Qed.
Lemma quiet_trans s u1 s1 u2 s2 : quiet s u1 s1 -> quiet s1 u2 s2 -> quiet s (u1 ++ u2) s2.
Proof.
  intros (A1 & A2 & A3 & f1 & x1 & A4 & A5 & A6 & A7) (B1 & B2 & B3 & f2 & x2 & B4 & B5 & B6 & B7).
  split; [congruence|]. split; [congruence|]. split; [auto|].
  destruct x1 as [|b x1].
  - exists (f1 ++ f2), x2. subst u1 u2. rewrite B5, A5, !app_nil_r. split; [now rewrite app_assoc|]. split; [reflexivity|].
    split; [exact B6|]. intros H. rewrite (A7 H), (B7 (A3 H)). reflexivity.
  - assert (H : in_ext s1) by (apply A6; discriminate). rewrite (B7 H) in B4. cbn [app] in B4.
    exists f1, ((b :: x1) ++ x2). subst u1 u2. rewrite B5, A5, <- !app_assoc. auto.
Qed.
Lemma quiet_step s buf ob s' ob' n : nst L s buf ob s' ob' (Ok (n, DNothing)) -> quiet s (firstn n buf) s'.
Proof.
  intros H.
  assert (K : in_ext s -> False -> False) by tauto.
  assert (E0 : in_ext s -> exists k, sd_state L s = ExtensionDataBlock k).
  { unfold in_ext. destruct (sd_state L s) as [ | | | | | | |k| | | | | | | ]; try contradiction. eauto. }
  assert (Same : ~ in_ext s -> sd_ext_id L s' = sd_ext_id L s -> sd_ext_end L s' = sd_ext_end L s -> sd_ext_data L s' = sd_ext_data L s ->
    quiet s (firstn n buf) s').
  { intros H0 H1 H2 H3. split; [exact H1|]. split; [exact H2|]. split; [tauto|]. exists (firstn n buf), []. rewrite !app_nil_r.
    split; [reflexivity|]. split; [exact H3|]. split; [congruence|tauto]. }
  inversion H; subst; try discriminate;
    try (apply Same; [intros I; destruct (E0 I) as [kk Ek]; congruence|reflexivity|reflexivity|reflexivity]).
  - apply Same; try reflexivity. intros I. destruct (E0 I) as [kk Ek]. rewrite Ek in *. discriminate.
  - apply Same; [intros I; destruct (E0 I) as [kk Ek]; congruence| | |]; unfold after_image; destruct (negb _); reflexivity.
  - split; [reflexivity|]. split; [reflexivity|]. split; [intros I; destruct (E0 I) as [kk Ek]; congruence|].
    exists [], [b]. cbn [firstn app]. split; [reflexivity|]. split; [reflexivity|]. split; [intros _; exact I|reflexivity].
  - split; [reflexivity|]. split; [reflexivity|]. split; [intros _; exact I|].
    exists [], (firstn (Nat.min k (length buf)) buf). split; [reflexivity|]. split; [reflexivity|]. split; [intros _; exact I|reflexivity].
Qed.

Lemma quiet_steps s buf ob s' buf' ob' : nsteps L s buf ob s' buf' ob' -> pre L s buf ->
  exists used, buf = used ++ buf' /\ quiet s used s'.
Proof.
  induction 1 as [|s buf ob s1 ob1 n s' buf' ob' Hb He Hn IH]; intros (Hw & Hz & Ht).
  { exists []. split; [reflexivity|apply quiet_refl]. }
  pose proof (next_state_good L safe s buf ob Hw Hz Hb) as Hg. rewrite He in Hg.
  destruct Hg as (_ & _ & _ & Gw & Gz & Gt & _). apply next_state_nst in He; auto.
  destruct IH as (used & E & Q).
  { split; [exact Gw|]. split; [exact Gz|]. intros E. destruct (Gt E) as [A|A]; [auto|discriminate A]. }
  exists (firstn n buf ++ used). rewrite <- app_assoc, <- E, firstn_skipn. split; [reflexivity|].
  eapply quiet_trans; [eapply quiet_step; exact He|exact Q].
Qed.

Lemma event_step s buf ob s' ob' n d : nst L s buf ob s' ob' (Ok (n, d)) -> d <> DNothing ->
  forall s0 used, quiet s0 used s -> ext_after (last_ext L s0) d (used ++ firstn n buf) (last_ext L s').
Proof.
  intros H Hd s0 used (A1 & A2 & A3 & f1 & x1 & A4 & A5 & A6 & A7). unfold last_ext, ext_after.
  assert (Same : (forall k, sd_state L s <> ExtensionDataBlock k) -> sd_ext_data L s = sd_ext_data L s0).
  { intros Hk. destruct x1 as [|b x1]; [rewrite A5; apply app_nil_r|].
    assert (I : in_ext s) by (apply A6; discriminate). unfold in_ext in I.
    destruct (sd_state L s) as [ | | | | | | |k| | | | | | | ]; try contradiction. destruct (Hk k); reflexivity. }
  subst used. inversion H; subst; try congruence; sdcbn;
    try (rewrite A1, A2, Same by (intros kk; congruence); reflexivity).
  - unfold after_screen. destruct (negb _); sdcbn; rewrite A1, A2, Same by (intros kk; congruence); reflexivity.
  - cbn [firstn]. split; [reflexivity|]. split; [exact A2|]. split; [|exists (f1 ++ x1); reflexivity].
    unfold extension_from_u8 in *. cbn [In].
    destruct (N.eqb_spec b 1); [auto|]. destruct (N.eqb_spec b 0xF9); [auto|]. destruct (N.eqb_spec b 0xFE); [auto|].
    destruct (N.eqb_spec b 0xFF); [auto|discriminate].
  - cbn [firstn]. rewrite A1. do 3 (split; [reflexivity|]). exists f1, x1, b. rewrite <- !app_assoc. auto.
  - cbn [firstn]. rewrite A1 in *. do 3 (split; [reflexivity|]). exists f1, x1.
    replace (sd_ext_id L s0 =? 0xFF) with true; [rewrite <- !app_assoc; auto|].
    symmetry. apply N.eqb_eq. unfold extension_from_u8 in *.
    destruct (N.eqb_spec (sd_ext_id L s0) 1); [discriminate|]. destruct (N.eqb_spec (sd_ext_id L s0) 0xF9); [discriminate|].
    destruct (N.eqb_spec (sd_ext_id L s0) 0xFE); [discriminate|]. destruct (N.eqb_spec (sd_ext_id L s0) 0xFF); [assumption|discriminate].
  - cbn [firstn]. rewrite A1 in *. do 3 (split; [reflexivity|]). exists f1, x1.
    replace (sd_ext_id L s0 =? 0xFF) with false; [rewrite <- !app_assoc; auto|].
    symmetry. apply N.eqb_neq. intros E. rewrite E in *. discriminate.
  - cbn [firstn]. rewrite A1 in *. do 3 (split; [reflexivity|]). exists f1, x1.
    replace (sd_ext_id L s0 =? 0xFF) with false; [rewrite <- !app_assoc; auto|].
    symmetry. apply N.eqb_neq. intros E. rewrite E in *. cbn in *. congruence.
  - destruct (is_netscape _); [|congruence]. rewrite A1, A2, Same by (intros kk; congruence); reflexivity.
  - destruct (w =? 0)%nat; [congruence|]. rewrite A1, A2, Same by (intros kk; congruence); reflexivity.
  - destruct (w =? 0)%nat; [congruence|]. rewrite A1, A2, Same by (intros kk; congruence); reflexivity.
Qed.

Theorem ext_view o s buf tl evs ob s' ob' n d : driven L o s (buf ++ tl) evs -> update L s buf ob = (s', ob', Ok (n, d)) ->
  ext_after (last_ext L s) d (firstn n buf) (last_ext L s').
Proof.
  intros Hd Hu. destruct buf as [|b buf].
  { cbn in Hu. injection Hu as <- _ <- <-. unfold last_ext, ext_after. split; [reflexivity|]. split; [reflexivity|].
    exists [], []. rewrite !app_nil_r. auto. }
  destruct (driven_drv L safe _ _ _ _ Hd) as (Ho & Hw & Hz & p & Hr & Hp).
  assert (Hb : b :: buf <> []) by discriminate. remember (b :: buf) as bf eqn:Eb. clear Eb.
  pose proof (zero_piece L _ _ _ Hz Hb) as Hz1.
  assert (Ht : sd_state L s <> Trailer).
  { intros Ht. pose proof (trailer_hangs L s bf ob (update_fuel bf) (length bf) Ht Hb Hw : snd (update L s bf ob) = Hang) as Hh.
    rewrite Hu in Hh. discriminate Hh. }
  pose proof (conj Hw (conj Hz1 Ht) : pre L s bf) as Hpre.
  destruct (update_flat L safe _ _ _ _ _ _ Hpre Hu) as (s1 & buf1 & ob1 & Hns & (Hw1 & Hz2 & Ht1) & _ & Hc).
  destruct (quiet_steps _ _ _ _ _ _ Hns Hpre) as (used & Eu & Q).
  destruct Hc as [(E1 & -> & _ & Er)|(Hb1 & r0 & Hns0 & [(n0 & d0 & -> & Hd0 & Er)|(e & _ & Er)])]; [| |discriminate Er].
  - injection Er as -> ->. subst buf1. rewrite firstn_all. rewrite app_nil_r in Eu. subst bf.
    destruct Q as (A1 & A2 & A3 & f1 & x1 & A4 & A5 & A6 & A7). unfold last_ext, ext_after. rewrite A1, A2.
    split; [reflexivity|]. split; [reflexivity|]. eauto.
  - injection Er as -> ->. apply next_state_nst in Hns0; auto.
    rewrite (taken_length _ _ _ _ Eu). eapply event_step; eassumption.
Qed.
End Ext.

(** ** The header *)
Section Header.
Variable L : lzw_codec.
Hypothesis safe : lzw_safe L.
Notation sd := (sd L).

Definition magic_of (v : version) : list N := match v with V87a => GIF87a | V89a => GIF89a end.
Definition hinv (s : sd) (taken : list N) : Prop :=
  match sd_state L s with
  | Magic => taken = sd_ibuf L s /\ (length taken < 6)%nat /\ sd_version L s = V87a /\ sd_width L s = 0 /\ sd_height L s = 0
  | ScreenDescriptor => taken = magic_of (sd_version L s) ++ sd_ibuf L s /\ (length (sd_ibuf L s) < 7)%nat /\
      sd_width L s = 0 /\ sd_height L s = 0
  | _ => exists v t, taken = magic_of (sd_version L s) ++ v ++ t /\ length v = 7%nat /\
      sd_width L s = rd16 (at_ v 0) (at_ v 1) /\ sd_height L s = rd16 (at_ v 2) (at_ v 3)
  end.
Definition early (st : state) : Prop := match st with Magic | ScreenDescriptor => True | _ => False end.
Lemma hinv_late s taken : ~ early (sd_state L s) ->
  (hinv s taken <-> exists v t, taken = magic_of (sd_version L s) ++ v ++ t /\ length v = 7%nat /\
      sd_width L s = rd16 (at_ v 0) (at_ v 1) /\ sd_height L s = rd16 (at_ v 2) (at_ v 3)).
Proof. unfold hinv, early. destruct (sd_state L s); tauto. Qed.
Lemma hinv_step s buf ob s' ob' n d taken : hinv s taken -> nst L s buf ob s' ob' (Ok (n, d)) -> hinv s' (taken ++ firstn n buf).
Proof.
  intros Hi H.
  assert (Late : ~ early (sd_state L s) -> ~ early (sd_state L s') -> sd_version L s' = sd_version L s ->
    sd_width L s' = sd_width L s -> sd_height L s' = sd_height L s -> hinv s' (taken ++ firstn n buf)).
  { intros H1 H2 H3 H4 H5. apply (hinv_late s taken H1) in Hi. apply hinv_late; [exact H2|].
    destruct Hi as (v & t & E & Hl & Hw & Hh). exists v, (t ++ firstn n buf). rewrite H3, H4, H5, E, <- !app_assoc. auto. }
  inversion H; subst;
    try (apply Late; [match goal with E : sd_state L s = _ |- _ => rewrite E end; exact (fun x => x)|exact (fun x => x)|reflexivity|reflexivity|reflexivity]).
  - (* more *) rewrite firstn_all in *. destruct (sd_state L s) eqn:Es; try discriminate.
    + unfold hinv in Hi |- *. sdcbn. rewrite Es in *. cbn [need] in *. destruct Hi as (-> & _ & A). auto.
    + unfold hinv in Hi |- *. sdcbn. rewrite Es in *. cbn [need] in *. destruct Hi as (-> & _ & A). rewrite <- app_assoc. auto.
    + apply Late; try reflexivity; sdcbn; rewrite ?Es; exact (fun x => x).
  - unfold hinv in Hi |- *. sdcbn. match goal with E : sd_state L s = _ |- _ => rewrite E in Hi end.
    destruct Hi as (-> & _ & _ & A). rewrite app_nil_r. split; [|split; [cbn; lia|exact A]].
    match goal with E : hdr L s buf = _ |- _ => exact E end.
  - unfold hinv in Hi |- *. match goal with E : sd_state L s = _ |- _ => rename E into Es; rewrite Es in Hi end.
    destruct Hi as (-> & Hl & _).
    assert (Hh : length (hdr L s buf) = 7%nat).
    { unfold hdr in *. unfold hn in *. rewrite Es in *. cbn [need] in *. rewrite app_length, firstn_length. lia. }
    unfold after_screen. destruct (negb _); sdcbn; exists (hdr L s buf), []; rewrite app_nil_r, <- app_assoc; auto.
  - match goal with E : sd_state L s = _ |- _ => rename E into Es end.
    apply Late; [rewrite Es; exact (fun x => x)|..]; unfold after_image; destruct (negb _); sdcbn; try reflexivity; exact (fun x => x).
  - match goal with E : sd_state L s = _ |- _ => rename E into Es end.
    apply Late; try reflexivity; [rewrite Es; exact (fun x => x)|]. sdcbn. destruct (_ =? 0)%nat; exact (fun x => x).
Qed.
Lemma hinv_steps s buf ob s' buf' ob' : nsteps L s buf ob s' buf' ob' -> pre L s buf -> forall taken, hinv s taken ->
  exists used, buf = used ++ buf' /\ hinv s' (taken ++ used).
Proof.
  induction 1 as [|s buf ob s1 ob1 n s' buf' ob' Hb He Hn IH]; intros (Hw & Hz & Ht) taken Hi.
  { exists []. rewrite app_nil_r. auto. }
  pose proof (next_state_good L safe s buf ob Hw Hz Hb) as Hg. rewrite He in Hg.
  destruct Hg as (_ & _ & _ & Gw & Gz & Gt & _). apply next_state_nst in He; auto.
  assert (Gp : pre L s1 (skipn n buf)).
  { split; [exact Gw|]. split; [exact Gz|]. intros E. destruct (Gt E) as [A|A]; [auto|discriminate A]. }
  destruct (IH Gp _ (hinv_step _ _ _ _ _ _ _ _ Hi He)) as (used & E & Q).
  exists (firstn n buf ++ used). rewrite <- app_assoc, <- E, firstn_skipn. split; [reflexivity|]. rewrite app_assoc. exact Q.
Qed.

Lemma reading_driven o file s taken : reading L o file s taken ->
  (exists rest evs, file = taken ++ rest /\ driven L o s rest evs) /\ hinv s taken.
Proof.
  induction 1 as [|s taken buf tl ob s' ob' n d Hr ((rest & evs & Ef & Hd) & Hi) E Hu].
  - split; [exists file, []; split; [reflexivity|constructor]|]. unfold hinv. cbn. split; [reflexivity|]. split; [lia|auto].
  - rewrite E in Ef. apply app_inv_head in Ef. subst rest.
    split. { exists (skipn n buf ++ tl), (evs ++ [d]). split; [|econstructor; eassumption].
      rewrite E, <- app_assoc. f_equal. rewrite app_assoc, firstn_skipn. reflexivity. }
    destruct buf as [|b buf].
    { cbn in Hu. injection Hu as <- _ <- <-. rewrite app_nil_r. exact Hi. }
    destruct (driven_drv L safe _ _ _ _ Hd) as (Ho & Hw & Hz & p & _ & Hp).
    assert (Hb : b :: buf <> []) by discriminate. remember (b :: buf) as bf eqn:Eb. clear Eb.
    pose proof (zero_piece L _ _ _ Hz Hb) as Hz1.
    assert (Ht : sd_state L s <> Trailer).
    { intros Ht. pose proof (trailer_hangs L s bf ob (update_fuel bf) (length bf) Ht Hb Hw : snd (update L s bf ob) = Hang) as Hh.
      rewrite Hu in Hh. discriminate Hh. }
    pose proof (conj Hw (conj Hz1 Ht) : pre L s bf) as Hpre.
    destruct (update_flat L safe _ _ _ _ _ _ Hpre Hu) as (s1 & buf1 & ob1 & Hns & (Hw1 & Hz2 & Ht1) & _ & Hc).
    destruct (hinv_steps _ _ _ _ _ _ Hns Hpre taken Hi) as (used & Eu & Q).
    destruct Hc as [(E1 & -> & _ & Er)|(Hb1 & r0 & Hns0 & [(n0 & d0 & -> & Hd0 & Er)|(e & _ & Er)])]; [| |discriminate Er].
    + injection Er as -> ->. subst buf1. rewrite firstn_all. rewrite app_nil_r in Eu. now subst bf.
    + injection Er as -> ->. apply next_state_nst in Hns0; auto.
      rewrite (taken_length _ _ _ _ Eu), app_assoc. eapply hinv_step; eassumption.
Qed.

Theorem header_seen o file s taken : reading L o file s taken ->
  header_view taken (sd_version L s) (sd_width L s) (sd_height L s).
Proof.
  intros H. destruct (reading_driven _ _ _ _ H) as (_ & Hi). clear H. unfold header_view.
  assert (Hm : forall v, length (magic_of v) = 6%nat) by (intros []; reflexivity).
  assert (Late : (exists v t, taken = magic_of (sd_version L s) ++ v ++ t /\ length v = 7%nat /\
      sd_width L s = rd16 (at_ v 0) (at_ v 1) /\ sd_height L s = rd16 (at_ v 2) (at_ v 3)) ->
      header_view taken (sd_version L s) (sd_width L s) (sd_height L s)).
  { intros (v & t & -> & Hl & Hw & Hh). unfold header_view. rewrite !app_length, Hm, Hl.
    split; [lia|]. split; [intros _; destruct (sd_version L s); reflexivity|]. split; [lia|]. intros _.
    rewrite Hw, Hh. do 7 (destruct v as [|? v]; [discriminate Hl|]). destruct (sd_version L s); split; cbn [at_ nth magic_of app GIF87a GIF89a]; unfold rd16, at_; cbn [nth]; lia. }
  unfold hinv in Hi. destruct (sd_state L s); try exact (Late Hi); clear Late.
  - destruct Hi as (_ & Hl & -> & -> & ->). repeat split; auto; lia.
  - destruct Hi as (-> & Hl & -> & ->). rewrite app_length, Hm. split; [lia|].
    split; [intros _; destruct (sd_version L s); reflexivity|]. split; [auto|lia].
Qed.
End Header.
