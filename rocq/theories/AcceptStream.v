(** The streaming decoder takes every file of the grammar of [SpecAccept], in any pieces. *)
From Verif Require Import Base Common Lzw Encoder Stream StreamInv Steps Ranges Converter Reader ReaderInv ConvInv DecoderSafe DecInv CanonReader AcceptDec.
From Verif Require Import SpecGif SpecAccept SpecStream StreamProps Accept DocTrace DocBlocks DocAll AcceptFwd.
Open Scope N_scope.

Section Skim.
Variable L : lzw_codec.
Variable S : lzw_spec L.
Notation safe := (lz_is_safe L S).
Variable o : options.
Variable g : gif.
Variable tz : list N.
Hypothesis scans : scannable o.
Hypothesis fine : file_acc false o g tz.
Notation sd := (sd L).
Notation coming := (coming L S false o g tz).
Notation tells := (tells L S false o g tz).

Definition heads (s : sd) (buf more : list N) (q : list (ctl * img)) : Prop := exists k, coming s (buf ++ more) q k.
Lemma heads_step s buf more q s1 ob1 x : pre L s buf -> buf <> [] -> heads s buf more q -> next_state L s buf ONone = (s1, ob1, x) ->
  exists n d q', x = Ok (n, d) /\ ob1 = ONone /\ (n <= length buf)%nat /\ heads s1 (skipn n buf) more q' /\
    sd_wf L s1 /\ zero_ok L s1 (skipn n buf) /\ (sd_state L s1 = Trailer -> d = DBlockStart BkTrailer /\ q' = []) /\
    (d = DBlockStart BkTrailer -> sd_state L s1 = Trailer) /\
    match d with DFrameMetadata _ => exists ci, q = ci :: q' /\ sd_current L s1 = Some (meta_seen ci) | _ => q' = q end.
Proof.
  intros (H1 & H3 & Hnt) Hb (k & Hc) He.
  pose proof (next_state_good L safe s buf ONone H1 H3 Hb) as Hg. rewrite He in Hg.
  pose proof (next_state_nst L safe _ _ _ _ _ _ H1 H3 Hb He) as Hst.
  destruct (coming_step L S false o g tz scans (fine_head false o g tz fine) _ _ _ _ _ _ _ _ H1 Hb Hc Hst) as (n & d & q' & k' & -> & -> & Hc' & Ht).
  destruct Hg as (_ & _ & Hn & Hg2 & Hg3 & Hg4 & _).
  exists n, d, q'. split; [reflexivity|]. split; [reflexivity|]. split; [exact Hn|]. split; [exists k'; exact Hc'|]. split; [exact Hg2|]. split; [exact Hg3|].
  destruct Ht as (_ & _ & Ht).
  split.
  { intros E. destruct (Hg4 E) as [Q| ->]; [contradiction|]. cbn in Ht. destruct Ht as (-> & -> & _). auto. }
  split; [intros ->; apply Ht|].
  destruct d; try exact Ht; try apply Ht.
  - destruct b; first [exact Ht|apply Ht].
  - destruct Ht as (c & i & E & _ & Ec & _). exists (c, i). split; [exact E|exact Ec].
Qed.
Lemma nsteps_heads s buf ob s' buf' ob' : nsteps L s buf ob s' buf' ob' -> forall more q, ob = ONone -> pre L s buf -> heads s buf more q ->
  ob' = ONone /\ heads s' buf' more q.
Proof.
  induction 1 as [|s buf ob s1 ob1 n s' buf' ob' Hb He Hn IH]; intros more q -> Hp Hh; [auto|].
  destruct (heads_step _ _ _ _ _ _ _ Hp Hb Hh He) as (n' & d & q' & E & -> & _ & Hh' & A & B & C & _ & D). injection E as <- <-.
  subst q'. apply IH; [reflexivity| |exact Hh']. split; [exact A|]. split; [exact B|]. intros Q. destruct (C Q) as [C' _]. discriminate C'.
Qed.

Definition skims (s : sd) (rest : list N) (evs : list decoded) (fs : list frame) : Prop :=
  sd_wf L s /\ zero_ok L s rest /\ (sd_state L s = Trailer <-> In (DBlockStart BkTrailer) evs) /\
  exists q k, coming s rest q k /\ map meta_seen (acc_images g) = fs ++ map meta_seen q.
Lemma update_skims s buf more evs fs : skims s (buf ++ more) evs fs -> ~ In (DBlockStart BkTrailer) evs ->
  exists s' n d, update L s buf ONone = (s', ONone, Ok (n, d)) /\
    skims s' (skipn n buf ++ more) (evs ++ [d]) (fs ++ match d, sd_current L s' with DFrameMetadata _, Some f => [f] | _, _ => [] end).
Proof.
  intros (Hw & Hz & Ht & q & k & Hc & Hq) Hnt.
  destruct buf as [|b buf].
  { exists s, O, DNothing. split; [reflexivity|]. cbn [skipn app]. rewrite app_nil_r. split; [exact Hw|]. split; [exact Hz|].
    split; [rewrite in_app_iff, Ht; split; [auto|intros [Q|[Q|[]]]; [exact Q|discriminate]]|]. eauto. }
  assert (Hb : b :: buf <> []) by discriminate. remember (b :: buf) as bf eqn:Eb. clear Eb b buf.
  assert (Hpre : pre L s bf) by (split; [exact Hw|]; split; [eapply zero_piece; eassumption|]; tauto).
  destruct (update L s bf ONone) as [[s' ob'] r] eqn:Hu.
  destruct (update_flat L safe _ _ _ _ _ _ Hpre Hu) as (s1 & buf1 & ob1 & Hns & Hp1 & _ & Hcase).
  destruct (nsteps_suffix L safe _ _ _ _ _ _ Hns Hpre) as (kk & Hk & Hkl).
  destruct (nsteps_heads _ _ _ _ _ _ Hns more q eq_refl Hpre (ex_intro _ k Hc)) as [-> Hh].
  destruct Hcase as [(Hnil & -> & -> & ->)|(Hne & r0 & Hns0 & Hcase)].
  - exists s1, (length bf), DNothing. split; [reflexivity|]. rewrite skipn_all, app_nil_r. rewrite Hnil in *. destruct Hp1 as (A & B & C).
    split; [exact A|]. split; [now apply zero_longer|]. split.
    { rewrite in_app_iff. split; [intros Q; contradiction|intros [Q|[Q|[]]]; [contradiction|discriminate]]. }
    destruct Hh as (k1 & Hh). eauto.
  - destruct (heads_step _ _ _ _ _ _ _ Hp1 Hne Hh Hns0) as (n0 & d & q' & E & -> & Hn0 & (k' & Hh') & A & B & C & C' & D).
    destruct Hcase as [(n1 & d1 & E1 & Hd & ->)|(e & E1 & _)]; [|congruence]. rewrite E in E1. injection E1 as <- <-.
    exists s', (length bf - length (skipn n0 buf1))%nat, d. split; [reflexivity|]. rewrite Hk in *. rewrite skipn_skipn_suffix by assumption.
    split; [exact A|]. split; [now apply zero_longer|]. split.
    { rewrite in_app_iff. split; [intros Q; right; left; now apply C|intros [Q|[Q|[]]]; [contradiction|now apply C']]. }
    exists q', k'. split; [exact Hh'|]. rewrite Hq. destruct d; try (subst q'; now rewrite app_nil_r).
    destruct D as (ci & -> & ->). cbn [map]. now rewrite <- app_assoc.
Qed.
Lemma trailer_in (evs : list decoded) : In (DBlockStart BkTrailer) evs \/ ~ In (DBlockStart BkTrailer) evs.
Proof.
  induction evs as [|e evs [H|H]]; [right; intros []|left; right; exact H|].
  destruct e as [|p|c|n| |[| |]|x|x|t|n|n| ]; first [right; intros [Q|Q]; [discriminate Q|contradiction]|left; left; reflexivity].
Qed.
Lemma skimmed_skims s rest evs fs : skimmed L o (ser_gif g tz) s rest evs fs -> skims s rest evs fs.
Proof.
  induction 1 as [|s buf tl s' ob' n d evs fs _ IH Hu].
  - split; [apply sd_new_wf|]. split; [intros E; discriminate E|]. split; [split; [discriminate|intros []]|].
    exists (acc_images g), (fun r => loops r (g_blocks g)). split; [|reflexivity].
    split; [reflexivity|]. split; [split; [reflexivity|exact I]|]. split; [repeat split; reflexivity|reflexivity].
  - destruct (trailer_in evs) as [Ht|Ht].
    + destruct buf as [|b buf].
      { cbn in Hu. injection Hu as <- _ <- <-. cbn [skipn app] in *. rewrite app_nil_r. destruct IH as (Hw & Hz & Hti & Hq).
        split; [exact Hw|]. split; [exact Hz|]. split; [|exact Hq]. rewrite in_app_iff, Hti. split; [auto|intros [Q|[Q|[]]]; [exact Q|discriminate]]. }
      exfalso. destruct IH as (Hw & _ & Hti & _). apply Hti in Ht.
      pose proof (trailer_hangs L s (b :: buf) ONone (update_fuel (b :: buf)) (length (b :: buf)) Ht ltac:(discriminate) Hw
        : snd (update L s (b :: buf) ONone) = Hang) as Hh. rewrite Hu in Hh. discriminate Hh.
    + destruct (update_skims _ _ _ _ _ IH Ht) as (s2 & n2 & d2 & E & H). rewrite Hu in E. injection E as <- _ <- <-. exact H.
Qed.
Theorem skimmed_file s rest evs fs : skimmed L o (ser_gif g tz) s rest evs fs ->
  (exists later, map meta_seen (acc_images g) = fs ++ later) /\
  (In (DBlockStart BkTrailer) evs -> fs = map meta_seen (acc_images g)) /\
  (~ In (DBlockStart BkTrailer) evs -> rest <> [] /\
     forall buf more, rest = buf ++ more -> exists s' n d, update L s buf ONone = (s', ONone, Ok (n, d))).
Proof.
  intros H. pose proof (skimmed_skims _ _ _ _ H) as Hs. pose proof Hs as (Hw & Hz & Ht & q & k & Hc & Hq). split; [eauto|]. split.
  - intros Hi. apply Ht in Hi. destruct Hc as (_ & _ & Hc). unfold comes in Hc. rewrite Hi in Hc. destruct Hc as [-> _]. now rewrite app_nil_r in Hq.
  - intros Hi. split.
    + intros ->. destruct Hc as (_ & _ & Hc). apply comes_more in Hc; [|apply Hw]. tauto.
    + intros buf more ->. destruct (update_skims _ _ _ _ _ Hs Hi) as (s' & n & d & E & _). eauto.
Qed.
End Skim.
