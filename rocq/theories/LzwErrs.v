(** LZW data with invalid codes. The contract [lzw_spec] says nothing about them; this file states what the decoder
    relies on for such data, and shows that the reference codec satisfies it. Only the theorems about corrupt image data
    (file Corrupt.v) use it. *)
From Verif Require Import Base Lzw LzwRef LzwRefSpec.
Open Scope N_scope.

(** ** The contract *)
(** [lz_fails s inp out]: on [inp] the decoder delivers exactly [out] and then meets an invalid code. *)
Record lzw_errs {L : lzw_codec} (S : lzw_spec L) := mk_lzw_errs {
  lz_fails : lz_st L -> list N -> list N -> Prop;
  lf_reset : forall s m inp out, lz_size S s m -> lz_fails (lz_new L m) inp out -> lz_fails (lz_reset L s) inp out;
  (** A call on the first part of the input writes the first part of the output, or all of it together with the error. *)
  lf_step : forall s a b cap out s' n w st,
      lz_fails s (a ++ b) out -> lz_decode L s a cap = (s', (n, w, st)) ->
      (st = LzInvalid /\ out = w) \/
      (st <> LzInvalid /\ exists out', out = w ++ out' /\ lz_fails s' (skipn n a ++ b) out');
  lf_live : forall s a b cap out s' n w st,
      lz_fails s (a ++ b) out -> lz_decode L s a cap = (s', (n, w, st)) ->
      a <> [] -> (0 < cap)%nat -> st = LzInvalid \/ (0 < n)%nat \/ w <> [];
  (** The error is not lost when all input is inside the decoder. *)
  lf_drain : forall s cap out s' n w st,
      lz_fails s [] out -> lz_decode L s [] cap = (s', (n, w, st)) -> (0 < cap)%nat -> st = LzInvalid \/ w <> [];
  (** An end code comes after the invalid code, if at all. *)
  lf_ended : forall s inp out, lz_fails s inp out -> lz_ended L s = false;
  (** Data have an invalid code or not. *)
  lf_total : forall m inp, (exists out, lz_pending S (lz_new L m) inp out) \/ (exists out, lz_fails (lz_new L m) inp out)
}.
Arguments lz_fails {L S} _ _ _ _.

(** ** The reference codec *)
Inductive breaks (m : N) : list (list N) -> option (list N) -> list bool -> list N -> Prop :=
| B_bad dict prev bits :
    (width m prev dict <= length bits)%nat ->
    lookup m prev dict (bits_val (firstn (width m prev dict) bits)) = ABad ->
    breaks m dict prev bits []
| B_clear dict prev bits out :
    (width m prev dict <= length bits)%nat ->
    lookup m prev dict (bits_val (firstn (width m prev dict) bits)) = AClear ->
    breaks m [] None (skipn (width m prev dict) bits) out ->
    breaks m dict prev bits out
| B_word dict prev bits w out :
    (width m prev dict <= length bits)%nat ->
    lookup m prev dict (bits_val (firstn (width m prev dict) bits)) = AWord w ->
    breaks m (add_entry m prev dict w) (Some w) (skipn (width m prev dict) bits) out ->
    breaks m dict prev bits (w ++ out).

Definition ref_fails (s : dst) (inp out : list N) : Prop :=
  ds_bad s = false /\ ds_ended s = false /\
  exists o, out = ds_pend s ++ o /\ breaks (ds_m s) (ds_dict s) (ds_prev s) (ds_bits s ++ unpack inp) o.

Lemma breaks_width m dict prev bits out : breaks m dict prev bits out -> (width m prev dict <= length bits)%nat.
Proof. destruct 1; assumption. Qed.

Lemma runs_or_breaks m : forall n dict prev bits, (length bits <= n)%nat ->
  (exists out, runs m dict prev bits out) \/ (exists out, breaks m dict prev bits out).
Proof.
  induction n as [|n IH]; intros dict prev bits Hn.
  - left. exists []. apply R_short. pose proof (width_pos m prev dict). lia.
  - destruct (Nat.lt_ge_cases (length bits) (width m prev dict)) as [H|H].
    { left. exists []. now apply R_short. }
    assert (Hs : (length (skipn (width m prev dict) bits) <= n)%nat).
    { rewrite skipn_length. pose proof (width_pos m prev dict). lia. }
    destruct (lookup m prev dict (bits_val (firstn (width m prev dict) bits))) as [| |w|] eqn:E.
    + destruct (IH [] None _ Hs) as [[out Ho]|[out Ho]]; [left|right]; exists out.
      * now apply R_clear.
      * now apply B_clear.
    + left. exists []. now apply R_end.
    + destruct (IH (add_entry m prev dict w) (Some w) _ Hs) as [[out Ho]|[out Ho]]; [left|right]; exists (w ++ out).
      * eapply R_word; eassumption.
      * eapply B_word; eassumption.
    + right. exists []. now apply B_bad.
Qed.

Lemma dec_loop_bad b fuel : forall s inp cap n w out s' n' w',
  (meas s inp cap < fuel)%nat ->
  ref_fails s (inp ++ b) out ->
  dec_loop fuel s inp cap n w = (s', (n', w')) ->
  exists k dw, n' = (n + k)%nat /\ w' = w ++ dw /\ (k <= length inp)%nat /\
    ((ds_bad s' = true /\ out = dw) \/
     (exists out', out = dw ++ out' /\ ref_fails s' (skipn k inp ++ b) out' /\ stopped s' inp cap k dw)).
Proof.
  induction fuel as [|fuel IH]; intros s inp cap n w out s' n' w' Hf Hp H; [lia|].
  cbn [dec_loop] in H. destruct Hp as (Hbad & Ee & o & -> & Hr).
  destruct (ds_pend s) as [|p ps] eqn:Ep.
  - rewrite Ee, Hbad in H. cbn [orb] in H. cbn [app].
    destruct (width (ds_m s) (ds_prev s) (ds_dict s) <=? length (ds_bits s))%nat eqn:Ew.
    + apply Nat.leb_le in Ew.
      pose proof (width_pos (ds_m s) (ds_prev s) (ds_dict s)) as Hw1.
      set (wd := width (ds_m s) (ds_prev s) (ds_dict s)) in *.
      assert (Hf1 : firstn wd (ds_bits s ++ unpack (inp ++ b)) = firstn wd (ds_bits s)).
      { rewrite firstn_app. replace (wd - length (ds_bits s))%nat with 0%nat by lia.
        cbn [firstn]. now rewrite app_nil_r. }
      assert (Hf2 : skipn wd (ds_bits s ++ unpack (inp ++ b)) = skipn wd (ds_bits s) ++ unpack (inp ++ b)).
      { rewrite skipn_app. replace (wd - length (ds_bits s))%nat with 0%nat by lia. reflexivity. }
      assert (Hm : (meas (do_code s wd) inp cap < fuel)%nat).
      { unfold meas in *. rewrite Ep in Hf.
        assert (length (ds_bits (do_code s wd)) = length (ds_bits s) - wd)%nat as ->.
        { unfold do_code. cbn zeta. destruct (lookup _ _ _ _); cbn; now rewrite skipn_length. }
        destruct (ds_pend (do_code s wd)); [|destruct cap]; lia. }
      assert (Hp' : ref_fails (do_code s wd) (inp ++ b) o \/ (ds_bad (do_code s wd) = true /\ ds_pend (do_code s wd) = [] /\ o = [])).
      { unfold do_code. cbn zeta.
        inversion Hr as [? ? ? Hs Hl|? ? ? ? Hs Hl Hr'|? ? ? wv ? Hs Hl Hr']; subst;
          fold wd in Hs; try fold wd in Hl; try fold wd in Hr'; rewrite Hf1 in Hl; rewrite Hl.
        - right. auto.
        - left. split; [reflexivity|]. split; [reflexivity|]. cbn. exists o. split; [reflexivity|]. now rewrite <- Hf2.
        - left. split; [reflexivity|]. split; [reflexivity|]. cbn. eexists. split; [reflexivity|]. now rewrite <- Hf2. }
      destruct Hp' as [Hp'|(B1 & B2 & ->)]; [exact (IH _ _ _ _ _ _ _ _ _ Hm Hp' H)|].
      assert (Hq : dec_loop fuel (do_code s wd) inp cap n w = (do_code s wd, (n, w))).
      { destruct fuel; [reflexivity|]. cbn [dec_loop]. rewrite B2, B1, orb_true_r. reflexivity. }
      rewrite Hq in H. injection H as <- <- <-. exists 0%nat, []. rewrite app_nil_r.
      split; [lia|]. split; [reflexivity|]. split; [lia|]. left. split; [exact B1|reflexivity].
    + apply Nat.leb_gt in Ew. destruct inp as [|x inp].
      * injection H as <- <- <-. exists 0%nat, []. rewrite app_nil_r.
        split; [lia|]. split; [reflexivity|]. split; [cbn; lia|]. right. exists o. split; [reflexivity|]. split.
        -- split; [exact Hbad|]. split; [exact Ee|]. exists o. rewrite Ep. split; [reflexivity|exact Hr].
        -- right. right. rewrite Ep, Ee. repeat split. exact Ew.
      * eapply IH with (out := o) in H.
        -- destruct H as (k & dw & -> & -> & Hk & Hs).
           exists (S k), dw. cbn [length]. split; [lia|]. split; [reflexivity|]. split; [lia|].
           destruct Hs as [Hs|(out' & E & Hp' & Hs)]; [left; exact Hs|]. right. exists out'. split; [exact E|].
           split; [exact Hp'|].
           destruct Hs as [Hs|[Hs|(Hs1&Hs2&Hs3&Hs4)]]; [left|right;left|right;right]; auto.
           repeat split; auto. cbn. lia.
        -- unfold meas in *. rewrite Ep in Hf. cbn [length ds_bits ds_pend add_bits] in *.
           rewrite app_length, nbits_length, Ep. lia.
        -- split; [exact Hbad|]. split; [exact Ee|]. cbn. rewrite Ep.
           exists o. split; [reflexivity|]. rewrite <- app_assoc. exact Hr.
  - destruct cap as [|cap].
    + injection H as <- <- <-. exists 0%nat, []. rewrite app_nil_r.
      split; [lia|]. split; [reflexivity|]. split; [lia|]. right. exists ((p :: ps) ++ o). split; [reflexivity|]. split.
      * split; [exact Hbad|]. split; [exact Ee|]. exists o. rewrite Ep. split; [reflexivity|exact Hr].
      * left. rewrite Ep. split; [discriminate|reflexivity].
    + rewrite <- Ep in *.
      assert (Hp' : ref_fails (set_pend s (skipn (S cap) (ds_pend s))) (inp ++ b) (skipn (S cap) (ds_pend s) ++ o)).
      { split; [exact Hbad|]. split; [exact Ee|]. exists o. split; [reflexivity|exact Hr]. }
      eapply IH in H; [| |exact Hp'].
      * destruct H as (k & dw & -> & -> & Hk & Hs).
        exists k, (firstn (S cap) (ds_pend s) ++ dw). rewrite !app_assoc. split; [reflexivity|]. split; [reflexivity|].
        split; [exact Hk|].
        assert (Ho : ds_pend s ++ o = firstn (S cap) (ds_pend s) ++ (skipn (S cap) (ds_pend s) ++ o)).
        { rewrite app_assoc, firstn_skipn. reflexivity. }
        destruct Hs as [[Hs1 Hs2]|(out' & E & Hp2 & Hs)].
        -- left. split; [exact Hs1|]. rewrite Ho, Hs2. reflexivity.
        -- right. exists out'. split; [rewrite Ho, E, app_assoc; reflexivity|]. split; [exact Hp2|].
           destruct Hs as [[Hs1 Hs2]|Hs]; [left|right; exact Hs]. split; [exact Hs1|].
           rewrite app_length, firstn_length, Hs2. lia.
      * unfold meas in *. rewrite Ep in Hf. cbn [ds_pend ds_bits set_pend].
        destruct (skipn (S cap) (ds_pend s)) eqn:Esk; [lia|].
        assert (Hlen : (S cap < length (ds_pend s))%nat).
        { apply (f_equal (@length _)) in Esk. rewrite skipn_length in Esk. cbn in Esk. lia. }
        replace (S cap - length (ds_pend s))%nat with 0%nat by lia. lia.
Qed.

Lemma ref_decode_bad s a b cap out s' n w st :
  ref_fails s (a ++ b) out -> ref_decode s a cap = (s', (n, w, st)) ->
  (st = LzInvalid /\ out = w) \/
  (st <> LzInvalid /\ exists out', out = w ++ out' /\ ref_fails s' (skipn n a ++ b) out' /\ stopped s' a cap n w).
Proof.
  intros Hp H. unfold ref_decode in H.
  destruct (dec_loop (dec_fuel s a) s a cap 0 []) as [s1 [n1 w1]] eqn:E.
  injection H as <- <- <- <-.
  eapply dec_loop_bad in E; [|apply dec_fuel_enough|exact Hp].
  destruct E as (k & dw & -> & -> & Hk & [[Hb ->]|(out' & -> & Hp' & Hs)]); cbn [app Nat.add].
  - left. rewrite Hb. auto.
  - right. split; [|exists out'; auto].
    destruct Hp' as [-> _]. destruct (ds_ended s1 && is_nil (ds_pend s1)); [discriminate|]. destruct (_ && _); discriminate.
Qed.

Definition lzw_ref_errs : lzw_errs lzw_ref_spec.
Proof.
  refine (mk_lzw_errs lzw_ref lzw_ref_spec ref_fails _ _ _ _ _ _).
  - intros s m inp out Hs H. cbn in *. unfold ds_reset. now rewrite Hs.
  - intros s a b cap out s' n w st Hp H. cbn in *.
    destruct (ref_decode_bad _ _ _ _ _ _ _ _ _ Hp H) as [H1|(H1 & out' & H2 & H3 & _)]; [left; exact H1|right].
    split; [exact H1|]. exists out'. auto.
  - intros s a b cap out s' n w st Hp H Ha Hcap. cbn in *.
    destruct (ref_decode_bad _ _ _ _ _ _ _ _ _ Hp H) as [H1|(H1 & out' & H2 & H3 & Hs)]; [left; apply H1|right].
    destruct Hs as [[Hs1 Hs2]|[[Hs1 Hs2]|(Hs1 & Hs2 & Hs3 & _)]].
    + right. intros ->. cbn in Hs2. lia.
    + destruct H3 as (_ & H3 & _). congruence.
    + left. subst n. destruct a; [congruence|]. cbn. lia.
  - intros s cap out s' n w st Hp H Hcap. cbn in *.
    destruct (ref_decode_bad s [] [] cap out s' n w st Hp H) as [H1|(H1 & out' & H2 & H3 & Hs)]; [left; apply H1|right].
    destruct Hs as [[Hs1 Hs2]|[[Hs1 Hs2]|(Hs1 & Hs2 & Hs3 & Hs4)]].
    + intros ->. cbn in Hs2. lia.
    + destruct H3 as (_ & H3 & _). congruence.
    + exfalso. destruct H3 as (_ & _ & o & _ & Hr). apply breaks_width in Hr. rewrite skipn_nil in Hr. cbn in Hr.
      rewrite app_nil_r in Hr. lia.
  - intros s inp out (_ & H & _). cbn. unfold ref_ended. now rewrite H.
  - intros m inp. destruct (runs_or_breaks m (length (unpack inp)) [] None (unpack inp) (Nat.le_refl _)) as [[out H]|[out H]].
    + left. exists out. split; [reflexivity|]. exists out. split; [reflexivity|exact H].
    + right. exists out. split; [reflexivity|]. split; [reflexivity|]. exists out. split; [reflexivity|exact H].
Defined.

(** Needed only by [FrameDecoder], like [lzw_eager]: a call that takes in all the remaining input and has room delivers
    something or reports the invalid code. *)
Definition lzw_alert {L} {S : lzw_spec L} (Z : lzw_errs S) : Prop :=
  forall s a cap out s' n w st,
    lz_fails Z s a out -> lz_decode L s a cap = (s', (n, w, st)) ->
    (0 < cap)%nat -> n = length a -> st = LzInvalid \/ w <> [].
Lemma lzw_ref_alert : lzw_alert lzw_ref_errs.
Proof.
  intros s a cap out s' n w st Hp H Hcap Hn. cbn in *. rewrite <- (app_nil_r a) in Hp.
  destruct (ref_decode_bad s a [] cap out s' n w st Hp H) as [H1|(H1 & out' & H2 & H3 & Hs)]; [left; apply H1|right].
  destruct Hs as [[Hs1 Hs2]|[[Hs1 Hs2]|(Hs1 & Hs2 & Hs3 & Hs4)]].
  - intros ->. cbn in Hs2. lia.
  - destruct H3 as (_ & H3 & _). congruence.
  - exfalso. destruct H3 as (_ & _ & o & _ & Hr). apply breaks_width in Hr. subst n. rewrite skipn_all in Hr. cbn in Hr.
    rewrite app_nil_r in Hr. lia.
Qed.
