(** Properties of every [Decoder] a user can have ([opened]), on any bytes and read schedule. *)
From Verif Require Import Base Common Lzw Encoder Stream Converter Reader
  StreamInv Steps ReaderInv Interlace Ranges ConvInv DecoderSafe DecInv SpecStream StreamProps.
Open Scope N_scope.

(** All bytes the source delivers. *)
Definition src_bytes (src : list revent) : list N := concat (map ev_bytes src).

Section DP.
Variable L : lzw_codec.
Variable umax : N.
Hypothesis safe : lzw_safe L.
Hypothesis Humax : 2 ^ 32 - 1 <= umax.
Notation sd := (sd L).
Notation rd := (rd L).
Notation dcd := (dcd L).

Lemma wf_fill bs src k s eof : rd_wf L (mk_rd L [] (k :: src) s eof) -> eof = false -> rd_wf L (mk_rd L bs src s eof).
Proof.
  intros [H1 H2] ->. destruct (H2 eq_refl) as [H3 H4]. split; [exact H1|]. intros _. split; [|exact H4].
  intros E. destruct (H3 E) as [t Ht]. discriminate.
Qed.
Lemma wf_step buf src s ob s1 ob1 n : rd_wf L (mk_rd L buf src s false) -> buf <> [] ->
  next_state L s buf ob = (s1, ob1, Ok (n, DNothing)) -> rd_wf L (mk_rd L (skipn n buf) src s1 false).
Proof.
  intros [H1 H2] Hb He. destruct (H2 eq_refl) as [H3 H4]. cbn in H1, H3, H4.
  pose proof (next_state_good L safe s buf ob H1 H3 Hb) as Hg. rewrite He in Hg.
  destruct Hg as (_ & _ & Hg1 & Hg2 & Hg3 & Hg4 & _). split; [exact Hg2|]. intros _. split; [exact Hg3|].
  intros E. destruct (Hg4 E); [contradiction|discriminate].
Qed.
Lemma wf_nst buf src s ob s1 ob1 r : rd_wf L (mk_rd L buf src s false) -> buf <> [] ->
  next_state L s buf ob = (s1, ob1, r) -> nst L s buf ob s1 ob1 r.
Proof. intros [H1 H2] Hb He. destruct (H2 eq_refl) as [H3 _]. now apply next_state_nst. Qed.
Lemma wf_len buf src s ob s1 ob1 n d : rd_wf L (mk_rd L buf src s false) -> buf <> [] ->
  next_state L s buf ob = (s1, ob1, Ok (n, d)) -> (n <= length buf)%nat.
Proof.
  intros [H1 H2] Hb He. destruct (H2 eq_refl) as [H3 H4]. cbn in H1, H3, H4.
  pose proof (next_state_good L safe s buf ob H1 H3 Hb) as Hg. rewrite He in Hg. apply Hg.
Qed.

(** ** Invariants of single steps hold for every reader inside a decoder *)
Section Inv.
Variable P : sd -> Prop.
Hypothesis Pstep : forall s buf ob s' ob' r, P s -> sd_wf L s -> nst L s buf ob s' ob' r -> P s'.

Lemma dnext_inv r ob r' ob' x : dnext L r ob r' ob' x -> rd_wf L r -> P (rd_dec L r) -> P (rd_dec L r').
Proof.
  induction 1 as [buf src s ob|k src s ob|s ob|src s ob|bs src s ob r' ob' x Hb Hn IH
    |buf src s ob s1 ob1 n r' ob' x Hb He Hn IH|buf src s ob s1 ob1 n Hb He
    |buf src s ob s1 ob1 n d Hb He Hd1 Hd2|pr buf src s ob s1 ob1 e Hb He]; intros Hwf Hp; try exact Hp.
  - apply IH; [eapply wf_fill; eauto|exact Hp].
  - apply IH; [eapply wf_step; eauto|]. eapply Pstep; [exact Hp|apply Hwf|eapply wf_nst; eassumption].
  - eapply Pstep; [exact Hp|apply Hwf|eapply wf_nst; eassumption].
  - eapply Pstep; [exact Hp|apply Hwf|eapply wf_nst; eassumption].
  - eapply Pstep; [exact Hp|apply Hwf|eapply wf_nst; eassumption].
Qed.

Lemma hist_inv src o r : src_ok src -> P (sd_new L o) ->
  (forall s f k, P s -> sd_state L s = DecodeSubBlock k \/ sd_state L s = CopySubBlock k -> sd_current L s = Some f ->
     P (set_current L s (Some (snd (frame_take f))) 0)) ->
  hist L src o r -> P (rd_dec L r).
Proof.
  intros Hs H0 Htake. induction 1 as [|r ob r' ob' x Hr IH E|r ob r' ob' t f Hr IH E Ef].
  - exact H0.
  - destruct (hist_good L safe src o Hs r Hr) as [(Hw & _) _].
    exact (dnext_inv _ _ _ _ _ (decode_next_dnext L safe _ _ _ _ _ Hw E) Hw IH).
  - destruct (hist_good L safe src o Hs r Hr) as [Hg _]. pose proof Hg as (Hw & _).
    pose proof (dnext_inv _ _ _ _ _ (decode_next_dnext L safe _ _ _ _ _ Hw E) Hw IH) as Hp.
    destruct (decode_next_all L safe _ _ _ _ _ Hg E) as (_ & _ & _ & Hm).
    destruct (Hm t eq_refl) as [_ (k & Hst)]. unfold taken_rd. cbn [rd_dec].
    apply (Htake _ f k Hp); [|exact Ef]. destruct Hst as [[A _]|(m & A & _)]; auto.
Qed.
End Inv.

(** ** C20 *)
Lemma decode_next_loop_suffix fuel : forall r ob r' ob' x, decode_next_loop L fuel r ob = (r', ob', x) ->
  exists k, rd_rest L r' = skipn k (rd_rest L r).
Proof.
  induction fuel as [|fuel IH]; intros r ob r' ob' x H; cbn [decode_next_loop] in H.
  { destruct (rd_eof L r); injection H as <- <- <-; now exists O. }
  destruct (rd_eof L r); [injection H as <- <- <-; now exists O|].
  assert (Hf : forall r1 y, fill_buf L r = (r1, y) -> rd_rest L r1 = rd_rest L r /\ forall b, y = Ok b -> rd_buf L r1 = b).
  { clear H IH. destruct r as [rb rs rdec re]. unfold fill_buf, rd_rest.
    cbn [rd_buf rd_src rd_dec rd_eof]. intros r1 y E. destruct rb as [|c cs].
    - destruct rs as [|[bs|k] src]; injection E as <- <-; cbn [rd_buf rd_src map concat ev_bytes app];
        (split; [reflexivity|congruence]).
    - injection E as <- <-. split; [reflexivity|]. intros b [= <-]. reflexivity. }
  destruct (fill_buf L r) as [r1 y]. specialize (Hf r1 y eq_refl). destruct Hf as [Hr1 Hy]. rewrite <- Hr1.
  destruct y as [buf|k| | ]; [|injection H as <- <- <-; now exists O..].
  specialize (Hy buf eq_refl).
  assert (Hsame : forall d e, rd_rest L (mk_rd L buf (rd_src L r1) d e) = rd_rest L r1).
  { intros. unfold rd_rest. cbn. now rewrite Hy. }
  destruct buf as [|c cs]; [injection H as <- <- <-; now exists O|].
  cbv iota beta in H. remember (c :: cs) as buf eqn:Ebuf. clear Ebuf c cs.
  assert (Hcut : forall n d e, exists k, rd_rest L (mk_rd L (skipn n buf) (rd_src L r1) d e) = skipn k (rd_rest L r1)).
  { intros n d e. exists (Nat.min n (length buf)). unfold rd_rest. cbn [rd_buf rd_src]. rewrite Hy, skipn_app.
    replace (Nat.min n (length buf) - length buf)%nat with O by lia. cbn [skipn]. f_equal.
    destruct (Nat.le_ge_cases n (length buf)) as [Hn|Hn]; [now rewrite Nat.min_l|].
    rewrite Nat.min_r, !skipn_all2 by lia. reflexivity. }
  destruct (update L (rd_dec L r1) buf ob) as [[d ob1] z].
  destruct z as [[n ev]|e| | ]; [|injection H as <- <- <-; exists O; now rewrite ?Hsame..].
  cbn zeta in H.
  assert (Hrec : forall e, decode_next_loop L fuel (mk_rd L (skipn n buf) (rd_src L r1) d e) ob1 = (r', ob', x) ->
    exists k, rd_rest L r' = skipn k (rd_rest L r1)).
  { intros e E. destruct (IH _ _ _ _ _ E) as [k Hk]. destruct (Hcut n d e) as [j Hj]. rewrite Hj in Hk.
    rewrite skipn_skipn in Hk. eauto. }
  destruct ev as [ | | | | |[ | | ]| | | | | | ]; try (injection H as <- <- <-; apply Hcut); eapply Hrec; exact H.
Qed.

(** How the state "trailer next" is reached. *)
Lemma nst_trailer_next s buf ob s' ob' r : nst L s buf ob s' ob' r -> sd_state L s' = BlockStart 0x3B ->
  exists n d, r = Ok (n, d) /\ d <> DBlockStart BkTrailer /\
   ((n = O /\ (sd_state L s = BlockStart 0x3B \/ exists t, buf = 0x3B :: t)) \/ (n = 1%nat /\ exists t, buf = 0x3B :: t)).
Proof.
  intros H E. inversion H; subst; sdcbn_in E; try discriminate E; try congruence;
    try (unfold after_screen in E; destruct (negb _) in E; discriminate E);
    try (unfold after_image in E; destruct (negb _) in E; discriminate E).
  - exfalso. match goal with A : is_hdr _ = true |- _ => rewrite E in A; discriminate A end.
  - injection E as ->. do 2 eexists. split; [reflexivity|]. split; [discriminate|]. right. eauto.
  - injection E as ->. do 2 eexists. split; [reflexivity|]. split; [discriminate|]. left. auto.
  - do 2 eexists. split; [reflexivity|]. split; [discriminate|]. left. eauto.
  - destruct (w =? 0)%nat; discriminate E.
Qed.
Lemma nst_trailer s buf ob s' ob' n : nst L s buf ob s' ob' (Ok (n, DBlockStart BkTrailer)) ->
  sd_state L s = BlockStart 0x3B /\ n = 1%nat.
Proof.
  intros H. inversion H; subst; try (destruct (w =? 0)%nat; discriminate);
    try (destruct (is_netscape _); discriminate). auto.
Qed.

(** The trailer byte among the bytes delivered so far, or about to be. *)
Definition tail2 (all : list N) (r : rd) : Prop :=
  if rd_eof L r then exists p q, all = p ++ 0x3B :: q ++ rd_rest L r /\ (length q <= 1)%nat
  else sd_state L (rd_dec L r) = BlockStart 0x3B ->
       (exists t, rd_rest L r = 0x3B :: t) \/ (exists p, all = p ++ 0x3B :: rd_rest L r).
Definition tail1 (all : list N) (r : rd) : Prop := exists p, all = p ++ rd_rest L r.

Lemma rest_skip buf src s eof s' eof' n : (n <= length buf)%nat ->
  rd_rest L (mk_rd L buf src s eof) = firstn n buf ++ rd_rest L (mk_rd L (skipn n buf) src s' eof').
Proof. intros H. unfold rd_rest. cbn [rd_buf rd_src]. rewrite app_assoc, firstn_skipn. reflexivity. Qed.
Lemma tail1_step all buf src s s1 n eof : (n <= length buf)%nat -> tail1 all (mk_rd L buf src s false) ->
  tail1 all (mk_rd L (skipn n buf) src s1 eof).
Proof.
  intros Hn [p Hp]. rewrite (rest_skip buf src s false s1 eof n Hn), app_assoc in Hp. now exists (p ++ firstn n buf).
Qed.

Lemma tail2_step all buf src s ob s1 ob1 n d : rd_wf L (mk_rd L buf src s false) -> buf <> [] ->
  next_state L s buf ob = (s1, ob1, Ok (n, d)) -> tail1 all (mk_rd L buf src s false) ->
  tail2 all (mk_rd L buf src s false) -> tail2 all (mk_rd L (skipn n buf) src s1 false).
Proof.
  intros Hw Hb He [p Hp] H2. unfold tail2 in *. cbn [rd_eof rd_dec] in *. intros E.
  pose proof (wf_len _ _ _ _ _ _ _ _ Hw Hb He) as Hn.
  destruct (nst_trailer_next _ _ _ _ _ _ (wf_nst _ _ _ _ _ _ _ Hw Hb He) E) as (n0 & d0 & [= <- <-] & _ & Hc).
  destruct Hc as [(-> & [Hs|[t ->]])|(-> & t & ->)].
  - exact (H2 Hs).
  - left. unfold rd_rest. cbn. eauto.
  - right. rewrite (rest_skip _ src s false s1 false 1 Hn) in Hp. cbn [firstn app] in Hp. eauto.
Qed.

Lemma dnext_tail all r ob r' ob' x : dnext L r ob r' ob' x -> rd_wf L r -> tail1 all r -> tail2 all r -> tail2 all r'.
Proof.
  induction 1 as [buf src s ob|k src s ob|s ob|src s ob|bs src s ob r' ob' x Hb Hn IH
    |buf src s ob s1 ob1 n r' ob' x Hb He Hn IH|buf src s ob s1 ob1 n Hb He
    |buf src s ob s1 ob1 n d Hb He Hd1 Hd2|pr buf src s ob s1 ob1 e Hb He]; intros Hwf H1 H2; try exact H2.
  - apply IH; [eapply wf_fill; eauto|exact H1|exact H2].
  - pose proof (wf_len _ _ _ _ _ _ _ _ Hwf Hb He) as Hl.
    apply IH; [eapply wf_step; eauto|eapply tail1_step; eauto|eapply tail2_step; eauto].
  - pose proof (wf_len _ _ _ _ _ _ _ _ Hwf Hb He) as Hl.
    destruct (nst_trailer _ _ _ _ _ _ (wf_nst _ _ _ _ _ _ _ Hwf Hb He)) as [Es ->].
    destruct H1 as [p Hp]. specialize (H2 Es). unfold tail2. cbn [rd_eof].
    assert (Hq : exists b, firstn 1 buf = [b]). { destruct buf as [|b buf]; [congruence|]. exists b. reflexivity. }
    destruct Hq as [b Hq]. rewrite (rest_skip _ src s false s1 true 1 Hl), Hq in *. cbn [app] in *.
    destruct H2 as [[t Ht]|[p' Hp']].
    + injection Ht as -> _. exists p, []. split; [exact Hp|cbn; lia].
    + exists p', [b]. split; [exact Hp'|cbn; lia].
  - eapply tail2_step; eauto.
  - unfold tail2. cbn [rd_eof rd_dec]. intros E.
    destruct (nst_trailer_next _ _ _ _ _ _ (wf_nst _ _ _ _ _ _ _ Hwf Hb He) E) as (n0 & d0 & A & _). discriminate A.
Qed.

Lemma hist_tail src o r : src_ok src -> hist L src o r -> tail1 (src_bytes src) r /\ tail2 (src_bytes src) r.
Proof.
  intros Hs.
  assert (Hstep : forall r ob r' ob' x, hist L src o r -> decode_next L r ob = (r', ob', x) ->
    tail1 (src_bytes src) r /\ tail2 (src_bytes src) r -> tail1 (src_bytes src) r' /\ tail2 (src_bytes src) r').
  { intros r0 ob r' ob' x Hr E [H1 H2]. destruct (hist_good L safe src o Hs r0 Hr) as [(Hw & _) _]. split.
    - destruct (decode_next_loop_suffix _ _ _ _ _ _ E) as [k Hk]. destruct H1 as [p Hp].
      exists (p ++ firstn k (rd_rest L r0)). now rewrite Hk, <- app_assoc, firstn_skipn.
    - exact (dnext_tail _ _ _ _ _ _ (decode_next_dnext L safe _ _ _ _ _ Hw E) Hw H1 H2). }
  induction 1 as [|r ob r' ob' x Hr IH E|r ob r' ob' t f Hr IH E Ef].
  - split; [now exists []|]. intros A. discriminate A.
  - eapply Hstep; eassumption.
  - destruct (Hstep _ _ _ _ _ Hr E IH) as [A B]. split; [exact A|].
    pose proof (h_next _ _ _ _ _ _ _ _ Hr E) as Hr'. clear - B. unfold tail2, taken_rd in *. cbn [rd_eof rd_dec] in *.
    destruct (rd_eof L r'); exact B.
Qed.

Lemma next_frame_info_loop_end fuel : forall d d', rd_good L (dc_rd L d) -> next_frame_info_loop L fuel d = (d', Ok false) ->
  rd_eof L (dc_rd L d') = true.
Proof.
  induction fuel as [|fuel IH]; intros d d' Hg H; cbn [next_frame_info_loop] in H; [discriminate H|].
  destruct (decode_next L (dc_rd L d) ONone) as [[r ob] y] eqn:E.
  destruct (decode_next_all L safe _ _ _ _ _ Hg E) as (Hg' & (_ & _ & _ & _ & Hx) & _).
  destruct y as [[ev|]|e| | ]; try discriminate H.
  - destruct ev; try (eapply IH; [|exact H]; exact Hg').
    destruct (sd_current L (rd_dec L r)) as [f|]; [|discriminate H]. cbn [frame_take] in H.
    destruct (f_palette f); [|destruct (cv_gpal _)]; discriminate H.
  - injection H as <-. apply Hx.
Qed.

Lemma read_next_frame_false d d' : read_next_frame L umax d = (d', Ok false) -> next_frame_info L d = (d', Ok false).
Proof.
  unfold read_next_frame. destruct (next_frame_info L d) as [d1 x]. destruct x as [[|]|e| | ]; try discriminate; [|exact (fun E => E)].
  destruct (dc_ty L d1).
  - destruct (conv_read_frame _ _ _ _ _ _) as [[[r c] f] z]. destruct z; discriminate.
  - destruct (copy_lzw_into_buffer L _ _ _) as [[r v] z]. destruct z; discriminate.
Qed.

Theorem clean_end src o d d' : src_ok src -> limit_ok umax (o_limit o) -> opened L umax src o d ->
  next_frame_info L d = (d', Ok false) \/ read_next_frame L umax d = (d', Ok false) ->
  exists p q, (length q <= 1)%nat /\
    src_bytes src = p ++ 0x3B :: q ++ fst (dec_into_inner L d') ++ src_bytes (snd (dec_into_inner L d')).
Proof.
  intros Hs Ha Hd H.
  assert (Hn : next_frame_info L d = (d', Ok false)) by (destruct H as [H|H]; [exact H|now apply read_next_frame_false]).
  destruct (opened_good L umax safe Humax src o Hs d Ha Hd) as (Hg & _ & Hh).
  pose proof (next_frame_info_loop_hist L src o _ _ _ _ Hh Hn) as Hh'.
  destruct (hist_tail src o _ Hs Hh') as [_ H2]. unfold tail2 in H2.
  rewrite (next_frame_info_loop_end _ _ _ (proj1 Hg) Hn) in H2. destruct H2 as (p & q & E & Hq). exists p, q. auto.
Qed.

(** ** The current frame of a decoder *)
Lemma next_frame_info_loop_cur src o fuel : forall d d' x, hist L src o (dc_rd L d) ->
  next_frame_info_loop L fuel d = (d', x) ->
  (dc_cur L d' = dc_cur L d /\ x <> Ok true) \/
  exists r ob r' ob' t, hist L src o r /\ decode_next L r ob = (r', ob', Ok (Some (DFrameMetadata t))) /\
    sd_current L (rd_dec L r') = Some (dc_cur L d') /\ dc_rd L d' = taken_rd L r' (dc_cur L d') /\ dc_ty L d' = t.
Proof.
  induction fuel as [|fuel IH]; intros d d' x Hh H; cbn [next_frame_info_loop] in H.
  { injection H as <- <-. left. split; [reflexivity|discriminate]. }
  destruct (decode_next L (dc_rd L d) ONone) as [[r ob] y] eqn:E.
  pose proof (h_next _ _ _ _ _ _ _ _ Hh E) as Hr.
  destruct y as [[ev|]|e| | ]; try (injection H as <- <-; left; split; [reflexivity|discriminate]).
  destruct ev; try (destruct (IH (set_rd L d r) d' x Hr H) as [A|A]; [left|right]; exact A).
  destruct (sd_current L (rd_dec L r)) as [f|] eqn:Ef; [|injection H as <- <-; left; split; [reflexivity|discriminate]].
  right. exists (dc_rd L d), ONone, r, ob, t. split; [exact Hh|]. split; [exact E|]. cbn [frame_take] in H.
  destruct (f_palette f) eqn:Ep; [|destruct (cv_gpal _)]; injection H as <- <-; cbn; rewrite Ef; auto.
Qed.

(** Reading the pixels changes only the buffer and the interlace flag of the frame. *)
Definition same_but_pixels (f f' : frame) : Prop := exists b i, f' = set_interlaced (set_buffer f b) i.
Lemma same_but_refl f : same_but_pixels f f.
Proof. exists (f_buffer f), (f_interlaced f). now destruct f. Qed.

Lemma run_dop_meta src o d op d' y : src_ok src -> limit_ok umax (o_limit o) -> opened L umax src o d -> op_ok umax op ->
  run_dop L umax d op = (d', y) ->
  dc_bg L d' = dc_bg L d /\ dc_repeat L d' = dc_repeat L d /\ dec_global_palette L d' = dec_global_palette L d /\
  (same_but_pixels (dc_cur L d) (dc_cur L d') \/
   exists r ob r' ob' t f, hist L src o r /\ decode_next L r ob = (r', ob', Ok (Some (DFrameMetadata t))) /\
     sd_current L (rd_dec L r') = Some f /\ same_but_pixels f (dc_cur L d')).
Proof.
  intros Hs Ha Hd Hop H. destruct (opened_good L umax safe Humax src o Hs d Ha Hd) as (Hg & Ho & Hh).
  assert (Hnfi : forall fuel d d' x, next_frame_info_loop L fuel d = (d', x) ->
    dc_bg L d' = dc_bg L d /\ dc_repeat L d' = dc_repeat L d /\ dc_conv L d' = dc_conv L d).
  { clear. induction fuel as [|fuel IH]; intros d d' x H; cbn [next_frame_info_loop] in H.
    { injection H as <- <-. auto. }
    destruct (decode_next L (dc_rd L d) ONone) as [[r ob] y].
    destruct y as [[ev|]|e| | ]; try (injection H as <- <-; auto; fail).
    destruct ev; try (apply IH in H; exact H).
    destruct (sd_current L (rd_dec L r)) as [f|]; [|injection H as <- <-; auto]. cbn [frame_take] in H.
    destruct (f_palette f); [|destruct (cv_gpal _)]; injection H as <- <-; auto. }
  assert (Ha' : alloc_ok L umax d) by (unfold alloc_ok; rewrite Ho; exact Ha).
  destruct (run_dop_returns L safe umax Humax d op d' y Hg Ha' Hop H) as (_ & _ & [_ (Hk1 & Hk2 & Hk3)]).
  assert (Hgp : dec_global_palette L d' = dec_global_palette L d) by (unfold dec_global_palette; congruence).
  destruct op as [ | |buf|buf]; cbn [run_dop] in H.
  - destruct (next_frame_info L d) as [d1 x] eqn:E. injection H as <- <-.
    destruct (Hnfi _ _ _ _ E) as (A & B & _). split; [exact A|]. split; [exact B|]. split; [exact Hgp|].
    destruct (next_frame_info_loop_cur src o _ _ _ _ Hh E) as [[C _]|(r & ob & r' & ob' & t & C1 & C2 & C3 & C4 & C5)].
    + left. rewrite C. apply same_but_refl.
    + right. exists r, ob, r', ob', t, (dc_cur L d1). split; [exact C1|]. split; [exact C2|]. split; [exact C3|]. apply same_but_refl.
  - destruct (read_next_frame L umax d) as [d2 x] eqn:E. injection H as <- <-. unfold read_next_frame in E.
    destruct (next_frame_info L d) as [d1 z] eqn:En.
    destruct (Hnfi _ _ _ _ En) as (A & B & _).
    assert (Hc : forall f', same_but_pixels (dc_cur L d1) f' -> same_but_pixels (dc_cur L d) f' \/
      exists r ob r' ob' t f, hist L src o r /\ decode_next L r ob = (r', ob', Ok (Some (DFrameMetadata t))) /\
       sd_current L (rd_dec L r') = Some f /\ same_but_pixels f f').
    { intros f' Hf. destruct (next_frame_info_loop_cur src o _ _ _ _ Hh En) as [[C _]|(r & ob & r' & ob' & t & C1 & C2 & C3 & C4 & C5)].
      - left. now rewrite <- C.
      - right. exists r, ob, r', ob', t, (dc_cur L d1). auto. }
    assert (Hfin : d2 = d1 \/ exists r c f, d2 = set_cur L (set_conv L (set_rd L d1 r) c) f (dc_ty L d1) /\ same_but_pixels (dc_cur L d1) f).
    { destruct z as [[|]|e| | ]; try (injection E as <- <-; now left).
      right. destruct (next_frame_info_returns L safe umax Humax d d1 _ Hg En) as (_ & Hg1 & [Ho1 _] & _).
      destruct (dc_ty L d1) eqn:Ety.
      - destruct (conv_read_frame umax (Reader.rd L) (decode_next_bytes L) (dc_rd L d1) (dc_conv L d1) (dc_cur L d1))
          as [[[r c] f] w] eqn:Ec.
        pose proof Hg1 as (Hr & Hfr & Hl & _). pose proof Hfr as (_ & _ & _ & _ & Hw & Hhh & _).
        apply (conv_read_frame_ok umax _ _ (fun r => rd_good L r /\ sd_opts L (rd_dec L r) = dopts L d1)) in Ec.
        2:{ intros. eapply decode_next_bytes_ok; eassumption. }
        2:{ exact Hw. } 2:{ exact Hhh. } 2:{ exact Humax. }
        2:{ rewrite Hl. unfold dopts in *. rewrite Ho1, Ho. exact Ha. }
        2:{ split; [exact Hr|reflexivity]. }
        destruct Ec as (_ & _ & _ & Hf & _). destruct w; injection E as <- <-; do 3 eexists; (split; [reflexivity|exact Hf]).
      - destruct (copy_lzw_into_buffer L (dc_rd L d1) _ _) as [[r v] w].
        assert (Hsb : forall b, same_but_pixels (dc_cur L d1) (set_buffer (set_buffer (dc_cur L d1) []) b)).
        { intros b. exists b, (f_interlaced (dc_cur L d1)). now destruct (dc_cur L d1). }
        destruct w; injection E as <- <-; exists r, (dc_conv L d1); eexists;
          (split; [destruct d1; reflexivity|]); try apply Hsb; apply (Hsb []). }
    destruct Hfin as [->|(r & c & f & -> & Hf)].
    + split; [exact A|]. split; [exact B|]. split; [exact Hgp|]. apply Hc. apply same_but_refl.
    + split; [exact A|]. split; [exact B|]. split; [exact Hgp|]. apply Hc. exact Hf.
  - destruct (read_into_buffer L umax d buf) as [[d1 b] x] eqn:E. injection H as <- <-. unfold read_into_buffer in E.
    destruct (conv_read_into_buffer _ _ _ _ _ _ _) as [[[r c] b1] z]. injection E as <- <- <-.
    split; [reflexivity|]. split; [reflexivity|]. split; [exact Hgp|]. left. apply same_but_refl.
  - destruct (fill_buffer L d buf) as [[d1 b] x] eqn:E. injection H as <- <-. unfold fill_buffer in E.
    destruct (conv_fill_buffer _ _ _ _ _ _) as [[[r c] b1] z]. injection E as <- <- <-.
    split; [reflexivity|]. split; [reflexivity|]. split; [exact Hgp|]. left. apply same_but_refl.
Qed.

(** ** Screen size, background and loop count never change *)
Definition past_screen (w h : N) (s : sd) : Prop :=
  sd_state L s <> Magic /\ sd_state L s <> ScreenDescriptor /\ sd_width L s = w /\ sd_height L s = h.
Lemma past_screen_step w h s buf ob s' ob' r : past_screen w h s -> nst L s buf ob s' ob' r -> past_screen w h s'.
Proof.
  intros (H1 & H2 & H3 & H4) Hn. inversion Hn; subst; try contradiction; unfold past_screen;
    try (unfold after_image; destruct (negb _)); sdcbn;
    try (split; [first [discriminate|assumption]|]; split; [first [discriminate|assumption]|]; split; reflexivity).
  destruct (w0 =? 0)%nat; (split; [discriminate|]; split; [discriminate|]; split; reflexivity).
Qed.

Lemma init_loop_past fuel : forall d d', rd_good L (dc_rd L d) -> init_loop L fuel d = Ok d' ->
  past_screen (dec_width L d') (dec_height L d') (rd_dec L (dc_rd L d')) /\
  (forall b p, dc_bg L d' = Some b -> dec_global_palette L d' = Some p -> b < len p / 3).
Proof.
  induction fuel as [|fuel IH]; intros d d' Hg H; [discriminate H|]. cbn [init_loop] in H.
  destruct (decode_next L (dc_rd L d) ONone) as [[r ob] x] eqn:E.
  destruct (decode_next_all L safe _ _ _ _ _ Hg E) as (Hr & _).
  destruct x as [[ev|]|e| | ]; try discriminate H.
  destruct ev; try (eapply IH; [|exact H]; exact Hr).
  injection H as <-. split.
  - pose proof Hg as (Hw & _). pose proof (decode_next_dnext L safe _ _ _ _ _ Hw E) as Hn.
    destruct (dnext_last L safe _ _ _ _ _ _ Hn eq_refl Hw) as (buf & src & s & ob0 & s1 & n & -> & Hb & Hw1 & Hz & Hst).
    assert (Hp : sd_state L s1 <> Magic /\ sd_state L s1 <> ScreenDescriptor).
    { apply next_state_nst in Hst; auto. inversion Hst; subst; try (destruct (w =? 0)%nat; discriminate);
        try (destruct (is_netscape _); discriminate). sdcbn. split; discriminate. }
    unfold fix_bg. destruct (cv_gpal _); [destruct (_ <=? _)|]; (split; [apply Hp|]; split; [apply Hp|]; split; reflexivity).
  - intros b p. unfold fix_bg, dec_global_palette. cbn [dc_conv set_rd].
    destruct (cv_gpal (dc_conv L d)) as [q|] eqn:Eq.
    + cbn [dc_bg set_rd]. destruct (N.leb_spec (len q / 3) (match dc_bg L d with Some b0 => b0 | None => 0 end)) as [Hl|Hl].
      * cbn [dc_bg set_bg]. discriminate.
      * cbn [dc_bg dc_conv set_rd]. rewrite Eq. intros Eb [= <-]. now rewrite Eb in Hl.
    + cbn [dc_conv set_rd]. congruence.
Qed.

Lemma dnext_past w h r ob r' ob' x : dnext L r ob r' ob' x -> rd_wf L r ->
  past_screen w h (rd_dec L r) -> past_screen w h (rd_dec L r').
Proof. apply (dnext_inv (past_screen w h)). intros s buf ob0 s' ob0' r0 A _ B. eapply past_screen_step; eassumption. Qed.


Section Src.
Variable src : list revent.
Variable o : options.
Hypothesis Hs : src_ok src.
Hypothesis Ha : limit_ok umax (o_limit o).
Notation opened := (opened L umax src o).

Definition fixed_screen (w h : N) (r : rd) : Prop := hist L src o r /\ past_screen w h (rd_dec L r).
Lemma fixed_good w h r : fixed_screen w h r -> rd_good L r /\ sd_opts L (rd_dec L r) = o.
Proof. intros [H _]. exact (hist_good L safe src o Hs r H). Qed.
Lemma fixed_next w h r ob r' ob' x : fixed_screen w h r -> decode_next L r ob = (r', ob', x) -> fixed_screen w h r'.
Proof.
  intros [H1 H2] E. split; [eapply h_next; eassumption|].
  destruct (hist_good L safe src o Hs r H1) as [(Hw & _) _].
  exact (dnext_past w h _ _ _ _ _ (decode_next_dnext L safe _ _ _ _ _ Hw E) Hw H2).
Qed.
Lemma fixed_take w h r ob r' ob' t f : fixed_screen w h r ->
  decode_next L r ob = (r', ob', Ok (Some (DFrameMetadata t))) -> sd_current L (rd_dec L r') = Some f ->
  fixed_screen w h (taken_rd L r' f).
Proof. intros H E Ef. destruct (fixed_next _ _ _ _ _ _ _ H E) as [_ A]. split; [eapply h_take; [apply H|exact E|exact Ef]|exact A]. Qed.

(** The screen-level data of an open decoder. *)
Definition screen_data (d : dcd) : N * N * option (list N) * option N * repeat_t :=
  (dec_width L d, dec_height L d, dec_global_palette L d, dec_bg_color L d, dec_repeat L d).

Lemma opened_screen d : opened d ->
  past_screen (dec_width L d) (dec_height L d) (rd_dec L (dc_rd L d)) /\
  (forall b p, dec_bg_color L d = Some b -> dec_global_palette L d = Some p -> b < len p / 3) /\
  exists d0, read_info L src o = Ok d0 /\ screen_data d = screen_data d0.
Proof.
  induction 1 as [d Hi|d op d' y Hd (IH1 & IH2 & d0 & IH3 & IH4) Hop E|d Hd (IH1 & IH2 & IH3)].
  - destruct (init_loop_past _ _ _ (proj1 (with_no_init_good L src o Hs)) Hi) as [A B]. eauto.
  - destruct (opened_good L umax safe Humax src o Hs d Ha Hd) as (Hg & Ho & Hh).
    pose proof (run_dop_J L umax safe Humax o (fixed_screen (dec_width L d) (dec_height L d)) (fixed_good _ _)
      (fixed_next _ _) (fixed_take _ _) d op d' y Ha Hg (conj Hh IH1) Hop E) as [_ Hp].
    destruct (run_dop_meta src o d op d' y Hs Ha Hd Hop E) as (M1 & M2 & M3 & _).
    pose proof Hp as (_ & _ & Hw & Hhh).
    assert (Es : screen_data d' = screen_data d).
    { unfold screen_data, dec_bg_color, dec_repeat. rewrite M1, M2, M3. unfold dec_width at 1, dec_height at 1. now rewrite Hw, Hhh. }
    split; [|split].
    + unfold dec_width at 1, dec_height at 1. rewrite Hw, Hhh. exact Hp.
    + unfold dec_bg_color in *. rewrite M1, M3. exact IH2.
    + exists d0. split; [exact IH3|congruence].
  - split; [exact IH1|]. split; [exact IH2|]. exact IH3.
Qed.

(** ** C34 *)
Theorem bg_color_valid d b p : opened d -> dec_bg_color L d = Some b -> dec_global_palette L d = Some p -> b < len p / 3.
Proof. intros Hd. apply (opened_screen d Hd). Qed.

Theorem screen_data_fixed d : opened d -> exists d0, read_info L src o = Ok d0 /\ screen_data d = screen_data d0.
Proof. intros Hd. apply (opened_screen d Hd). Qed.

(** ** C39 *)
Lemma meta_palette r ob r' ob' t f : hist L src o r -> decode_next L r ob = (r', ob', Ok (Some (DFrameMetadata t))) ->
  sd_current L (rd_dec L r') = Some f ->
  match f_palette f with Some p => pal_size (length p) | None => True end.
Proof.
  intros Hr E Ef. destruct (hist_good L safe src o Hs r Hr) as [Hg _].
  destruct (decode_next_all L safe _ _ _ _ _ Hg E) as ((_ & _ & Hok) & _ & _ & Hm).
  destruct (Hm t eq_refl) as [_ (k & Hst)].
  destruct Hok as (_ & _ & _ & _ & _ & _ & _ & _ & Hc & _). unfold cur_pal_ok in Hc. rewrite Ef in Hc.
  destruct Hst as [[A _]|(m & A & _)]; rewrite A in Hc; exact Hc.
Qed.
Theorem palette_sizes d : opened d ->
  match f_palette (dc_cur L d) with Some p => pal_size (length p) | None => True end /\
  match dec_global_palette L d with Some p => pal_size (length p) | None => True end.
Proof.
  intros Hd. split.
  - induction Hd as [d Hi|d op d' y Hd IH Hop E|d Hd IH].
    + assert (Hc : forall fuel d d', init_loop L fuel d = Ok d' -> dc_cur L d' = dc_cur L d).
      { clear. induction fuel as [|fuel IH]; intros d d' H; [discriminate H|]. cbn [init_loop] in H.
        destruct (decode_next L (dc_rd L d) ONone) as [[r ob] x].
        destruct x as [[ev|]|e| | ]; try discriminate H.
        destruct ev; try (apply IH in H; exact H).
        injection H as <-. unfold fix_bg. destruct (cv_gpal _); [destruct (_ <=? _)|]; reflexivity. }
      unfold read_info in Hi. apply Hc in Hi. rewrite Hi. exact I.
    + destruct (run_dop_meta src o d op d' y Hs Ha Hd Hop E) as (_ & _ & _ & [(b & i & ->)|(r & ob & r' & ob' & t & f & C1 & C2 & C3 & (b & i & ->))]).
      * exact IH.
      * exact (meta_palette _ _ _ _ _ _ C1 C2 C3).
    + exact I.
  - destruct (opened_good L umax safe Humax src o Hs d Ha Hd) as ((_ & _ & _ & _ & Hp) & _).
    unfold dec_global_palette. destruct (cv_gpal (dc_conv L d)); [apply Hp|exact I].
Qed.

(** ** C22 *)
Lemma checked_hist r : hist L src o r -> checked L (rd_dec L r).
Proof.
  apply (hist_inv (checked L)).
  - intros s buf ob s' ob' r0 A _ B. exact (checked_step L s buf ob s' ob' r0 A B).
  - exact Hs.
  - apply checked_new.
  - intros s f k H Hst Hc. unfold checked in *. sdcbn. rewrite Hc in H. destruct Hst as [E|E]; rewrite E in *; exact H.
Qed.

Theorem frame_in_bounds d d' : opened d -> o_check_frame_consistency o = true ->
  next_frame_info L d = (d', Ok true) \/ read_next_frame L umax d = (d', Ok true) ->
  in_bounds (dec_width L d') (dec_height L d') (dc_cur L d').
Proof.
  intros Hd Hc H. destruct (opened_good L umax safe Humax src o Hs d Ha Hd) as (Hg & Ho & Hh).
  pose proof (opened_screen d Hd) as (Hps & _).
  assert (Hi : forall d1, next_frame_info L d = (d1, Ok true) -> in_bounds (dec_width L d) (dec_height L d) (dc_cur L d1)).
  { intros d1 E.
    destruct (next_frame_info_loop_cur src o _ _ _ _ Hh E) as [[_ A]|(r & ob & r' & ob' & t & C1 & C2 & C3 & C4 & C5)]; [congruence|].
    pose proof (h_next _ _ _ _ _ _ _ _ C1 C2) as Hr'.
    destruct (hist_good L safe src o Hs r C1) as [Hgr Hor].
    destruct (hist_good L safe src o Hs r' Hr') as [_ Hor'].
    destruct (decode_next_all L safe _ _ _ _ _ Hgr C2) as (_ & _ & _ & Hm). destruct (Hm t eq_refl) as [_ (k & Hst)].
    pose proof (checked_hist _ Hr') as Hck. unfold checked in Hck. rewrite Hor', C3 in Hck. specialize (Hck Hc).
    pose proof (next_frame_info_loop_J L (fixed_screen (dec_width L d) (dec_height L d))
      (fixed_next _ _) (fixed_take _ _) _ _ _ _ (conj Hh Hps) E) as [_ (_ & _ & Hw & Hhh)].
    rewrite C4 in Hw, Hhh. cbn [taken_rd rd_dec] in Hw, Hhh. sdcbn_in Hw. sdcbn_in Hhh.
    rewrite Hw, Hhh in Hck. destruct Hst as [[A _]|(m & A & _)]; rewrite A in Hck; exact Hck. }
  assert (Hscr : forall op y, run_dop L umax d op = (d', y) -> op_ok umax op ->
    dec_width L d' = dec_width L d /\ dec_height L d' = dec_height L d).
  { intros op y E Hop.
    pose proof (run_dop_J L umax safe Humax o (fixed_screen (dec_width L d) (dec_height L d)) (fixed_good _ _)
      (fixed_next _ _) (fixed_take _ _) d op d' y Ha Hg (conj Hh Hps) Hop E) as [_ (_ & _ & Hw & Hhh)]. auto. }
  destruct H as [H|H].
  - destruct (Hscr OpInfo (OutBool (Ok true))) as [-> ->]; [cbn [run_dop]; now rewrite H|exact I|]. now apply Hi.
  - destruct (Hscr OpFrame (OutBool (Ok true))) as [-> ->]; [cbn [run_dop]; now rewrite H|exact I|].
    unfold read_next_frame in H. destruct (next_frame_info L d) as [d1 z] eqn:En.
    destruct z as [[|]|e| | ]; try discriminate H. specialize (Hi d1 eq_refl).
    destruct (next_frame_info_returns L safe umax Humax d d1 _ Hg En) as (_ & Hg1 & [Ho1 _] & _).
    destruct (dc_ty L d1).
    + destruct (conv_read_frame umax (Reader.rd L) (decode_next_bytes L) (dc_rd L d1) (dc_conv L d1) (dc_cur L d1))
        as [[[r c] f] w] eqn:Ec.
      pose proof Hg1 as (Hr & Hfr & Hl & _). pose proof Hfr as (_ & _ & _ & _ & Hw & Hhh & _).
      apply (conv_read_frame_ok umax _ _ (fun r => rd_good L r /\ sd_opts L (rd_dec L r) = dopts L d1)) in Ec.
      2:{ intros. eapply decode_next_bytes_ok; eassumption. }
      2:{ exact Hw. } 2:{ exact Hhh. } 2:{ exact Humax. }
      2:{ rewrite Hl. unfold dopts in *. rewrite Ho1, Ho. exact Ha. }
      2:{ split; [exact Hr|reflexivity]. }
      destruct Ec as (_ & _ & _ & (b & i & ->) & _). destruct w; try discriminate H. injection H as <-. exact Hi.
    + destruct (copy_lzw_into_buffer L (dc_rd L d1) _ _) as [[r v] w]. destruct w; try discriminate H.
      injection H as <-. exact Hi.
Qed.

(** A frame is refused for consistency only when it sticks out. *)
Lemma dnext_refused r ob r' ob' : dnext L r ob r' ob' (Err (DFormat FrameOutOfBounds)) -> rd_wf L r ->
  o_check_frame_consistency (sd_opts L (rd_dec L r')) = true /\
  exists f, sd_current L (rd_dec L r') = Some f /\ ~ in_bounds (sd_width L (rd_dec L r')) (sd_height L (rd_dec L r')) f.
Proof.
  remember (Err (DFormat FrameOutOfBounds)) as x eqn:Ex.
  induction 1 as [buf src0 s ob|k src0 s ob|s ob|src0 s ob|bs src0 s ob r' ob' x Hb Hn IH
    |buf src0 s ob s1 ob1 n r' ob' x Hb He Hn IH|buf src0 s ob s1 ob1 n Hb He
    |buf src0 s ob s1 ob1 n d Hb He Hd1 Hd2|pr buf src0 s ob s1 ob1 e Hb He]; intros Hwf; try discriminate Ex.
  - apply IH; [exact Ex|]. eapply wf_fill; eauto.
  - apply IH; [exact Ex|]. eapply wf_step; eauto.
  - injection Ex as ->. cbn [rd_dec].
    pose proof (wf_nst _ _ _ _ _ _ _ Hwf Hb He) as Hst. inversion Hst; subst.
    + match goal with E : img_oob _ _ _ = true |- _ => apply img_oob_spec in E; destruct E as [E1 E2] end.
      split; [exact E1|]. eexists. split; [reflexivity|]. sdcbn. exact E2.
    + match goal with E : obuf_append _ _ _ = _ |- _ => revert E end. unfold obuf_append.
      destruct ob1; [|destruct (check_size _ _)|]; congruence.
    + match goal with E : lr_decode_bytes _ _ _ _ = _ |- _ => revert E end. apply lr_err.
    + match goal with E : lr_decode_bytes _ _ _ _ = _ |- _ => revert E end. apply lr_err.
Qed.
Theorem refused_out_of_bounds d d' : opened d ->
  next_frame_info L d = (d', Err (DFormat FrameOutOfBounds)) ->
  o_check_frame_consistency o = true /\
  exists f, sd_current L (rd_dec L (dc_rd L d')) = Some f /\ ~ in_bounds (dec_width L d') (dec_height L d') f.
Proof.
  intros Hd H. destruct (opened_good L umax safe Humax src o Hs d Ha Hd) as (Hg & Ho & Hh). clear Hg Ho.
  unfold next_frame_info in H. revert H Hh. clear Hd. generalize (ev_fuel L (dc_rd L d)). intros fuel.
  revert d. induction fuel as [|fuel IH]; intros d H Hh; cbn [next_frame_info_loop] in H; [discriminate H|].
  destruct (decode_next L (dc_rd L d) ONone) as [[r ob] y] eqn:E.
  pose proof (h_next _ _ _ _ _ _ _ _ Hh E) as Hr.
  destruct y as [[ev|]|e| | ]; try discriminate H.
  - destruct ev; try (eapply IH; [exact H|exact Hr]).
    destruct (sd_current L (rd_dec L r)) as [f|]; [|discriminate H]. cbn [frame_take] in H.
    destruct (f_palette f); [|destruct (cv_gpal _)]; discriminate H.
  - injection H as <- ->. destruct (hist_good L safe src o Hs _ Hh) as [(Hw & _) _].
    destruct (hist_good L safe src o Hs _ Hr) as [_ Hor].
    destruct (dnext_refused _ _ _ _ (decode_next_dnext L safe _ _ _ _ _ Hw E) Hw) as [A B].
    split; [now rewrite Hor in A|exact B].
Qed.
End Src.

(** ** C29 *)
Fixpoint iter_calls (it : iter L) (n : nat) : iter L * list item :=
  match n with
  | O => (it, [])
  | S n' => let '(it1, y) := iter_next L umax it in let '(it2, ys) := iter_calls it1 n' in (it2, y :: ys)
  end.
Theorem iter_stops it it1 e n : iter_next L umax it = (it1, IErr e) -> iter_calls it1 n = (it1, repeat INone n).
Proof.
  intros H.
  assert (He : it_ended L it1 = true).
  { unfold iter_next in H. destruct (it_ended L it); [discriminate H|].
    destruct (read_next_frame L umax (it_dec L it)) as [d x]. destruct x as [[|]|e0| | ]; try discriminate H.
    - destruct (is_nil _); discriminate H.
    - injection H as <- _. reflexivity. }
  induction n as [|n IH]; [reflexivity|]. cbn [iter_calls repeat]. unfold iter_next. rewrite He, IH. reflexivity.
Qed.

(** ** C21 *)
Lemma nst_vec s buf v s' ob' r n : nst L s buf (OVec v) s' ob' r -> o_limit (sd_opts L s) = Some n ->
  exists v', ob' = OVec v' /\ len v' <= N.max n (len v) /\ (v <> [] -> v' <> []).
Proof.
  intros H Hl. assert (H0 : exists v', OVec v = OVec v' /\ len v' <= N.max n (len v) /\ (v <> [] -> v' <> [])) by (exists v; split; [reflexivity|]; split; [lia|auto]).
  inversion H; subst; try exact H0.
  - match goal with E : obuf_append _ _ _ = _ |- _ => unfold obuf_append in E; rewrite Hl in E; cbn [check_size] in E;
      destruct (N.leb_spec (len v + len (firstn (Nat.min k (length buf)) buf)) n); [|discriminate E]; injection E as <- _ _ end.
    eexists. split; [reflexivity|]. split.
    + unfold len in *. rewrite app_length. lia.
    + intros Hv E. apply app_eq_nil in E. tauto.
  - match goal with E : lr_decode_bytes _ _ _ _ = _ |- _ => unfold lr_decode_bytes in E; destruct (lr_decoder L _); discriminate E end.
  - match goal with E : lr_decode_bytes _ _ _ _ = _ |- _ => unfold lr_decode_bytes in E; destruct (lr_decoder L _); injection E as _ <- _ end; exact H0.
  - match goal with E : lr_decode_bytes _ _ _ _ = _ |- _ => unfold lr_decode_bytes in E; destruct (lr_decoder L _); discriminate E end.
  - match goal with E : lr_decode_bytes _ _ _ _ = _ |- _ => unfold lr_decode_bytes in E; destruct (lr_decoder L _); injection E as _ <- _ end; exact H0.
Qed.

Lemma dnext_vec r ob r' ob' x : dnext L r ob r' ob' x -> rd_wf L r -> forall v n, ob = OVec v ->
  o_limit (sd_opts L (rd_dec L r)) = Some n -> len (obuf_bytes ob') <= N.max n (len v).
Proof.
  assert (Hstep : forall buf src s v s1 ob1 y, rd_wf L (mk_rd L buf src s false) -> buf <> [] ->
    next_state L s buf (OVec v) = (s1, ob1, y) -> forall n, o_limit (sd_opts L s) = Some n ->
    (exists v1, ob1 = OVec v1 /\ len v1 <= N.max n (len v)) /\ sd_opts L s1 = sd_opts L s).
  { intros buf src s v s1 ob1 y Hwf Hb He n Hl. destruct (nst_vec _ _ _ _ _ _ n (wf_nst _ _ _ _ _ _ _ Hwf Hb He) Hl) as (v1 & A & B & _).
    split; [eauto|]. destruct Hwf as [H1 H2]. destruct (H2 eq_refl) as [H3 H4].
    pose proof (next_state_good L safe s buf (OVec v) H1 H3 Hb) as Hg. rewrite He in Hg. apply Hg. }
  induction 1 as [buf src s ob|k src s ob|s ob|src s ob|bs src s ob r' ob' x Hb Hn IH
    |buf src s ob s1 ob1 n r' ob' x Hb He Hn IH|buf src s ob s1 ob1 n Hb He
    |buf src s ob s1 ob1 n d Hb He Hd1 Hd2|pr buf src s ob s1 ob1 e Hb He]; intros Hwf v m -> Hl; try (cbn [obuf_bytes]; lia).
  - eapply IH; [eapply wf_fill; eauto|reflexivity|exact Hl].
  - destruct (Hstep _ _ _ _ _ _ _ Hwf Hb He m Hl) as [(v1 & -> & A) Ho].
    specialize (IH (wf_step _ _ _ _ _ _ _ Hwf Hb He) v1 m eq_refl). cbn [rd_dec] in IH, Hl. rewrite Ho in IH. specialize (IH Hl). lia.
  - destruct (Hstep _ _ _ _ _ _ _ Hwf Hb He m Hl) as [(v1 & -> & A) Ho]. exact A.
  - destruct (Hstep _ _ _ _ _ _ _ Hwf Hb He m Hl) as [(v1 & -> & A) Ho]. exact A.
  - destruct (Hstep _ _ _ _ _ _ _ Hwf Hb He m Hl) as [(v1 & -> & A) Ho]. exact A.
Qed.

Lemma copy_lzw_limit n fuel : forall r v r' v' x, rd_good L r -> o_limit (sd_opts L (rd_dec L r)) = Some n ->
  copy_lzw_loop L fuel r v = (r', v', x) -> len v' <= N.max n (len v).
Proof.
  induction fuel as [|fuel IH]; intros r v r' v' x Hg Hl H; cbn [copy_lzw_loop] in H.
  { injection H as <- <- <-. lia. }
  destruct (decode_next L r (OVec v)) as [[r1 ob1] y] eqn:E.
  destruct (decode_next_all L safe _ _ _ _ _ Hg E) as (Hg1 & (_ & Ho & _) & _).
  pose proof Hg as (Hw & _).
  pose proof (dnext_vec _ _ _ _ _ (decode_next_dnext L safe _ _ _ _ _ Hw E) Hw v n eq_refl Hl) as Hb.
  destruct y as [[ev|]|e| | ]; try (injection H as <- <- <-; exact Hb).
  destruct ev; try (injection H as <- <- <-; exact Hb).
  apply IH in H; [lia|exact Hg1|now rewrite Ho].
Qed.

Theorem frame_within_limit src o d d' n : src_ok src -> limit_ok umax (o_limit o) -> opened L umax src o d ->
  o_limit o = Some n -> 1 <= n -> read_next_frame L umax d = (d', Ok true) -> len (f_buffer (dc_cur L d')) <= n.
Proof.
  intros Hs Ha Hd Hl Hn H. destruct (opened_good L umax safe Humax src o Hs d Ha Hd) as (Hg & Ho & Hh).
  assert (Ha' : alloc_ok L umax d) by (unfold alloc_ok; rewrite Ho; exact Ha).
  destruct (read_next_frame_returns L safe umax Humax d d' (Ok true) Hg Ha' H) as (_ & _ & _ & Hb).
  specialize (Hb eq_refl). rewrite Ho, Hl in Hb.
  destruct (dc_ty L d') eqn:Ety; [exact Hb|].
  unfold read_next_frame in H. destruct (next_frame_info L d) as [d1 z] eqn:En. destruct z as [[|]|e| | ]; try discriminate H.
  destruct (next_frame_info_returns L safe umax Humax d d1 _ Hg En) as (_ & Hg1 & [Ho1 _] & _).
  destruct (dc_ty L d1) eqn:Ety1.
  - destruct (conv_read_frame _ _ _ _ _ _) as [[[r c] f] w]. destruct w; try discriminate H. injection H as <-. discriminate Ety.
  - destruct (copy_lzw_into_buffer L (dc_rd L d1) _ _) as [[r v] w] eqn:Ec. destruct w; try discriminate H. injection H as <-.
    unfold copy_lzw_into_buffer in Ec. apply (copy_lzw_limit n) in Ec; [|apply Hg1|unfold dopts in *; rewrite Ho1, Ho; exact Hl].
    cbn [app] in Ec. unfold len in *. cbn [length dc_cur set_cur f_buffer set_buffer] in *. lia.
Qed.

Theorem item_within_limit src o it it' f n : src_ok src -> limit_ok umax (o_limit o) -> opened L umax src o (it_dec L it) ->
  o_limit o = Some n -> 1 <= n -> iter_next L umax it = (it', IFrame f) -> len (f_buffer f) <= n.
Proof.
  intros Hs Ha Hd Hl Hn H. unfold iter_next in H. destruct (it_ended L it); [discriminate H|].
  destruct (read_next_frame L umax (it_dec L it)) as [d x] eqn:E. destruct x as [[|]|e0| | ]; try discriminate H.
  destruct (is_nil _); [discriminate H|]. cbn [frame_take] in H. injection H as <- <-.
  eapply frame_within_limit; eassumption.
Qed.

End DP.
