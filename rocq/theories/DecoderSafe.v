(** Every [Decoder] operation returns: no panic, no endless loop, on any input. *)
From Verif Require Import Base Common Lzw Encoder Stream Converter Reader
  StreamInv Steps ReaderInv Interlace Ranges ConvInv.
Open Scope N_scope.

Definition src_ok (src : list revent) : Prop := Forall (fun e => bytes_ok (ev_bytes e)) src.

Section Safe.
Variable L : lzw_codec.
Hypothesis safe : lzw_safe L.
Notation rd := (rd L).
Notation dcd := (dcd L).

Definition rd_bytes (r : rd) : Prop := bytes_ok (rd_buf L r) /\ src_ok (rd_src L r).

Lemma decode_next_loop_bytes fuel : forall r ob r' ob' x,
  rd_bytes r -> decode_next_loop L fuel r ob = (r', ob', x) -> rd_bytes r'.
Proof.
  induction fuel as [|fuel IH]; intros r ob r' ob' x [Hb Hs] H; cbn [decode_next_loop] in H.
  { destruct (rd_eof L r); injection H as <- <- <-; split; assumption. }
  destruct (rd_eof L r); [injection H as <- <- <-; split; assumption|].
  assert (Hf : forall r1 y, fill_buf L r = (r1, y) -> rd_bytes r1 /\ forall b, y = Ok b -> bytes_ok b).
  { clear H IH. destruct r as [rb rs rdec re]. cbn in Hb, Hs. unfold fill_buf, rd_bytes.
    cbn [rd_buf rd_src rd_dec rd_eof]. intros r1 y E. destruct rb as [|c cs].
    - destruct rs as [|[bs|k] src]; injection E as <- <-; cbn [rd_buf rd_src].
      + split; [split; assumption|]. intros b [= <-]. constructor.
      + inversion Hs as [|? ? H1 H2]; subst. split; [split; assumption|]. intros b [= <-]. exact H1.
      + inversion Hs as [|? ? H1 H2]; subst. split; [split; assumption|]. intros b E. discriminate E.
    - injection E as <- <-. split; [split; assumption|]. intros b [= <-]. exact Hb. }
  destruct (fill_buf L r) as [r1 y]. specialize (Hf r1 y eq_refl). destruct Hf as [Hr1 Hy].
  destruct y as [buf|k| | ]; [|injection H as <- <- <-; assumption..].
  specialize (Hy buf eq_refl). pose proof Hr1 as [_ Hs1].
  destruct buf as [|c cs]; [injection H as <- <- <-; exact Hr1|].
  remember (c :: cs) as buf eqn:Ebuf.
  replace (match buf with [] => (r1, ob, Err (DIo UnexpectedEof)) | _ :: _ =>
     (let '(d, ob1, x0) := update L (rd_dec L r1) buf ob in
        match x0 with
        | Ok (n, ev) => let rest := skipn n buf in
          match ev with
          | DNothing => decode_next_loop L fuel (mk_rd L rest (rd_src L r1) d false) ob1
          | DBlockStart BkTrailer => decode_next_loop L fuel (mk_rd L rest (rd_src L r1) d true) ob1
          | _ => (mk_rd L rest (rd_src L r1) d false, ob1, Ok (Some ev))
          end
        | Err e => (mk_rd L buf (rd_src L r1) d false, ob1, Err e)
        | Panic => (mk_rd L buf (rd_src L r1) d false, ob1, Panic)
        | Hang => (mk_rd L buf (rd_src L r1) d false, ob1, Hang)
        end) end) with
     (let '(d, ob1, x0) := update L (rd_dec L r1) buf ob in
        match x0 with
        | Ok (n, ev) => let rest := skipn n buf in
          match ev with
          | DNothing => decode_next_loop L fuel (mk_rd L rest (rd_src L r1) d false) ob1
          | DBlockStart BkTrailer => decode_next_loop L fuel (mk_rd L rest (rd_src L r1) d true) ob1
          | _ => (mk_rd L rest (rd_src L r1) d false, ob1, Ok (Some ev))
          end
        | Err e => (mk_rd L buf (rd_src L r1) d false, ob1, Err e)
        | Panic => (mk_rd L buf (rd_src L r1) d false, ob1, Panic)
        | Hang => (mk_rd L buf (rd_src L r1) d false, ob1, Hang)
        end) in H by (subst; reflexivity).
  destruct (update L (rd_dec L r1) buf ob) as [[d ob1] z].
  destruct z as [[n ev]|e| | ]; [|injection H as <- <- <-; split; assumption..].
  cbn zeta in H.
  assert (Hk : bytes_ok (skipn n buf)) by (now apply bytes_ok_skipn).
  destruct ev as [ | | | | |[ | | ]| | | | | | ];
    try (injection H as <- <- <-; split; assumption);
    eapply IH; try exact H; split; assumption.
Qed.

Lemma decode_next_bytes_kept r ob r' ob' x :
  rd_bytes r -> decode_next L r ob = (r', ob', x) -> rd_bytes r'.
Proof. apply decode_next_loop_bytes. Qed.

(** The step that made a reported event. *)
Lemma dnext_last r ob r' ob' x d : dnext L r ob r' ob' x -> x = Ok (Some d) -> rd_wf L r ->
  exists buf src s ob0 s1 n, r' = mk_rd L (skipn n buf) src s1 false /\ buf <> [] /\
    sd_wf L s /\ zero_ok L s buf /\ next_state L s buf ob0 = (s1, ob', Ok (n, d)).
Proof.
  induction 1 as [buf src s ob|k src s ob|s ob|src s ob|bs src s ob r' ob' x Hb Hn IH
    |buf src s ob s1 ob1 n r' ob' x Hb He Hn IH|buf src s ob s1 ob1 n Hb He
    |buf src s ob s1 ob1 n d1 Hb He Hd1 Hd2|pr buf src s ob s1 ob1 e Hb He]; intros Ex Hwf; try discriminate.
  - apply IH; [exact Ex|]. destruct Hwf as [H1 H2]. split; [exact H1|].
    destruct (H2 eq_refl) as [H3 H4]. intros _. split; [|exact H4].
    intros E. destruct (H3 E) as [t Ht]. discriminate.
  - apply IH; [exact Ex|]. destruct Hwf as [H1 H2]. destruct (H2 eq_refl) as [H3 H4]. cbn in H1, H3, H4.
    pose proof (next_state_good L safe s buf ob H1 H3 Hb) as Hg. rewrite He in Hg.
    destruct Hg as (_ & _ & Hg1 & Hg2 & Hg3 & Hg4 & _).
    split; [exact Hg2|]. intros _. split; [exact Hg3|].
    intros E. destruct (Hg4 E); [contradiction|discriminate].
  - injection Ex as ->. destruct Hwf as [H1 H2]. destruct (H2 eq_refl) as [H3 H4].
    exists buf, src, s, ob, s1, n. auto.
Qed.

Lemma dnext_ranges r ob r' ob' x : dnext L r ob r' ob' x -> rd_wf L r -> rd_bytes r ->
  sd_ok L (rd_dec L r) ->
  sd_ok L (rd_dec L r') /\ (forall d, x = Ok (Some d) -> event_ok d).
Proof.
  induction 1 as [buf src s ob|k src s ob|s ob|src s ob|bs src s ob r' ob' x Hb Hn IH
    |buf src s ob s1 ob1 n r' ob' x Hb He Hn IH|buf src s ob s1 ob1 n Hb He
    |buf src s ob s1 ob1 n d Hb He Hd1 Hd2|pr buf src s ob s1 ob1 e Hb He]; intros Hwf Hby Hok;
    try (split; [exact Hok|discriminate]);
    pose proof Hwf as [H1 H2]; destruct (H2 eq_refl) as [H3 H4]; destruct Hby as [Hby1 Hby2];
    cbn in H1, H2, H3, H4, Hby1, Hby2, Hok |- *.
  - inversion Hby2 as [|? ? Hx1 Hx2]; subst. apply IH; [|split; assumption|exact Hok].
    split; [exact H1|]. intros _. split; [|exact H4].
    intros E. destruct (H3 E) as [t Ht]. discriminate.
  - pose proof (next_state_good L safe s buf ob H1 H3 Hb) as Hg. rewrite He in Hg.
    destruct Hg as (_ & _ & Hg1 & Hg2 & Hg3 & Hg4 & _).
    apply next_state_nst in He; auto. apply nst_ok in He; auto. destruct He as [He _].
    apply IH; [|split; [apply bytes_ok_skipn|]; assumption|exact He].
    split; [exact Hg2|]. intros _. split; [exact Hg3|].
    intros E. destruct (Hg4 E); [contradiction|discriminate].
  - apply next_state_nst in He; auto. apply nst_ok in He; auto. destruct He as [He _].
    split; [exact He|discriminate].
  - apply next_state_nst in He; auto. apply nst_ok in He; auto. destruct He as [He Hev].
    split; [exact He|]. intros d0 [= <-]. eapply Hev. reflexivity.
  - apply next_state_nst in He; auto. apply nst_ok in He; auto. destruct He as [He _].
    split; [exact He|discriminate].
Qed.

Lemma nst_meta s buf ob s' ob' n t : sd_wf L s -> nst L s buf ob s' ob' (Ok (n, DFrameMetadata t)) ->
  exists k, (sd_state L s' = DecodeSubBlock k /\ t = FPixels \/
             exists m, sd_state L s' = CopySubBlock k /\ t = FLzw m).
Proof.
  intros Hwf H. inversion H; subst; try (destruct (w =? 0)%nat; discriminate);
    try (destruct (is_netscape _); discriminate); sdcbn; eauto 6.
Qed.

Definition rd_good (r : rd) : Prop := rd_wf L r /\ rd_bytes r /\ sd_ok L (rd_dec L r).

Lemma decode_next_all r ob r' ob' x : rd_good r -> decode_next L r ob = (r', ob', x) ->
  rd_good r' /\ good_next L r ob r' ob' x /\ (forall d, x = Ok (Some d) -> event_ok d) /\
  (forall t, x = Ok (Some (DFrameMetadata t)) ->
     sd_current L (rd_dec L r') <> None /\
     exists k, (sd_state L (rd_dec L r') = DecodeSubBlock k /\ t = FPixels \/
                exists m, sd_state L (rd_dec L r') = CopySubBlock k /\ t = FLzw m)).
Proof.
  intros (H1 & H2 & H3) H.
  pose proof (decode_next_dnext L safe r ob r' ob' x H1 H) as Hd.
  pose proof (dnext_good L safe r ob r' ob' x Hd H1) as Hg.
  pose proof (dnext_ranges r ob r' ob' x Hd H1 H2 H3) as [Ho He].
  pose proof (decode_next_bytes_kept r ob r' ob' x H2 H) as Hb.
  split; [split; [apply Hg|split; assumption]|]. split; [exact Hg|]. split; [exact He|].
  intros t Hx. destruct (dnext_last _ _ _ _ _ _ Hd Hx H1) as (buf & src & s & ob0 & s1 & n & -> & Hbf & Hw & Hz & Hn).
  pose proof (next_state_good L safe s buf ob0 Hw Hz Hbf) as Hgs. rewrite Hn in Hgs.
  apply next_state_nst in Hn; auto. apply nst_meta in Hn; auto. cbn.
  split; [|exact Hn]. destruct Hgs as (_ & _ & _ & Hw1 & _). destruct Hw1 as (_ & _ & Hc & _).
  unfold cur_wf in Hc. destruct Hn as (k & [[Es _]|(m & Es & _)]); rewrite Es in Hc; exact Hc.
Qed.

(** *** The [Decoder] *)
Variable umax : N.
Hypothesis Humax : 2 ^ 32 - 1 <= umax.

Definition dcd_good (d : dcd) : Prop :=
  rd_good (dc_rd L d) /\ frame_ok (dc_cur L d) /\
  cv_limit (dc_conv L d) = o_limit (sd_opts L (rd_dec L (dc_rd L d))) /\
  cv_color (dc_conv L d) = o_color (sd_opts L (rd_dec L (dc_rd L d))) /\
  (match cv_gpal (dc_conv L d) with Some p => bytes_ok p /\ pal_size (length p) | None => True end).

Definition dopts (d : dcd) : options := sd_opts L (rd_dec L (dc_rd L d)).

Lemma rmeas_fuel r : (rmeas L r < ev_fuel L r)%nat.
Proof. unfold rmeas, ev_fuel, meas. pose proof (erank_le3 L (rd_dec L r)). lia. Qed.

Lemma init_loop_returns fuel : forall d, dcd_good d -> (rmeas L (dc_rd L d) < fuel)%nat ->
  returns (init_loop L fuel d) /\
  forall d', init_loop L fuel d = Ok d' -> dcd_good d' /\ dopts d' = dopts d.
Proof.
  induction fuel as [|fuel IH]; intros d Hd Hf; [lia|]. cbn [init_loop].
  destruct (decode_next L (dc_rd L d) ONone) as [[r ob] x] eqn:E.
  destruct Hd as (Hr & Hfr & Hl & Hco & Hg).
  pose proof (decode_next_all _ _ _ _ _ Hr E) as (Hr' & Hgn & Hev & _).
  destruct Hgn as (_ & Ho & _ & _ & Hx).
  assert (Hgo : forall c b rep, cv_limit c = cv_limit (dc_conv L d) -> cv_color c = cv_color (dc_conv L d) ->
     (match cv_gpal c with Some p => bytes_ok p /\ pal_size (length p) | None => True end) ->
     dcd_good (mk_dcd L r c b rep (dc_cur L d) (dc_ty L d))).
  { intros c b rep H1 H2 H3. unfold dcd_good. cbn [dc_rd dc_cur dc_conv]. rewrite Ho, H1, H2. auto. }
  assert (Hrec : forall c b rep, (rmeas L r < rmeas L (dc_rd L d))%nat ->
     cv_limit c = cv_limit (dc_conv L d) -> cv_color c = cv_color (dc_conv L d) ->
     (match cv_gpal c with Some p => bytes_ok p /\ pal_size (length p) | None => True end) ->
     returns (init_loop L fuel (mk_dcd L r c b rep (dc_cur L d) (dc_ty L d))) /\
     forall d', init_loop L fuel (mk_dcd L r c b rep (dc_cur L d) (dc_ty L d)) = Ok d' ->
       dcd_good d' /\ dopts d' = dopts d).
  { intros c b rep Hlt H1 H2 H3. specialize (Hgo c b rep H1 H2 H3). apply IH in Hgo; [|cbn [dc_rd set_rd]; lia].
    destruct Hgo as [Q1 Q2]. split; [exact Q1|]. intros d' Hd'. apply Q2 in Hd'.
    destruct Hd' as [Q3 Q4]. split; [exact Q3|]. rewrite Q4. exact Ho. }
  destruct x as [[ev|]|e| | ]; try easy.
  destruct Hx as (_ & _ & _ & Hlt & _). specialize (Hlt eq_refl).
  specialize (Hev ev eq_refl).
  destruct ev; try (apply (Hrec (dc_conv L d) (dc_bg L d) (dc_repeat L d)); auto; fail).
  - apply (Hrec (set_global_palette (dc_conv L d) p) (dc_bg L d) (dc_repeat L d)); auto.
    cbn. destruct Hev as [Hp1 Hp2]. destruct p as [|a p]; [exact I|]. cbn [is_nil].
    split; [exact Hp1|]. destruct Hp2; [discriminate|assumption].
  - apply (Hrec (dc_conv L d) (Some c) (dc_repeat L d)); auto.
  - apply (Hrec (dc_conv L d) (dc_bg L d) r0); auto.
  - split; [exact I|]. intros d' [= <-].
    assert (G : dcd_good (set_rd L d r)) by (apply (Hgo (dc_conv L d) (dc_bg L d) (dc_repeat L d)); auto).
    unfold fix_bg. cbn [dc_conv set_rd].
    destruct (cv_gpal (dc_conv L d)) as [p|] eqn:Ep; [|split; [exact G|exact Ho]].
    destruct (_ <=? _); split; try exact G; exact Ho.
Qed.

Lemma with_no_init_good src o : src_ok src -> dcd_good (with_no_init L src o).
Proof.
  intros Hs. split; [|split; [|repeat split]].
  - split; [|split].
    + split; [apply sd_new_wf|]. intros _. split; [|discriminate]. intros H. discriminate.
    + split; [constructor|exact Hs].
    + apply sd_new_ok.
  - apply frame_default_ok.
Qed.

Lemma read_info_returns src o : src_ok src ->
  returns (read_info L src o) /\
  forall d, read_info L src o = Ok d -> dcd_good d /\ dopts d = o.
Proof.
  intros Hs. pose proof (with_no_init_good src o Hs) as Hd.
  pose proof (init_loop_returns _ _ Hd (rmeas_fuel _)) as [H1 H2].
  split; [exact H1|]. intros d Hr. apply H2 in Hr. destruct Hr as [Hr1 Hr2]. split; [exact Hr1|].
  rewrite Hr2. reflexivity.
Qed.

(** Taking the frame out of the streaming decoder keeps it in order. *)
Lemma take_good r f k : rd_good r -> sd_current L (rd_dec L r) = Some f ->
  (sd_state L (rd_dec L r) = DecodeSubBlock k \/ sd_state L (rd_dec L r) = CopySubBlock k) ->
  rd_good (mk_rd L (rd_buf L r) (rd_src L r)
             (set_current L (rd_dec L r) (Some (snd (frame_take f))) 0) (rd_eof L r)).
Proof.
  intros (Hw & Hb & Ho) Hc Hst. split; [|split].
  - destruct Hw as [Hw1 Hw2]. split.
    + destruct Hw1 as (H1 & H2 & H3 & H4). unfold sd_wf, gct_wf, cur_wf, mode_wf in *. cbn [rd_dec]. sdcbn.
      destruct Hst as [Est|Est]; rewrite Est in *; (split; [exact H1|split; [exact I|split; [discriminate|exact H4]]]).
    + intros E. apply Hw2 in E. exact E.
  - exact Hb.
  - destruct Ho as (O1 & O2 & O3 & O4 & O5 & O6 & O7 & O8 & O9 & O10).
    rewrite Hc in O7. destruct O7 as [O7 O7b].
    unfold sd_ok, cur_pal_ok, gct_pal_ok in *. cbn [rd_dec]. sdcbn.
    repeat match goal with |- _ /\ _ => split end; try assumption.
    + unfold frame_ok in *. cbn. unfold bytes_ok. tauto.
    + reflexivity.
    + destruct Hst as [Est|Est]; rewrite Est; exact I.
Qed.

Definition opts_kept (d d' : dcd) : Prop :=
  dopts d' = dopts d /\ same_settings (dc_conv L d) (dc_conv L d').

Lemma opts_kept_refl d : opts_kept d d.
Proof. split; [reflexivity|apply same_settings_refl]. Qed.
Lemma opts_kept_trans a b c : opts_kept a b -> opts_kept b c -> opts_kept a c.
Proof. intros [H1 H2] [H3 H4]. split; [congruence|eapply same_settings_trans; eassumption]. Qed.

Lemma set_rd_good d r : dcd_good d -> rd_good r -> sd_opts L (rd_dec L r) = dopts d ->
  dcd_good (set_rd L d r).
Proof.
  intros (H1 & H2 & H3 & H4 & H5) Hr Ho. unfold dcd_good. cbn [dc_rd dc_cur dc_conv set_rd].
  rewrite Ho. auto.
Qed.

Lemma next_frame_info_loop_returns fuel : forall d, dcd_good d -> (rmeas L (dc_rd L d) < fuel)%nat ->
  forall d' x, next_frame_info_loop L fuel d = (d', x) ->
  returns x /\ dcd_good d' /\ opts_kept d d' /\
  (x = Ok true -> f_buffer (dc_cur L d') = [] /\
     match dc_ty L d' with FPixels => True | FLzw m => 1 <= m <= 11 end).
Proof.
  induction fuel as [|fuel IH]; intros d Hd Hf d' x H; [lia|]. cbn [next_frame_info_loop] in H.
  destruct (decode_next L (dc_rd L d) ONone) as [[r ob] y] eqn:E.
  pose proof Hd as (Hr & Hfr & Hl & Hco & Hg).
  pose proof (decode_next_all _ _ _ _ _ Hr E) as (Hr' & Hgn & Hev & Hmeta).
  destruct Hgn as (_ & Ho & _ & _ & Hx).
  pose proof (set_rd_good d r Hd Hr' Ho) as Hd1.
  assert (Hk : opts_kept d (set_rd L d r)).
  { split; [exact Ho|apply same_settings_refl]. }
  destruct y as [[ev|]|e| | ]; try easy.
  - destruct Hx as (_ & _ & _ & Hlt & _). specialize (Hlt eq_refl).
    assert (Hrec : next_frame_info_loop L fuel (set_rd L d r) = (d', x) ->
      returns x /\ dcd_good d' /\ opts_kept d d' /\
      (x = Ok true -> f_buffer (dc_cur L d') = [] /\
     match dc_ty L d' with FPixels => True | FLzw m => 1 <= m <= 11 end)).
    { intros E1. apply IH in E1; [|exact Hd1|cbn [dc_rd set_rd]; lia].
      destruct E1 as (Q1 & Q2 & Q3 & Q4). split; [exact Q1|]. split; [exact Q2|]. split; [|exact Q4].
      eapply opts_kept_trans; eassumption. }
    destruct ev; try (apply Hrec; exact H).
    destruct (Hmeta t eq_refl) as [Hcur (k & Hst)].
    destruct (sd_current L (rd_dec L r)) as [f|] eqn:Ef; [|congruence].
    specialize (Hev _ eq_refl).
    assert (Hst' : sd_state L (rd_dec L r) = DecodeSubBlock k \/ sd_state L (rd_dec L r) = CopySubBlock k).
    { destruct Hst as [[Hs _]|(m & Hs & _)]; auto. }
    pose proof (take_good r f k Hr' Ef Hst') as Hg2.
    destruct Hr' as (_ & _ & Hok). destruct Hok as (_ & _ & _ & _ & _ & _ & Hcok & _).
    rewrite Ef in Hcok. destruct Hcok as [Hfok Hfb].
    cbn [frame_take snd] in H, Hg2. cbn [f_palette] in H.
    match type of H with context [set_cur L ?a ?b ?c] => set (d2 := set_cur L a b c) in * end.
    assert (G : dcd_good d2).
    { unfold dcd_good, d2. cbn [dc_rd dc_cur dc_conv set_cur set_rd rd_dec]. sdcbn. rewrite Ho. auto. }
    assert (K : opts_kept d d2).
    { split; [|apply same_settings_refl]. unfold dopts, d2. cbn [dc_rd set_cur set_rd rd_dec]. sdcbn. exact Ho. }
    assert (R : x = Ok true \/ (exists e, x = Err e) -> (d2, x) = (d', x) ->
       returns x /\ dcd_good d' /\ opts_kept d d' /\ (x = Ok true -> f_buffer (dc_cur L d') = [] /\
          match dc_ty L d' with FPixels => True | FLzw m => 1 <= m <= 11 end)).
    { intros Hx1 [= <-]. split; [destruct Hx1 as [->|[e ->]]; exact I|]. split; [exact G|]. split; [exact K|].
      intros _. split; [exact Hfb|]. unfold d2. cbn. destruct t; [exact I|exact Hev]. }
    destruct (f_palette f); [|destruct (cv_gpal (dc_conv L d2))];
      injection H as <- <-; apply R; eauto.
  - injection H as <- <-. split; [exact I|]. split; [exact Hd1|]. split; [exact Hk|]. discriminate.
  - injection H as <- <-. split; [exact I|]. split; [exact Hd1|]. split; [exact Hk|]. discriminate.
Qed.

Lemma next_frame_info_returns d d' x : dcd_good d -> next_frame_info L d = (d', x) ->
  returns x /\ dcd_good d' /\ opts_kept d d' /\
  (x = Ok true -> f_buffer (dc_cur L d') = [] /\
     match dc_ty L d' with FPixels => True | FLzw m => 1 <= m <= 11 end).
Proof. intros Hd. apply next_frame_info_loop_returns; [exact Hd|apply rmeas_fuel]. Qed.

Lemma decode_next_bytes_ok (o : options) r s r' ob' x :
  rd_good r /\ sd_opts L (rd_dec L r) = o -> decode_next_bytes L r (OSlice s) = (r', ob', x) ->
  (rd_good r' /\ sd_opts L (rd_dec L r') = o) /\ (exists s', ob' = OSlice s' /\ length s' = length s) /\
  match x with Ok n => (n <= length s)%nat | Err _ => True | Panic | Hang => False end.
Proof.
  intros [Hr Ho] H. unfold decode_next_bytes in H.
  destruct (decode_next L r (OSlice s)) as [[r1 ob1] y] eqn:E.
  pose proof (decode_next_all _ _ _ _ _ Hr E) as (Hr' & Hgn & _).
  destruct Hgn as (_ & Ho1 & Hsh & _ & Hx). cbn in Hsh.
  assert (G : rd_good r1 /\ sd_opts L (rd_dec L r1) = o) by (split; [exact Hr'|congruence]).
  destruct y as [[ev|]|e| | ]; try easy.
  - destruct Hx as (_ & _ & _ & _ & _ & Hk).
    destruct ev; injection H as <- <- <-; split; [exact G| |exact G| |exact G| |exact G| |exact G| |
      exact G| |exact G| |exact G| |exact G| |exact G| |exact G| |exact G| ]; (split; [exact Hsh|]); try exact I.
    + destruct (Hk n eq_refl) as (s0 & [= <-] & Hn). lia.
    + lia.
  - injection H as <- <- <-. auto.
  - injection H as <- <- <-. auto.
Qed.

Lemma copy_lzw_loop_returns fuel : forall r v, rd_good r -> (rmeas L r < fuel)%nat ->
  forall r' v' x, copy_lzw_loop L fuel r v = (r', v', x) ->
  returns x /\ rd_good r' /\ sd_opts L (rd_dec L r') = sd_opts L (rd_dec L r) /\ exists w, v' = v ++ w.
Proof.
  induction fuel as [|fuel IH]; intros r v Hr Hf r' v' x H; [lia|]. cbn [copy_lzw_loop] in H.
  destruct (decode_next L r (OVec v)) as [[r1 ob1] y] eqn:E.
  pose proof (decode_next_all _ _ _ _ _ Hr E) as (Hr' & Hgn & _).
  destruct Hgn as (_ & Ho & (w & ->) & _ & Hx). cbn [obuf_bytes] in H.
  assert (Hdone : forall y, returns y -> (r1, v ++ w, y) = (r', v', x) ->
    returns x /\ rd_good r' /\ sd_opts L (rd_dec L r') = sd_opts L (rd_dec L r) /\ exists w, v' = v ++ w).
  { intros z Hz [= <- <- <-]. eauto. }
  destruct y as [[ev|]|e| | ]; try easy.
  - destruct Hx as (_ & _ & _ & Hlt & _). specialize (Hlt eq_refl).
    destruct ev; try (eapply Hdone; [|exact H]; exact I).
    apply IH in H; [|exact Hr'|lia]. destruct H as (Q1 & Q2 & Q3 & (w2 & ->)).
    split; [exact Q1|]. split; [exact Q2|]. split; [congruence|]. exists (w ++ w2). now rewrite app_assoc.
  - eapply Hdone; [|exact H]; exact I.
  - eapply Hdone; [|exact H]; exact I.
Qed.

Lemma frame_ok_buffer f b i : frame_ok f -> frame_ok (set_interlaced (set_buffer f b) i).
Proof. unfold frame_ok. cbn. tauto. Qed.
Lemma frame_ok_set_buffer f b : frame_ok f -> frame_ok (set_buffer f b).
Proof. unfold frame_ok. cbn. tauto. Qed.

(** Every size allowed by the limit can be allocated (see [ConvInv.limit_ok]). *)
Definition alloc_ok (d : dcd) : Prop := limit_ok umax (o_limit (dopts d)).

Lemma read_next_frame_returns d d' x : dcd_good d -> alloc_ok d -> read_next_frame L umax d = (d', x) ->
  returns x /\ dcd_good d' /\ opts_kept d d' /\
  (x = Ok true ->
     match o_limit (dopts d), dc_ty L d' with
     | Some l, FPixels => len (f_buffer (dc_cur L d')) <= l
     | _, _ => True
     end).
Proof.
  intros Hd Ha H. unfold read_next_frame in H.
  destruct (next_frame_info L d) as [d1 y] eqn:E.
  apply next_frame_info_returns in E; [|exact Hd]. destruct E as (Hy & Hd1 & Hk & Hb).
  destruct y as [[|]|e| | ]; try easy.
  2:{ injection H as <- <-. split; [exact I|]. split; [exact Hd1|]. split; [exact Hk|]. discriminate. }
  2:{ injection H as <- <-. split; [exact I|]. split; [exact Hd1|]. split; [exact Hk|]. discriminate. }
  specialize (Hb eq_refl). destruct Hb as [Hb Hm].
  destruct Hk as [Hk1 Hk2].
  pose proof Hd1 as (Hr & Hfr & Hl & Hco & Hg).
  destruct (dc_ty L d1) as [|m] eqn:Ety.
  - destruct (conv_read_frame umax (Reader.rd L) (decode_next_bytes L) (dc_rd L d1) (dc_conv L d1) (dc_cur L d1))
      as [[[r c] f] z] eqn:Ec.
    pose proof Hfr as (_ & _ & _ & _ & Hw & Hh & _).
    apply (conv_read_frame_ok umax _ _ (fun r => rd_good r /\ sd_opts L (rd_dec L r) = dopts d1)) in Ec.
    2:{ intros. eapply decode_next_bytes_ok; eassumption. }
    2:{ exact Hw. } 2:{ exact Hh. } 2:{ exact Humax. }
    2:{ unfold alloc_ok in Ha. rewrite Hl. unfold dopts in *. rewrite Hk1. exact Ha. }
    2:{ split; [exact Hr|reflexivity]. }
    destruct Ec as ((Hr2 & Ho2) & Hs & Hz & (b & i & ->) & Hok).
    set (d2 := set_cur L (set_conv L (set_rd L d1 r) c) (set_interlaced (set_buffer (dc_cur L d1) b) i) FPixels) in *.
    assert (G : dcd_good d2).
    { unfold dcd_good, d2. cbn [dc_rd dc_cur dc_conv set_cur set_conv set_rd].
      split; [exact Hr2|]. split; [now apply frame_ok_buffer|].
      destruct Hs as (Hs1 & Hs2 & Hs3). rewrite Hs1, Hs2, Hs3, Ho2. auto. }
    assert (K : opts_kept d d2).
    { unfold d2, opts_kept, dopts. cbn [dc_rd dc_conv set_cur set_conv set_rd].
      split; [rewrite Ho2; exact Hk1|eapply same_settings_trans; eassumption]. }
    destruct z as [u|e| | ]; try easy; injection H as <- <-; (split; [exact I|]; split; [exact G|];
      split; [exact K|]); [|discriminate].
    intros _. destruct u. destruct (Hok eq_refl) as (_ & _ & Hlim). rewrite Hl in Hlim.
    unfold dopts in Hk1 |- *. rewrite Hk1 in Hlim.
    unfold d2. cbn [dc_ty set_cur dc_cur].
    destruct (o_limit (sd_opts L (rd_dec L (dc_rd L d)))); [exact Hlim|exact I].
  - unfold copy_lzw_into_buffer in H.
    destruct (copy_lzw_loop L (ev_fuel L (dc_rd L d1)) (dc_rd L d1) ([] ++ [m])) as [[r v] z] eqn:Ec.
    apply copy_lzw_loop_returns in Ec; [|exact Hr|apply rmeas_fuel].
    destruct Ec as (Hz & Hr2 & Ho2 & _).
    assert (G : forall b, dcd_good (set_cur L (set_rd L d1 r) (set_buffer (set_buffer (dc_cur L d1) []) b) (FLzw m))).
    { intros b. unfold dcd_good. cbn [dc_rd dc_cur dc_conv set_cur set_conv set_rd].
      split; [exact Hr2|]. split; [now apply frame_ok_set_buffer, frame_ok_set_buffer|]. rewrite Ho2. auto. }
    assert (K : forall f, opts_kept d (set_cur L (set_rd L d1 r) f (FLzw m))).
    { intros f. unfold opts_kept, dopts in *. cbn [dc_rd dc_conv set_cur set_conv set_rd].
      split; [congruence|exact Hk2]. }
    destruct z as [u|e| | ]; try easy; injection H as <- <-.
    + split; [exact I|]. split; [apply G|]. split; [apply K|]. intros _. cbn. destruct (o_limit (dopts d)); exact I.
    + split; [exact I|]. split; [apply (G [])|]. split; [apply K|]. discriminate.
Qed.

Lemma read_into_buffer_returns d buf d' b x : dcd_good d -> len buf <= umax / 2 ->
  read_into_buffer L umax d buf = (d', b, x) ->
  returns x /\ dcd_good d' /\ opts_kept d d' /\ length b = length buf.
Proof.
  intros Hd Hl H. unfold read_into_buffer in H.
  pose proof Hd as (Hr & Hfr & Hli & Hco & Hg). pose proof Hfr as (_ & _ & _ & _ & Hw & Hh & _).
  destruct (conv_read_into_buffer umax (Reader.rd L) (decode_next_bytes L) (dc_rd L d) (dc_conv L d) (dc_cur L d) buf)
    as [[[r c] b1] z] eqn:Ec.
  apply (conv_read_into_buffer_ok umax _ _ (fun r => rd_good r /\ sd_opts L (rd_dec L r) = dopts d)) in Ec;
    [|intros; eapply decode_next_bytes_ok; eassumption|exact Hw|exact Humax|exact Hl|split; [exact Hr|reflexivity]].
  destruct Ec as ((Hr2 & Ho2) & Hlen & Hs & Hz). injection H as <- <- <-.
  split; [exact Hz|]. split; [|split; [|exact Hlen]].
  - unfold dcd_good. cbn [dc_rd dc_cur dc_conv set_cur set_conv set_rd].
    destruct Hs as (Hs1 & Hs2 & Hs3). rewrite Hs1, Hs2, Hs3, Ho2. auto.
  - split; [exact Ho2|exact Hs].
Qed.

Lemma fill_buffer_returns d buf d' b x : dcd_good d ->
  fill_buffer L d buf = (d', b, x) ->
  returns x /\ dcd_good d' /\ opts_kept d d' /\ length b = length buf.
Proof.
  intros Hd H. unfold fill_buffer in H.
  pose proof Hd as (Hr & Hfr & Hli & Hco & Hg).
  destruct (conv_fill_buffer (Reader.rd L) (decode_next_bytes L) (dc_rd L d) (dc_conv L d) (dc_cur L d) buf)
    as [[[r c] b1] z] eqn:Ec.
  apply (conv_fill_buffer_ok _ _ (fun r => rd_good r /\ sd_opts L (rd_dec L r) = dopts d)) in Ec;
    [|intros; eapply decode_next_bytes_ok; eassumption|split; [exact Hr|reflexivity]].
  destruct Ec as ((Hr2 & Ho2) & Hlen & Hs & Hz). injection H as <- <- <-.
  split; [exact Hz|]. split; [|split; [|exact Hlen]].
  - unfold dcd_good. cbn [dc_rd dc_cur dc_conv set_cur set_conv set_rd].
    destruct Hs as (Hs1 & Hs2 & Hs3). rewrite Hs1, Hs2, Hs3, Ho2. auto.
  - split; [exact Ho2|exact Hs].
Qed.

(** Buffers that can exist: Rust slices have at most [isize::MAX] bytes. *)
Definition op_ok (o : dop) : Prop :=
  match o with OpInto buf | OpFill buf => len buf <= umax / 2 | _ => True end.
Definition out_returns (y : dout) : Prop :=
  match y with OutBool x => returns x | OutInto _ x => returns x | OutFill _ x => returns x end.

Lemma run_dop_returns d o d' y : dcd_good d -> alloc_ok d -> op_ok o -> run_dop L umax d o = (d', y) ->
  out_returns y /\ dcd_good d' /\ opts_kept d d'.
Proof.
  intros Hd Ha Ho H. destruct o as [ | |buf|buf]; cbn [run_dop] in H.
  - destruct (next_frame_info L d) as [d1 x] eqn:E. injection H as <- <-.
    apply next_frame_info_returns in E; [|exact Hd]. cbn. tauto.
  - destruct (read_next_frame L umax d) as [d1 x] eqn:E. injection H as <- <-.
    apply read_next_frame_returns in E; [|exact Hd|exact Ha]. cbn. tauto.
  - destruct (read_into_buffer L umax d buf) as [[d1 b] x] eqn:E. injection H as <- <-.
    apply read_into_buffer_returns in E; [|exact Hd|exact Ho]. cbn. tauto.
  - destruct (fill_buffer L d buf) as [[d1 b] x] eqn:E. injection H as <- <-.
    apply fill_buffer_returns in E; [|exact Hd]. cbn. tauto.
Qed.

Lemma alloc_ok_kept d d' : opts_kept d d' -> alloc_ok d -> alloc_ok d'.
Proof. intros [H _] Ha. unfold alloc_ok. rewrite H. exact Ha. Qed.

Lemma run_dops_returns os : forall d, dcd_good d -> alloc_ok d -> Forall op_ok os ->
  Forall out_returns (snd (run_dops L umax d os)) /\ dcd_good (fst (run_dops L umax d os)).
Proof.
  induction os as [|o os IH]; intros d Hd Ha Ho; [split; [constructor|exact Hd]|].
  inversion Ho as [|? ? Ho1 Ho2]; subst. cbn [run_dops].
  destruct (run_dop L umax d o) as [d1 y] eqn:E.
  apply run_dop_returns in E; auto. destruct E as (E1 & E2 & E3).
  specialize (IH d1 E2 (alloc_ok_kept _ _ E3 Ha) Ho2).
  destruct (run_dops L umax d1 os) as [d2 ys]. cbn in *. destruct IH as [I1 I2].
  split; [constructor; assumption|exact I2].
Qed.

(** The iterator. *)
Definition item_returns (y : item) : Prop := match y with IPanic | IHang => False | _ => True end.

Lemma set_cur_good d f t : dcd_good d -> frame_ok f -> dcd_good (set_cur L d f t).
Proof. intros (H1 & H2 & H3 & H4 & H5) Hf. unfold dcd_good. cbn [dc_rd dc_cur dc_conv set_cur]. auto. Qed.

Lemma iter_next_returns it it' y : dcd_good (it_dec L it) -> alloc_ok (it_dec L it) ->
  iter_next L umax it = (it', y) ->
  item_returns y /\ dcd_good (it_dec L it') /\ opts_kept (it_dec L it) (it_dec L it').
Proof.
  intros Hd Ha H. unfold iter_next in H. destruct (it_ended L it).
  { injection H as <- <-. split; [exact I|]. split; [exact Hd|apply opts_kept_refl]. }
  destruct (read_next_frame L umax (it_dec L it)) as [d x] eqn:E.
  apply read_next_frame_returns in E; auto. destruct E as (E1 & E2 & E3 & _).
  destruct x as [[|]|e| | ]; try easy.
  - destruct (is_nil _); [injection H as <- <-; split; [exact I|]; auto|].
    cbn [frame_take] in H. injection H as <- <-. split; [exact I|]. cbn [it_dec]. split.
    + apply set_cur_good; [exact E2|]. destruct E2 as (_ & Hf & _).
      unfold frame_ok in *. cbn. tauto.
    + exact E3.
  - injection H as <- <-; split; [exact I|]; auto.
  - injection H as <- <-; split; [exact I|]; auto.
Qed.

End Safe.
