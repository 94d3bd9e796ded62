(** [decode_next] and the loops above it follow the canonical reading, whatever the reads are. *)
From Verif Require Import Base Common Lzw Encoder Stream Converter Reader StreamInv Steps StepsRev
  ReaderInv Interlace Ranges ConvInv DecoderSafe Canon.
Open Scope N_scope.

(** Reads that deliver something. *)
Definition good_ev (e : revent) : Prop := match e with RChunk (_ :: _) => True | _ => False end.
Definition good_src (src : list revent) : Prop := Forall good_ev src.

Section CR.
Variable L : lzw_codec.
Hypothesis safe : lzw_safe L.
Variable umax : N.
Hypothesis Humax : 2 ^ 32 - 1 <= umax.
Notation sd := (sd L).
Notation rd := (rd L).
Notation dcd := (dcd L).
Notation cn := (cn L).
Notation CEv := (CEv L).
Notation CErr := (CErr L).
Notation CStuck := (CStuck L).

(** A transient error is one made by the reader. *)
Definition transient (e : derr) : bool := match e with DIo (OtherIo _) => true | _ => false end.

Lemma lr_err r data ob r' ob' e : lr_decode_bytes L r data ob = (r', ob', Err e) -> transient e = false.
Proof.
  unfold lr_decode_bytes. destruct (lr_decoder L r) as [d|]; [|intros [= <- <- <-]; reflexivity].
  destruct ob; try (intros [= <- <- <-]; reflexivity);
    destruct (lz_decode L d data _) as [d' [[n w] st]]; destruct st; try discriminate;
    try (intros [= <- <- <-]; reflexivity); destruct (lr_check L r); try discriminate; intros [= <- <- <-]; reflexivity.
Qed.
Lemma nst_err_kind s buf ob s' ob' e : nst L s buf ob s' ob' (Err e) -> transient e = false.
Proof.
  intros H. inversion H; subst; try reflexivity; try (eapply lr_err; eassumption).
  destruct ob'; cbn [obuf_append] in *; try discriminate.
  match goal with H : context [if check_size ?a ?b then _ else _] |- _ => destruct (check_size a b); inversion H end. reflexivity.
Qed.

(** A read that failed, or ended too early, somewhere in the middle. *)
Definition cut (r r' : rd) (e : derr) : Prop :=
  exists pre ev, rd_src L r = pre ++ ev :: rd_src L r' /\ good_src pre /\
    match ev with RErr k => e = DIo k | RChunk [] => e = DIo UnexpectedEof | _ => False end.

Definition next_rel (r : rd) (ob : obuf) (r' : rd) (ob' : obuf) (x : dres (option decoded)) : Prop :=
  match x with
  | Ok (Some d) => forall y,
      (if silent d then cn (rd_dec L r') (rd_rest L r') ob' y
       else y = CEv (rd_dec L r') (rd_rest L r') ob' d) ->
      cn (rd_dec L r) (rd_rest L r) ob y
  | Ok None => cn (rd_dec L r) (rd_rest L r) ob (CEv (rd_dec L r') (rd_rest L r') ob' (DBlockStart BkTrailer))
  | Err e =>
      (cn (rd_dec L r) (rd_rest L r) ob (CErr e) /\ transient e = false) \/
      (e = DIo UnexpectedEof /\ rd_src L r' = [] /\ cn (rd_dec L r) (rd_rest L r) ob CStuck) \/
      (cut r r' e /\ forall y, cn (rd_dec L r') (rd_rest L r') ob' y -> cn (rd_dec L r) (rd_rest L r) ob y)
  | _ => False
  end.

Lemma cut_fill bs src s s' r' e : bs <> [] -> cut (mk_rd L bs src s false) r' e ->
  cut (mk_rd L [] (RChunk bs :: src) s' false) r' e.
Proof.
  intros Hb (p & ev & H1 & H2 & H3). cbn [rd_src] in H1. exists (RChunk bs :: p), ev.
  cbn [rd_src]. rewrite H1. split; [reflexivity|]. split; [|exact H3].
  constructor; [|exact H2]. destruct bs; [congruence|exact I].
Qed.

Lemma dnext_cn r ob r' ob' x : dnext L r ob r' ob' x -> rd_wf L r -> is_slice ob = false ->
  rd_eof L r = false -> next_rel r ob r' ob' x.
Proof.
  induction 1 as [buf src s ob|k src s ob|s ob|src s ob|bs src s ob r' ob' x Hb Hn IH
    |buf src s ob s1 ob1 n r' ob' x Hb He Hn IH|buf src s ob s1 ob1 n Hb He
    |buf src s ob s1 ob1 n d Hb He Hd1 Hd2|pr buf src s ob s1 ob1 e Hb He]; intros Hwf Hs Heof.
  - discriminate Heof.
  - cbn. right. right. split; [|auto]. exists [], (RErr k). repeat split. constructor.
  - cbn. right. left. repeat split. constructor.
  - cbn. right. right. split; [|auto]. exists [], (RChunk []). repeat split. constructor.
  - destruct Hwf as [H1 H2]. destruct (H2 eq_refl) as [H3 H4].
    assert (Hw : rd_wf L (mk_rd L bs src s false)).
    { split; [exact H1|]. intros _. split; [|exact H4]. intros E. destruct (H3 E) as [t Ht]. discriminate. }
    specialize (IH Hw Hs eq_refl). unfold next_rel in *.
    assert (E : rd_rest L (mk_rd L [] (RChunk bs :: src) s false) = rd_rest L (mk_rd L bs src s false)) by reflexivity.
    rewrite E. cbn [rd_dec] in *. destruct x as [[d|]|e| | ]; try exact IH.
    destruct IH as [IH|[IH|[IH1 IH2]]]; [auto|auto|].
    right. right. split; [|exact IH2]. eapply cut_fill; eassumption.
  - destruct Hwf as [H1 H2]. cbn in H1. destruct (H2 eq_refl) as [H3 H4]. cbn in H3, H4.
    pose proof (next_state_good L safe s buf ob H1 H3 Hb) as Hg. rewrite He in Hg.
    destruct Hg as (_ & Hsh & Hg1 & Hg2 & Hg3 & Hg4 & _).
    assert (Hw : rd_wf L (mk_rd L (skipn n buf) src s1 false)).
    { split; [exact Hg2|]. intros _. split; [exact Hg3|].
      intros E. destruct (Hg4 E); [contradiction|discriminate]. }
    assert (Hs1 : is_slice ob1 = false) by (rewrite (same_shape_slice _ _ Hsh); exact Hs).
    specialize (IH Hw Hs1 eq_refl).
    apply next_state_nst in He; auto.
    pose proof (absorb L safe s buf ob s1 ob1 _ (concat (map ev_bytes src)) H1 H3 Hb Hs He) as Ha.
    cbn [absorbed silent] in Ha. unfold next_rel in *. cbn [rd_dec] in *.
    unfold rd_rest in *. cbn [rd_buf rd_src] in *.
    destruct x as [[d|]|e| | ]; try exact IH.
    + intros y Hy. apply Ha. apply IH. exact Hy.
    + apply Ha. exact IH.
    + destruct IH as [[IH0 IH]|[(IH1 & IH2 & IH3)|(IH1 & IH2)]]; auto 10.
  - destruct Hwf as [H1 H2]. cbn in H1. destruct (H2 eq_refl) as [H3 H4]. cbn in H3, H4.
    apply next_state_nst in He; auto.
    pose proof (absorb L safe s buf ob s1 ob1 _ (concat (map ev_bytes src)) H1 H3 Hb Hs He) as Ha.
    cbn [absorbed silent] in Ha. unfold next_rel, rd_rest. cbn [rd_dec rd_buf rd_src]. apply Ha. reflexivity.
  - destruct Hwf as [H1 H2]. cbn in H1. destruct (H2 eq_refl) as [H3 H4]. cbn in H3, H4.
    apply next_state_nst in He; auto.
    pose proof (absorb L safe s buf ob s1 ob1 _ (concat (map ev_bytes src)) H1 H3 Hb Hs He) as Ha.
    cbn [absorbed] in Ha. unfold next_rel, rd_rest. cbn [rd_dec rd_buf rd_src]. exact Ha.
  - destruct Hwf as [H1 H2]. cbn in H1. destruct (H2 eq_refl) as [H3 H4]. cbn in H3, H4.
    apply next_state_nst in He; auto.
    pose proof (absorb L safe s buf ob s1 ob1 _ (concat (map ev_bytes src)) H1 H3 Hb Hs He) as Ha.
    cbn [absorbed] in Ha. unfold next_rel, rd_rest. cbn [rd_dec rd_buf rd_src]. left.
    split; [exact Ha|eapply nst_err_kind; exact He].
Qed.

Lemma decode_next_cn r ob r' ob' x : rd_wf L r -> is_slice ob = false -> rd_eof L r = false ->
  decode_next L r ob = (r', ob', x) -> next_rel r ob r' ob' x.
Proof. intros Hw Hs He H. eapply dnext_cn; eauto. eapply decode_next_dnext; eauto. Qed.

(** ** [next_frame_info] on the canonical reading *)
Inductive ires := IMeta (s : sd) (str : list N) (t : frame_data_type)
  | IEnd (s : sd) (str : list N) | IErr' (e : derr) | IStuck.
Inductive cinfo : sd -> list N -> ires -> Prop :=
| ci_meta s str s1 str1 ob t :
    cn s str ONone (CEv s1 str1 ob (DFrameMetadata t)) -> cinfo s str (IMeta s1 str1 t)
| ci_end s str s1 str1 ob :
    cn s str ONone (CEv s1 str1 ob (DBlockStart BkTrailer)) -> cinfo s str (IEnd s1 str1)
| ci_err s str e : cn s str ONone (CErr e) -> cinfo s str (IErr' e)
| ci_stuck s str : cn s str ONone CStuck -> cinfo s str IStuck
| ci_skip s str s1 str1 ob d y :
    cn s str ONone (CEv s1 str1 ob d) -> (forall t, d <> DFrameMetadata t) -> d <> DBlockStart BkTrailer ->
    cinfo s1 str1 y -> cinfo s str y.

Lemma cinfo_det s str x : cinfo s str x -> forall y, cinfo s str y -> x = y.
Proof.
  induction 1 as [s str s1 str1 ob t H|s str s1 str1 ob H|s str e H|s str H|s str s1 str1 ob d x H Hd1 Hd2 Hc IH];
    intros y Hy;
    inversion Hy as [? ? s2 str2 ob2 t2 H2|? ? s2 str2 ob2 H2|? ? e2 H2|? ? H2|? ? s2 str2 ob2 d2 y2 H2 Hd3 Hd4 Hc2]; subst;
    pose proof (cn_det L _ _ _ _ H _ H2) as E; try discriminate E; try congruence;
    try (injection E as <- <- <- <-; exfalso; (eapply Hd1; reflexivity) || (eapply Hd3; reflexivity) || congruence).
  injection E as <- <- <- <-. auto.
Qed.

(** What [next_frame_info] leaves behind when it found a frame. *)
Definition taken_dec (s : sd) (f : frame) : sd := set_current L s (Some (snd (frame_take f))) 0.

Definition info_rel (d d' : dcd) (x : dres bool) : Prop :=
  let s := rd_dec L (dc_rd L d) in
  let str := rd_rest L (dc_rd L d) in
  let found t :=
    exists s1 f, sd_current L s1 = Some f /\
      cinfo s str (IMeta s1 (rd_rest L (dc_rd L d')) t) /\
      rd_dec L (dc_rd L d') = taken_dec s1 f /\ rd_eof L (dc_rd L d') = false /\
      dc_cur L d' = f in
  dc_conv L d' = dc_conv L d /\ dc_bg L d' = dc_bg L d /\ dc_repeat L d' = dc_repeat L d /\
  match x with
  | Ok true => found (dc_ty L d') /\ (f_palette (dc_cur L d') <> None \/ cv_gpal (dc_conv L d) <> None)
  | Ok false => dc_cur L d' = dc_cur L d /\ dc_ty L d' = dc_ty L d /\
      rd_eof L (dc_rd L d') = true /\
      cinfo s str (IEnd (rd_dec L (dc_rd L d')) (rd_rest L (dc_rd L d')))
  | Err e =>
      (e = DFormat NoColorTable /\ found (dc_ty L d') /\
         f_palette (dc_cur L d') = None /\ cv_gpal (dc_conv L d) = None) \/
      (cinfo s str (IErr' e) /\ transient e = false) \/
      (e = DIo UnexpectedEof /\ rd_src L (dc_rd L d') = [] /\ cinfo s str IStuck) \/
      (cut (dc_rd L d) (dc_rd L d') e /\ rd_eof L (dc_rd L d') = false /\
       dc_cur L d' = dc_cur L d /\ dc_ty L d' = dc_ty L d /\
       forall y, cinfo (rd_dec L (dc_rd L d')) (rd_rest L (dc_rd L d')) y -> cinfo s str y)
  | _ => True
  end.

Lemma cinfo_cn s str s' str' : (forall y, cn s' str' ONone y -> cn s str ONone y) ->
  forall y, cinfo s' str' y -> cinfo s str y.
Proof.
  intros H y Hy. destruct Hy.
  - eapply ci_meta. eauto.
  - eapply ci_end. eauto.
  - eapply ci_err. eauto.
  - eapply ci_stuck. eauto.
  - eapply ci_skip; eauto.
Qed.

Lemma dnext_src r ob r' ob' x : dnext L r ob r' ob' x ->
  (exists e, cut r r' e /\ x = Err e) \/ (exists pre, rd_src L r = pre ++ rd_src L r' /\ good_src pre).
Proof.
  induction 1 as [buf src s ob|k src s ob|s ob|src s ob|bs src s ob r' ob' x Hb Hn IH
    |buf src s ob s1 ob1 n r' ob' x Hb He Hn IH|buf src s ob s1 ob1 n Hb He
    |buf src s ob s1 ob1 n d Hb He Hd1 Hd2|pr buf src s ob s1 ob1 e Hb He];
    try (right; exists []; split; [reflexivity|constructor]).
  - left. eexists. split; [|reflexivity]. exists [], (RErr k). repeat split. constructor.
  - left. eexists. split; [|reflexivity]. exists [], (RChunk []). repeat split. constructor.
  - destruct IH as [(e & Hc & ->)|(p & Hp & Hg)].
    + left. eexists. split; [|reflexivity]. eapply cut_fill; eassumption.
    + right. exists (RChunk bs :: p). cbn in *. rewrite Hp. split; [reflexivity|].
      constructor; [destruct bs; [congruence|exact I]|exact Hg].
  - destruct IH as [(e & (p & ev & Hc) & ->)|(p & Hp & Hg)].
    + left. eexists. split; [|reflexivity]. exists p, ev. exact Hc.
    + right. exists p. auto.
Qed.

Lemma cut_app r r1 r2 e pre : rd_src L r = pre ++ rd_src L r1 -> good_src pre -> cut r1 r2 e -> cut r r2 e.
Proof.
  intros E Hg (p & ev & H1 & H2 & H3). exists (pre ++ p), ev. rewrite E, H1, app_assoc.
  split; [reflexivity|]. split; [|exact H3]. apply Forall_app. auto.
Qed.

Lemma info_loop_rel fuel : forall d d' x, dcd_good L d -> rd_eof L (dc_rd L d) = false ->
  next_frame_info_loop L fuel d = (d', x) -> info_rel d d' x.
Proof.
  induction fuel as [|fuel IH]; intros d d' x Hd Heof H.
  { injection H as <- <-. repeat split. }
  cbn [next_frame_info_loop] in H.
  destruct (decode_next L (dc_rd L d) ONone) as [[r ob] y] eqn:E.
  pose proof Hd as (Hr & Hfr & Hl & Hco & Hg).
  pose proof (decode_next_cn _ ONone _ _ _ (proj1 Hr) eq_refl Heof E) as Hn.
  pose proof (decode_next_dnext L safe _ _ _ _ _ (proj1 Hr) E) as Hdn.
  pose proof (decode_next_all L safe _ _ _ _ _ Hr E) as (Hr' & Hgn & _).
  destruct Hgn as (_ & Ho & Hob & _ & Hx). cbn in Hob. subst ob.
  destruct y as [[ev|]|e| | ]; try easy.
  - destruct Hx as (_ & Htr & Heof' & _).
    assert (Hrec : (forall t, ev <> DFrameMetadata t) ->
       next_frame_info_loop L fuel (set_rd L d r) = (d', x) -> info_rel d d' x).
    { intros Hne Hq. apply IH in Hq; [|apply set_rd_good; assumption|exact Heof'].
      unfold info_rel in Hq |- *. cbn [dc_rd set_rd dc_conv dc_bg dc_repeat dc_cur dc_ty] in Hq.
      assert (Hci : forall y, cinfo (rd_dec L r) (rd_rest L r) y ->
                    cinfo (rd_dec L (dc_rd L d)) (rd_rest L (dc_rd L d)) y).
      { intros y Hy. unfold next_rel in Hn. destruct (silent ev) eqn:Es.
        - eapply cinfo_cn; [|exact Hy]. exact Hn.
        - eapply ci_skip; [apply Hn; reflexivity|exact Hne|exact Htr|exact Hy]. }
      destruct Hq as (Q1 & Q2 & Q3 & Q4).
      split; [exact Q1|]. split; [exact Q2|]. split; [exact Q3|].
      destruct x as [[|]|e| | ]; try exact I.
      - destruct Q4 as ((s1 & f & Q4 & Q5 & Q6) & Q7). split; [|exact Q7].
        exists s1, f. split; [exact Q4|]. split; [|exact Q6]. apply Hci. exact Q5.
      - destruct Q4 as (Q4 & Q5 & Q6 & Q7). repeat (split; [assumption|]). apply Hci. exact Q7.
      - destruct Q4 as [(Q4 & (s1 & f & Q5 & Q6 & Q7) & Q8)|[(Q4 & Q5)|[(Q4 & Q5 & Q6)|(Q4 & Q5 & Q6 & Q7 & Q8)]]].
        + left. split; [exact Q4|]. split; [|exact Q8]. exists s1, f. auto.
        + right. left. auto.
        + right. right. left. auto.
        + right. right. right.
          destruct (dnext_src _ _ _ _ _ Hdn) as [(e' & _ & He')|(p & Hp & Hg1)]; [discriminate|].
          split; [eapply cut_app; eassumption|]. auto 10. }
    destruct ev; try (apply Hrec; [discriminate|exact H]).
    clear Hrec. unfold next_rel in Hn. cbn [silent] in Hn. specialize (Hn _ eq_refl).
    destruct (sd_current L (rd_dec L r)) as [f|] eqn:Ef.
    2:{ injection H as <- <-. repeat split. }
    cbn [frame_take] in H.
    match type of H with context [set_cur L ?a ?b ?c] => set (d2 := set_cur L a b c) in * end.
    assert (Hf : exists s1 f, sd_current L s1 = Some f /\
      cinfo (rd_dec L (dc_rd L d)) (rd_rest L (dc_rd L d)) (IMeta s1 (rd_rest L (dc_rd L d2)) (dc_ty L d2)) /\
      rd_dec L (dc_rd L d2) = taken_dec s1 f /\ rd_eof L (dc_rd L d2) = false /\
      dc_cur L d2 = f).
    { exists (rd_dec L r), f. split; [exact Ef|]. split; [|repeat split; exact Heof'].
      eapply ci_meta. exact Hn. }
    destruct (f_palette f) as [p|] eqn:Ep.
    + injection H as <- <-. repeat split; [exact Hf|]. left. cbn. congruence.
    + change (cv_gpal (dc_conv L d2)) with (cv_gpal (dc_conv L d)) in H.
      destruct (cv_gpal (dc_conv L d)) eqn:Eg; injection H as <- <-; repeat split.
      * exact Hf.
      * right. congruence.
      * left. split; [reflexivity|]. split; [exact Hf|]. split; [exact Ep|exact Eg].
  - injection H as <- <-. repeat split; [apply Hx|]. cbn [dc_rd set_rd]. eapply ci_end. exact Hn.
  - injection H as <- <-. repeat split. cbn [dc_rd set_rd dc_cur dc_ty].
    destruct Hn as [Hn|[(H1 & H2 & H3)|(H1 & H2)]].
    + right. left. split; [now apply ci_err|apply Hn].
    + right. right. left. repeat split; auto. now apply ci_stuck.
    + right. right. right. repeat split; auto. eapply cinfo_cn. exact H2.
Qed.

Lemma info_rel_of d d' x : dcd_good L d -> rd_eof L (dc_rd L d) = false ->
  next_frame_info L d = (d', x) -> info_rel d d' x.
Proof. apply info_loop_rel. Qed.

Lemma info_eof d : rd_eof L (dc_rd L d) = true -> next_frame_info L d = (d, Ok false).
Proof.
  intros H. unfold next_frame_info, ev_fuel. rewrite Nat.add_succ_r. cbn [next_frame_info_loop].
  unfold decode_next. rewrite Nat.add_succ_r. cbn [decode_next_loop]. rewrite H.
  destruct d; reflexivity.
Qed.

Lemma cut_good r r' e : cut r r' e -> good_src (rd_src L r) -> False.
Proof.
  intros (p & ev & H1 & H2 & H3) H. rewrite H1 in H. apply Forall_app in H. destruct H as [_ H].
  inversion H as [|? ? Hev _]; subst. destruct ev as [[|b bs]|k]; cbn in Hev; easy.
Qed.

(** ** Two decoders reading the same bytes *)
Definition same_bytes (r1 r2 : rd) : Prop :=
  rd_dec L r1 = rd_dec L r2 /\ rd_eof L r1 = rd_eof L r2 /\ rd_rest L r1 = rd_rest L r2.
Record sim (d1 d2 : dcd) : Prop := mk_sim {
  sim_rd : same_bytes (dc_rd L d1) (dc_rd L d2);
  sim_conv : dc_conv L d1 = dc_conv L d2;
  sim_bg : dc_bg L d1 = dc_bg L d2;
  sim_rep : dc_repeat L d1 = dc_repeat L d2;
  sim_cur : dc_cur L d1 = dc_cur L d2;
  sim_ty : dc_ty L d1 = dc_ty L d2
}.

Definition quiet (d : dcd) : Prop := dcd_good L d /\ good_src (rd_src L (dc_rd L d)).

Lemma decode_next_src r ob r' ob' x : rd_wf L r -> good_src (rd_src L r) ->
  decode_next L r ob = (r', ob', x) -> good_src (rd_src L r').
Proof.
  intros Hw Hg H. apply decode_next_dnext in H; auto.
  destruct (dnext_src _ _ _ _ _ H) as [(e & Hc & _)|(p & Hp & _)].
  - exfalso. eapply cut_good; eassumption.
  - rewrite Hp in Hg. apply Forall_app in Hg. apply Hg.
Qed.

Lemma info_loop_src fuel : forall d d' x, quiet d ->
  next_frame_info_loop L fuel d = (d', x) -> good_src (rd_src L (dc_rd L d')).
Proof.
  induction fuel as [|fuel IH]; intros d d' x [Hd Hg] H.
  { injection H as <- <-. exact Hg. }
  cbn [next_frame_info_loop] in H.
  destruct (decode_next L (dc_rd L d) ONone) as [[r ob] y] eqn:E.
  pose proof Hd as (Hr & _).
  pose proof (decode_next_src _ _ _ _ _ (proj1 Hr) Hg E) as Hg'.
  pose proof (decode_next_all L safe _ _ _ _ _ Hr E) as (Hr' & Hgn & _).
  destruct Hgn as (_ & Ho & _).
  assert (Hq : quiet (set_rd L d r)) by (split; [apply set_rd_good; assumption|exact Hg']).
  destruct y as [[ev|]|e| | ]; try (injection H as <- <-; exact Hg').
  destruct ev; try (eapply IH; [exact Hq|exact H]).
  destruct (sd_current L (rd_dec L r)); [|injection H as <- <-; exact Hg'].
  cbn [frame_take] in H.
  destruct (f_palette f); [|destruct (cv_gpal _)]; injection H as <- <-; exact Hg'.
Qed.

(** Results of two runs: equal, and on success the decoders correspond again. *)
Definition agree {A} (d1 d2 : dcd) (x1 x2 : dres A) : Prop :=
  x1 = x2 /\ match x1 with Ok _ => sim d1 d2 | _ => True end.

Lemma info_sim d1 d2 d1' d2' x1 x2 : quiet d1 -> quiet d2 -> sim d1 d2 ->
  next_frame_info L d1 = (d1', x1) -> next_frame_info L d2 = (d2', x2) -> agree d1' d2' x1 x2.
Proof.
  intros [G1 Q1] [G2 Q2] Hs H1 H2.
  pose proof (sim_rd _ _ Hs) as (E1 & E2 & E3).
  destruct (rd_eof L (dc_rd L d1)) eqn:Ee; symmetry in E2.
  { rewrite info_eof in H1, H2 by assumption. injection H1 as <- <-. injection H2 as <- <-.
    split; [reflexivity|exact Hs]. }
  pose proof (next_frame_info_returns L safe umax Humax _ _ _ G1 H1) as (R1 & _).
  pose proof (next_frame_info_returns L safe umax Humax _ _ _ G2 H2) as (R2 & _).
  pose proof (info_rel_of _ _ _ G1 Ee H1) as I1. pose proof (info_rel_of _ _ _ G2 E2 H2) as I2.
  unfold info_rel in I1, I2. rewrite <- E1, <- E3, <- (sim_conv _ _ Hs), <- (sim_bg _ _ Hs),
    <- (sim_rep _ _ Hs), <- (sim_cur _ _ Hs), <- (sim_ty _ _ Hs) in I2.
  set (s := rd_dec L (dc_rd L d1)) in *. set (str := rd_rest L (dc_rd L d1)) in *.
  destruct I1 as (C1 & B1 & P1 & I1). destruct I2 as (C2 & B2 & P2 & I2).
  assert (Hno : forall d d' e, good_src (rd_src L (dc_rd L d)) -> cut (dc_rd L d) (dc_rd L d') e -> False).
  { intros d d' e Hg Hc. eapply cut_good; eassumption. }
  assert (Hfound : forall s1 f s2 f2, sd_current L s1 = Some f -> sd_current L s2 = Some f2 ->
     cinfo s str (IMeta s1 (rd_rest L (dc_rd L d1')) (dc_ty L d1')) ->
     cinfo s str (IMeta s2 (rd_rest L (dc_rd L d2')) (dc_ty L d2')) ->
     s1 = s2 /\ f = f2 /\ rd_rest L (dc_rd L d1') = rd_rest L (dc_rd L d2') /\ dc_ty L d1' = dc_ty L d2').
  { intros s1 f s2 f2 F1 F2 K1 K2. pose proof (cinfo_det _ _ _ K1 _ K2) as E. injection E as -> K3 K4.
    rewrite F1 in F2. injection F2 as ->. auto. }
  destruct x1 as [[|]|e1| | ]; [ | | |easy|easy]; destruct x2 as [[|]|e2| | ]; try easy.
  - destruct I1 as ((s1 & f & F1 & K1 & D1 & Z1 & U1) & V1).
    destruct I2 as ((s2 & f2 & F2 & K2 & D2 & Z2 & U2) & V2).
    destruct (Hfound _ _ _ _ F1 F2 K1 K2) as (<- & <- & Er & Et).
    split; [reflexivity|]. constructor; try congruence. repeat split; congruence.
  - destruct I1 as ((s1 & f & F1 & K1 & _) & _). destruct I2 as (_ & _ & _ & K2).
    pose proof (cinfo_det _ _ _ K1 _ K2). discriminate.
  - exfalso. destruct I1 as ((s1 & f & F1 & K1 & D1 & Z1 & U1) & V1).
    destruct I2 as [(Ee2 & (s2 & f2 & F2 & K2 & D2 & Z2 & U2) & V2 & V3)|[(K2 & _)|[(_ & _ & K2)|(K2 & _)]]];
      try (pose proof (cinfo_det _ _ _ K1 _ K2); discriminate).
    + destruct (Hfound _ _ _ _ F1 F2 K1 K2) as (<- & <- & Er & Et). destruct V1; congruence.
    + eapply Hno; [exact Q2|exact K2].
  - destruct I2 as ((s1 & f & F1 & K1 & _) & _). destruct I1 as (_ & _ & _ & K2).
    pose proof (cinfo_det _ _ _ K1 _ K2). discriminate.
  - destruct I1 as (A1 & A2 & A3 & K1). destruct I2 as (A4 & A5 & A6 & K2).
    pose proof (cinfo_det _ _ _ K1 _ K2) as E. injection E as Ea Eb.
    split; [reflexivity|]. constructor; try congruence. repeat split; congruence.
  - exfalso. destruct I1 as (_ & _ & _ & K1).
    destruct I2 as [(Ee2 & (s2 & f2 & F2 & K2 & _) & _)|[(K2 & _)|[(_ & _ & K2)|(K2 & _)]]];
      try (pose proof (cinfo_det _ _ _ K1 _ K2); discriminate). eapply Hno; [exact Q2|exact K2].
  - exfalso. destruct I2 as ((s1 & f & F1 & K1 & D1 & Z1 & U1) & V1).
    destruct I1 as [(Ee2 & (s2 & f2 & F2 & K2 & D2 & Z2 & U2) & V2 & V3)|[(K2 & _)|[(_ & _ & K2)|(K2 & _)]]];
      try (pose proof (cinfo_det _ _ _ K1 _ K2); discriminate).
    + destruct (Hfound _ _ _ _ F2 F1 K2 K1) as (<- & <- & Er & Et). destruct V1; congruence.
    + eapply Hno; [exact Q1|exact K2].
  - exfalso. destruct I2 as (_ & _ & _ & K1).
    destruct I1 as [(Ee2 & (s2 & f2 & F2 & K2 & _) & _)|[(K2 & _)|[(_ & _ & K2)|(K2 & _)]]];
      try (pose proof (cinfo_det _ _ _ K1 _ K2); discriminate). eapply Hno; [exact Q1|exact K2].
  - split; [|exact I].
    destruct I1 as [(Ea & (s1 & f1 & F1 & K1 & _) & _)|[(K1 & _)|[(Ea & _ & K1)|(K1 & _)]]];
      [| | |exfalso; eapply Hno; [exact Q1|exact K1]];
    (destruct I2 as [(Eb & (s2 & f2 & F2 & K2 & _) & _)|[(K2 & _)|[(Eb & _ & K2)|(K2 & _)]]];
      [| | |exfalso; eapply Hno; [exact Q2|exact K2]]);
    pose proof (cinfo_det _ _ _ K1 _ K2) as E; try discriminate E; congruence.
Qed.

(** ** [copy_lzw_into_buffer] on the canonical reading *)
Definition copy_rel (r : rd) (v : list N) (r' : rd) (v' : list N) (x : dres unit) : Prop :=
  let s := rd_dec L r in
  let str := rd_rest L r in
  match x with
  | Ok _ => rd_eof L r' = false /\ cn s str (OVec v) (CEv (rd_dec L r') (rd_rest L r') (OVec v') DDataEnd)
  | Err e =>
      (e = DFormat UnexpectedDataMsg /\ exists s1 str1 ob1 d, d <> DDataEnd /\ cn s str (OVec v) (CEv s1 str1 ob1 d)) \/
      cn s str (OVec v) (CErr e) \/
      (e = DIo UnexpectedEof /\ cn s str (OVec v) CStuck) \/
      cut r r' e
  | _ => True
  end.

Lemma copy_loop_rel fuel : forall r v r' v' x, rd_good L r -> rd_eof L r = false ->
  copy_lzw_loop L fuel r v = (r', v', x) -> copy_rel r v r' v' x.
Proof.
  induction fuel as [|fuel IH]; intros r v r' v' x Hr Heof H.
  { injection H as <- <- <-. exact I. }
  cbn [copy_lzw_loop] in H.
  destruct (decode_next L r (OVec v)) as [[r1 ob] y] eqn:E.
  pose proof (decode_next_cn _ (OVec v) _ _ _ (proj1 Hr) eq_refl Heof E) as Hn.
  pose proof (decode_next_dnext L safe _ _ _ _ _ (proj1 Hr) E) as Hdn.
  pose proof (decode_next_all L safe _ _ _ _ _ Hr E) as (Hr' & Hgn & _).
  destruct Hgn as (_ & Ho & Hob & _ & Hx). destruct Hob as (w & ->). cbn [obuf_bytes] in H.
  destruct y as [[ev|]|e| | ]; try easy.
  - destruct Hx as (Hnn & Htr & Heof' & _).
    assert (Hother : ev <> DDataEnd -> silent ev = false -> (r1, v ++ w, Err (DFormat UnexpectedDataMsg)) = (r', v', x) ->
              copy_rel r v r' v' x).
    { intros Hne Hsl Hq. injection Hq as <- <- <-. left. split; [reflexivity|].
      exists (rd_dec L r1), (rd_rest L r1), (OVec (v ++ w)), ev. split; [exact Hne|]. apply Hn. now rewrite Hsl. }
    destruct ev; try (apply Hother; [discriminate|reflexivity|exact H]).
    + now destruct Hnn.
    + clear Hother. apply IH in H; [|exact Hr'|exact Heof'].
      cbn [next_rel silent] in Hn. unfold copy_rel in H |- *.
      destruct x as [[]|e| | ]; try exact I.
      * destruct H as [H1 H2]. split; [exact H1|]. apply Hn, H2.
      * destruct H as [(H1 & s1 & str1 & ob1 & d & H2 & H3)|[H|[(H1 & H2)|H]]].
        -- left. split; [exact H1|]. exists s1, str1, ob1, d. split; [exact H2|]. apply Hn, H3.
        -- right. left. apply Hn, H.
        -- right. right. left. split; [exact H1|]. apply Hn, H2.
        -- right. right. right.
           destruct (dnext_src _ _ _ _ _ Hdn) as [(e' & _ & He')|(p & Hp & Hg1)]; [discriminate|].
           eapply cut_app; eassumption.
    + injection H as <- <- <-. split; [exact Heof'|]. apply Hn. reflexivity.
  - injection H as <- <- <-. left. split; [reflexivity|]. do 4 eexists. split; [|exact Hn]. discriminate.
  - injection H as <- <- <-. unfold copy_rel. cbn [next_rel] in Hn.
    destruct Hn as [[Hn _]|[(H1 & H2 & H3)|(H1 & H2)]]; auto.
Qed.

Lemma copy_loop_src fuel : forall r v r' v' x, rd_good L r -> good_src (rd_src L r) ->
  copy_lzw_loop L fuel r v = (r', v', x) -> good_src (rd_src L r').
Proof.
  induction fuel as [|fuel IH]; intros r v r' v' x Hr Hg H.
  { injection H as <- <- <-. exact Hg. }
  cbn [copy_lzw_loop] in H.
  destruct (decode_next L r (OVec v)) as [[r1 ob] y] eqn:E.
  pose proof (decode_next_src _ _ _ _ _ (proj1 Hr) Hg E) as Hg'.
  pose proof (decode_next_all L safe _ _ _ _ _ Hr E) as (Hr' & _).
  destruct y as [[ev|]|e| | ]; try (injection H as <- <- <-; exact Hg').
  destruct ev; try (injection H as <- <- <-; exact Hg'). eapply IH; eassumption.
Qed.

Lemma copy_sim r1 r2 m v r1' r2' v1 v2 x1 x2 : rd_good L r1 -> rd_good L r2 ->
  good_src (rd_src L r1) -> good_src (rd_src L r2) -> same_bytes r1 r2 -> rd_eof L r1 = false ->
  copy_lzw_into_buffer L r1 m v = (r1', v1, x1) -> copy_lzw_into_buffer L r2 m v = (r2', v2, x2) ->
  x1 = x2 /\ (x1 = Ok tt -> same_bytes r1' r2' /\ v1 = v2).
Proof.
  unfold copy_lzw_into_buffer. intros G1 G2 Q1 Q2 (E1 & E2 & E3) He H1 H2.
  pose proof (copy_lzw_loop_returns L safe umax Humax _ _ _ G1 (rmeas_fuel L umax Humax _) _ _ _ H1) as (R1 & _).
  pose proof (copy_lzw_loop_returns L safe umax Humax _ _ _ G2 (rmeas_fuel L umax Humax _) _ _ _ H2) as (R2 & _).
  apply copy_loop_rel in H1; auto. apply copy_loop_rel in H2; [|exact G2|congruence].
  unfold copy_rel in H1, H2. rewrite <- E1, <- E3 in H2.
  destruct x1 as [[]|e1| | ]; [| |easy|easy]; destruct x2 as [[]|e2| | ]; try easy.
  - destruct H1 as [F1 H1]. destruct H2 as [F2 H2].
    pose proof (cn_det L _ _ _ _ H1 _ H2) as E. injection E as Ea Eb Ec.
    split; [reflexivity|]. intros _. split; [|exact Ec]. repeat split; congruence.
  - exfalso. destruct H1 as [F1 H1].
    destruct H2 as [(_ & s1 & str1 & ob1 & d & Hd & H2)|[H2|[(_ & H2)|H2]]];
      try (pose proof (cn_det L _ _ _ _ H1 _ H2); congruence). eapply cut_good; eassumption.
  - exfalso. destruct H2 as [F1 H2].
    destruct H1 as [(_ & s1 & str1 & ob1 & d & Hd & H1)|[H1|[(_ & H1)|H1]]];
      try (pose proof (cn_det L _ _ _ _ H1 _ H2); congruence). eapply cut_good; eassumption.
  - split; [|discriminate].
    destruct H1 as [(Ea & s1 & str1 & ob1 & d & Hd & H1)|[H1|[(Ea & H1)|H1]]];
      [| | |exfalso; eapply cut_good; eassumption];
    (destruct H2 as [(Eb & s2 & str2 & ob2 & d2 & Hd2 & H2)|[H2|[(Eb & H2)|H2]]];
      [| | |exfalso; eapply cut_good; eassumption]);
    pose proof (cn_det L _ _ _ _ H1 _ H2) as E; try discriminate E; congruence.
Qed.

(** ** [init] on the canonical reading *)
Definition hinfo := (conv * option N * repeat_t)%type.
Definition init_upd (h : hinfo) (d : decoded) : hinfo :=
  let '(c, b, p) := h in
  match d with
  | DBackgroundColor x => (c, Some x, p)
  | DGlobalPalette x => (set_global_palette c x, b, p)
  | DRepetitions n => (c, b, n)
  | _ => h
  end.
Inductive nres := NDone (s : sd) (str : list N) (h : hinfo) | NErr (e : derr) | NStuck.
Inductive cini : hinfo -> sd -> list N -> nres -> Prop :=
| cini_done h s str s1 str1 ob : cn s str ONone (CEv s1 str1 ob DHeaderEnd) -> cini h s str (NDone s1 str1 h)
| cini_trailer h s str s1 str1 ob :
    cn s str ONone (CEv s1 str1 ob (DBlockStart BkTrailer)) -> cini h s str (NErr (DFormat NoImageData))
| cini_err h s str e : cn s str ONone (CErr e) -> cini h s str (NErr e)
| cini_stuck h s str : cn s str ONone CStuck -> cini h s str NStuck
| cini_step h s str s1 str1 ob d y :
    cn s str ONone (CEv s1 str1 ob d) -> d <> DHeaderEnd -> d <> DBlockStart BkTrailer ->
    cini (init_upd h d) s1 str1 y -> cini h s str y.

Lemma cini_det h s str x : cini h s str x -> forall y, cini h s str y -> x = y.
Proof.
  induction 1 as [h s str s1 str1 ob H|h s str s1 str1 ob H|h s str e H|h s str H|h s str s1 str1 ob d x H Hd1 Hd2 Hc IH];
    intros y Hy;
    inversion Hy as [? ? ? s2 str2 ob2 H2|? ? ? s2 str2 ob2 H2|? ? ? e2 H2|? ? ? H2|? ? ? s2 str2 ob2 d2 y2 H2 Hd3 Hd4 Hc2]; subst;
    pose proof (cn_det L _ _ _ _ H _ H2) as E; try discriminate E; try congruence.
  injection E as <- <- <- <-. auto.
Qed.

Definition dhinfo (d : dcd) : hinfo := (dc_conv L d, dc_bg L d, dc_repeat L d).
Definition init_rel (d : dcd) (x : dres dcd) : Prop :=
  let s := rd_dec L (dc_rd L d) in
  let str := rd_rest L (dc_rd L d) in
  match x with
  | Ok d' => exists d1, d' = fix_bg L d1 /\ rd_eof L (dc_rd L d1) = false /\ dc_cur L d1 = dc_cur L d /\ dc_ty L d1 = dc_ty L d /\
      cini (dhinfo d) s str (NDone (rd_dec L (dc_rd L d1)) (rd_rest L (dc_rd L d1)) (dhinfo d1))
  | Err e => cini (dhinfo d) s str (NErr e) \/ (e = DIo UnexpectedEof /\ cini (dhinfo d) s str NStuck) \/
      ~ good_src (rd_src L (dc_rd L d))
  | _ => True
  end.

Lemma cini_cn h s str s' str' : (forall y, cn s' str' ONone y -> cn s str ONone y) ->
  forall y, cini h s' str' y -> cini h s str y.
Proof.
  intros H y Hy. destruct Hy.
  - eapply cini_done. eauto.
  - eapply cini_trailer. eauto.
  - eapply cini_err. eauto.
  - eapply cini_stuck. eauto.
  - eapply cini_step; eauto.
Qed.

Lemma init_loop_rel fuel : forall d x, dcd_good L d -> rd_eof L (dc_rd L d) = false ->
  init_loop L fuel d = x -> init_rel d x.
Proof.
  induction fuel as [|fuel IH]; intros d x Hd Heof H.
  { subst. exact I. }
  cbn [init_loop] in H.
  destruct (decode_next L (dc_rd L d) ONone) as [[r ob] y] eqn:E.
  pose proof Hd as (Hr & Hfr & Hl & Hco & Hg).
  pose proof (decode_next_cn _ ONone _ _ _ (proj1 Hr) eq_refl Heof E) as Hn.
  pose proof (fun q => decode_next_src _ _ _ _ _ (proj1 Hr) q E) as Hgs.
  pose proof (decode_next_all L safe _ _ _ _ _ Hr E) as (Hr' & Hgn & Hev & _).
  destruct Hgn as (_ & Ho & Hob & _ & Hx). cbn in Hob. subst ob.
  destruct y as [[ev|]|e| | ]; try easy.
  - destruct Hx as (_ & Htr & Heof' & _).
    assert (Hd1 : dcd_good L (set_rd L d r)) by (apply set_rd_good; assumption).
    assert (Hrec : forall d1, dc_rd L d1 = r -> dcd_good L d1 -> dc_cur L d1 = dc_cur L d -> dc_ty L d1 = dc_ty L d ->
       dhinfo d1 = init_upd (dhinfo d) ev -> ev <> DHeaderEnd -> init_loop L fuel d1 = x -> init_rel d x).
    { intros d1 Er Hgd Ec Et Eh Hne Hq. apply IH in Hq; [|exact Hgd|congruence].
      unfold init_rel in Hq |- *. rewrite Er, Eh in Hq.
      assert (Hci : forall y, cini (init_upd (dhinfo d) ev) (rd_dec L r) (rd_rest L r) y ->
                    cini (dhinfo d) (rd_dec L (dc_rd L d)) (rd_rest L (dc_rd L d)) y).
      { intros y Hy. unfold next_rel in Hn. destruct (silent ev) eqn:Es.
        - eapply cini_cn; [exact Hn|]. destruct ev; try discriminate Es; exact Hy.
        - eapply cini_step; [apply Hn; reflexivity|exact Hne|exact Htr|exact Hy]. }
      destruct x as [d'|e| | ]; try exact I.
      - destruct Hq as (d2 & Q1 & Q2 & Q3 & Q4 & Q5). exists d2. split; [exact Q1|].
        split; [exact Q2|]. split; [congruence|]. split; [congruence|]. apply Hci. exact Q5.
      - destruct Hq as [Q|[(Q1 & Q2)|Q]]; [left; auto|right; left; auto|].
        right. right. intros Hgd2. apply Q. apply Hgs. exact Hgd2. }
    assert (Hg3 : dcd_good L (set_rd L d r)) by (apply set_rd_good; assumption).
    destruct ev; try (eapply Hrec; [ | | | | | |exact H]; try reflexivity; try discriminate; assumption).
    + eapply Hrec; [ | | | | | |exact H]; try reflexivity; try discriminate.
      destruct Hg3 as (G1 & G2 & G3 & G4 & G5). split; [exact G1|]. split; [exact G2|]. split; [exact G3|]. split; [exact G4|].
      cbn. destruct (Hev _ eq_refl) as [Hp1 Hp2]. destruct p as [|a p]; [exact I|]. cbn [is_nil].
      split; [exact Hp1|]. destruct Hp2; [discriminate|assumption].
    + subst x. exists (set_rd L d r). split; [reflexivity|]. split; [exact Heof'|]. repeat (split; [reflexivity|]).
      eapply cini_done. apply Hn. reflexivity.
  - subst x. left. eapply cini_trailer. exact Hn.
  - subst x. destruct Hn as [[Hn _]|[(H1 & H2 & H3)|(H1 & H2)]].
    + left. now apply cini_err.
    + right. left. split; [exact H1|]. now apply cini_stuck.
    + right. right. intros Hq. eapply cut_good; eassumption.
Qed.

Lemma init_sim d1 d2 x1 x2 : quiet d1 -> quiet d2 -> sim d1 d2 -> rd_eof L (dc_rd L d1) = false ->
  init_loop L (ev_fuel L (dc_rd L d1)) d1 = x1 -> init_loop L (ev_fuel L (dc_rd L d2)) d2 = x2 ->
  match x1, x2 with Ok d1', Ok d2' => sim d1' d2' | Err e1, Err e2 => e1 = e2 | _, _ => False end.
Proof.
  intros [G1 Q1] [G2 Q2] Hs He H1 H2. pose proof (sim_rd _ _ Hs) as (E1 & E2 & E3).
  pose proof (init_loop_returns L safe umax Humax _ _ G1 (rmeas_fuel L umax Humax _)) as (R1 & _).
  pose proof (init_loop_returns L safe umax Humax _ _ G2 (rmeas_fuel L umax Humax _)) as (R2 & _).
  rewrite H1 in R1. rewrite H2 in R2.
  apply init_loop_rel in H1; auto. apply init_loop_rel in H2; [|exact G2|congruence].
  assert (Eh : dhinfo d2 = dhinfo d1).
  { unfold dhinfo. now rewrite (sim_conv _ _ Hs), (sim_bg _ _ Hs), (sim_rep _ _ Hs). }
  unfold init_rel in H1, H2. rewrite <- E1, <- E3, Eh, <- (sim_cur _ _ Hs), <- (sim_ty _ _ Hs) in H2.
  destruct x1 as [d1'|e1| | ]; [| |easy|easy]; destruct x2 as [d2'|e2| | ]; try easy.
  - destruct H1 as (a1 & -> & B1 & C1 & D1 & K1). destruct H2 as (a2 & -> & B2 & C2 & D2 & K2).
    pose proof (cini_det _ _ _ _ K1 _ K2) as E. injection E as F1 F2 F3 F4 F5.
    assert (Hss : sim a1 a2).
    { constructor; try congruence. repeat split; congruence. }
    unfold fix_bg. rewrite F3, F4.
    destruct (cv_gpal (dc_conv L a2)) as [p|]; [|exact Hss].
    destruct (_ <=? _); [|exact Hss]. destruct Hss. constructor; try assumption; reflexivity.
  - exfalso. destruct H1 as (a1 & -> & B1 & C1 & D1 & K1).
    destruct H2 as [K2|[(_ & K2)|K2]]; [..|contradiction]; pose proof (cini_det _ _ _ _ K1 _ K2); discriminate.
  - exfalso. destruct H2 as (a1 & -> & B1 & C1 & D1 & K2).
    destruct H1 as [K1|[(_ & K1)|K1]]; [..|contradiction]; pose proof (cini_det _ _ _ _ K1 _ K2); discriminate.
  - destruct H1 as [K1|[(Ea & K1)|K1]]; [..|contradiction];
    (destruct H2 as [K2|[(Eb & K2)|K2]]; [..|contradiction]);
    pose proof (cini_det _ _ _ _ K1 _ K2) as E; try discriminate E; congruence.
Qed.

(** ** Frame metadata events and the option [skip_frame_decoding] *)
Lemma dnext_ty r ob r' ob' x : dnext L r ob r' ob' x -> rd_wf L r ->
  forall t, x = Ok (Some (DFrameMetadata t)) ->
  (t = FPixels <-> o_skip_frame_decoding (sd_opts L (rd_dec L r)) = false).
Proof.
  induction 1 as [buf src s ob|k src s ob|s ob|src s ob|bs src s ob r' ob' x Hb Hn IH
    |buf src s ob s1 ob1 n r' ob' x Hb He Hn IH|buf src s ob s1 ob1 n Hb He
    |buf src s ob s1 ob1 n d Hb He Hd1 Hd2|pr buf src s ob s1 ob1 e Hb He]; intros Hwf t0 Ht; try discriminate Ht.
  - apply IH; [|exact Ht]. destruct Hwf as [H1 H2]. split; [exact H1|]. intros _. destruct (H2 eq_refl) as [H3 H4].
    split; [|exact H4]. intros E. destruct (H3 E) as [t Hq]. discriminate.
  - destruct Hwf as [H1 H2]. cbn in H1. destruct (H2 eq_refl) as [H3 H4]. cbn in H3, H4.
    pose proof (next_state_good L safe s buf ob H1 H3 Hb) as Hg. rewrite He in Hg.
    destruct Hg as (Ho & Hsh & Hg1 & Hg2 & Hg3 & Hg4 & _).
    cbn [rd_dec] in *. rewrite <- Ho. apply IH; [|exact Ht].
    split; [exact Hg2|]. intros _. split; [exact Hg3|].
    intros E. destruct (Hg4 E); [contradiction|discriminate].
  - injection Ht as ->. destruct Hwf as [H1 H2]. cbn in H1.
    destruct (H2 eq_refl) as [H3 _]. cbn in H3.
    apply next_state_nst in He; auto. cbn [rd_dec]. clear H2 H1 H3.
    inversion He; subst; try congruence; try (split; congruence).
    all: match goal with H : context [is_netscape ?b] |- _ => destruct (is_netscape b); discriminate H
         | H : context [(?w =? 0)%nat] |- _ => destruct (w =? 0)%nat; discriminate H end.
Qed.

Lemma info_loop_ty fuel : forall d d', dcd_good L d ->
  next_frame_info_loop L fuel d = (d', Ok true) ->
  o_skip_frame_decoding (dopts L d) = true -> dc_ty L d' <> FPixels.
Proof.
  induction fuel as [|fuel IH]; intros d d' Hd H Hsk; [discriminate|].
  cbn [next_frame_info_loop] in H.
  destruct (decode_next L (dc_rd L d) ONone) as [[r ob] y] eqn:E.
  pose proof Hd as (Hr & _).
  pose proof (decode_next_dnext L safe _ _ _ _ _ (proj1 Hr) E) as Hdn.
  pose proof (decode_next_all L safe _ _ _ _ _ Hr E) as (Hr' & Hgn & _).
  destruct Hgn as (_ & Ho & _).
  assert (Hg2 : dcd_good L (set_rd L d r)) by (apply set_rd_good; assumption).
  assert (Hsk2 : o_skip_frame_decoding (dopts L (set_rd L d r)) = true).
  { unfold dopts in *. cbn [dc_rd set_rd]. now rewrite Ho. }
  destruct y as [[ev|]|e| | ]; try discriminate H.
  destruct ev; try (eapply IH; [exact Hg2|exact H|exact Hsk2]).
  pose proof (dnext_ty _ _ _ _ _ Hdn (proj1 Hr) _ eq_refl) as Ht.
  destruct (sd_current L (rd_dec L r)) as [f|]; [|discriminate]. cbn [frame_take] in H.
  assert (Hn : t <> FPixels). { intros ->. unfold dopts in Hsk. destruct Ht as [Ht _]. rewrite Ht in Hsk by reflexivity. discriminate. }
  destruct (f_palette f); [|destruct (cv_gpal _)]; injection H as <-; exact Hn.
Qed.

(** ** Sequences of calls *)
(** One call: [next_frame_info], or [read_next_frame]; what the caller sees is the result, the frame
    it borrows and the decoder's accessors. *)
Definition view (d : dcd) : frame * N * N * option N * repeat_t * option (list N) :=
  (dc_cur L d, dec_width L d, dec_height L d, dec_bg_color L d, dec_repeat L d, dec_global_palette L d).
Definition call (d : dcd) (whole : bool) : dcd * dres bool :=
  if whole then read_next_frame L umax d else next_frame_info L d.
(** Calls up to the first failure. *)
Fixpoint calls (d : dcd) (os : list bool) : list (dres (option (frame * N * N * option N * repeat_t * option (list N)))) :=
  match os with
  | [] => []
  | o :: os' =>
    let '(d1, x) := call d o in
    match x with
    | Ok b => Ok (if b then Some (view d1) else None) :: calls d1 os'
    | Err e => [Err e]
    | Panic => [Panic]
    | Hang => [Hang]
    end
  end.

Lemma sim_view d1 d2 : sim d1 d2 -> view d1 = view d2.
Proof.
  intros [(E1 & E2 & E3) H1 H2 H3 H4 H5].
  unfold view, dec_width, dec_height, dec_bg_color, dec_repeat, dec_global_palette. congruence.
Qed.

Lemma flzw_good a m r v x f : dcd_good L a -> dc_ty L a = FLzw m ->
  copy_lzw_into_buffer L (dc_rd L a) m [] = (r, v, x) -> frame_ok f ->
  dcd_good L (set_cur L (set_rd L a r) f (dc_ty L a)) /\ dopts L (set_cur L (set_rd L a r) f (dc_ty L a)) = dopts L a /\ returns x.
Proof.
  intros Hg Ht H Hf. pose proof Hg as (Hr & _).
  pose proof (copy_lzw_loop_returns L safe umax Humax _ _ _ Hr (rmeas_fuel L umax Humax _) _ _ _ H) as (R & Hr' & Ho & _).
  split; [|split; [exact Ho|exact R]].
  apply set_cur_good; [|exact Hf]. apply set_rd_good; assumption.
Qed.

Lemma call_sim d1 d2 o d1' d2' x1 x2 : quiet d1 -> quiet d2 -> sim d1 d2 ->
  (o = true -> o_skip_frame_decoding (dopts L d1) = true) ->
  call d1 o = (d1', x1) -> call d2 o = (d2', x2) ->
  agree d1' d2' x1 x2 /\ quiet d1' /\ quiet d2' /\ dopts L d1' = dopts L d1.
Proof.
  intros Qu1 Qu2 Hs Hsk H1 H2.
  destruct o; cbn [call] in H1, H2.
  2:{ split; [eapply (info_sim d1 d2); eassumption|].
      destruct Qu1 as [G1 Q1]. destruct Qu2 as [G2 Q2].
      pose proof (next_frame_info_returns L safe umax Humax _ _ _ G1 H1) as (_ & G1' & K1 & _).
      pose proof (next_frame_info_returns L safe umax Humax _ _ _ G2 H2) as (_ & G2' & K2 & _).
      split; [|split; [|apply K1]].
      - split; [exact G1'|]. unfold next_frame_info in H1. eapply info_loop_src; [split; [exact G1|exact Q1]|exact H1].
      - split; [exact G2'|]. unfold next_frame_info in H2. eapply info_loop_src; [split; [exact G2|exact Q2]|exact H2]. }
  specialize (Hsk eq_refl).
  unfold read_next_frame in H1, H2.
  destruct (next_frame_info L d1) as [a1 y1] eqn:F1. destruct (next_frame_info L d2) as [a2 y2] eqn:F2.
  destruct (info_sim _ _ _ _ _ _ Qu1 Qu2 Hs F1 F2) as [Ey Hsim].
  pose proof (info_loop_src _ _ _ _ Qu1 F1) as S1. pose proof (info_loop_src _ _ _ _ Qu2 F2) as S2.
  pose proof (next_frame_info_returns L safe umax Humax _ _ _ (proj1 Qu1) F1) as (R1 & A1 & O1 & _).
  pose proof (next_frame_info_returns L safe umax Humax _ _ _ (proj1 Qu2) F2) as (_ & A2 & _).
  subst y2. destruct y1 as [[|]|e| | ].
  2:{ injection H1 as <- <-. injection H2 as <- <-.
      split; [split; [reflexivity|exact Hsim]|]. split; [split; assumption|]. split; [split; assumption|apply O1]. }
  2:{ injection H1 as <- <-. injection H2 as <- <-.
      split; [split; [reflexivity|exact I]|]. split; [split; assumption|]. split; [split; assumption|apply O1]. }
  2,3: easy.
  pose proof (info_loop_ty _ _ _ (proj1 Qu1) F1 Hsk) as Hty.
  pose proof (sim_ty _ _ Hsim) as Et. rewrite <- Et in H2.
  destruct (dc_ty L a1) as [|m] eqn:Ety; [congruence|].
  destruct (copy_lzw_into_buffer L (dc_rd L a1) m []) as [[r1 v1] z1] eqn:C1.
  destruct (copy_lzw_into_buffer L (dc_rd L a2) m []) as [[r2 v2] z2] eqn:C2.
  assert (Ee : rd_eof L (dc_rd L a1) = false).
  { destruct (rd_eof L (dc_rd L d1)) eqn:Ed.
    - rewrite info_eof in F1 by exact Ed. discriminate.
    - apply info_rel_of in F1; [|apply Qu1|exact Ed]. destruct F1 as (_ & _ & _ & ((s1 & f & _ & _ & _ & Z & _) & _)). exact Z. }
  destruct (copy_sim _ _ _ _ _ _ _ _ _ _ (proj1 A1) (proj1 A2) S1 S2 (sim_rd _ _ Hsim) Ee C1 C2) as [Ez Hz].
  subst z2.
  pose proof (copy_loop_src _ _ _ _ _ _ (proj1 A1) S1 C1) as S1'.
  pose proof (copy_loop_src _ _ _ _ _ _ (proj1 A2) S2 C2) as S2'.
  assert (Ff : forall a v, dcd_good L a -> frame_ok (set_buffer (set_buffer (dc_cur L a) []) v)).
  { intros a v Hga. apply frame_ok_set_buffer, frame_ok_set_buffer, Hga. }
  assert (W1 : forall f, frame_ok f -> dcd_good L (set_cur L (set_rd L a1 r1) f (FLzw m)) /\
      dopts L (set_cur L (set_rd L a1 r1) f (FLzw m)) = dopts L d1).
  { intros f Hf. destruct (flzw_good _ _ _ _ _ f A1 Ety C1 Hf) as (W & W' & _). rewrite Ety in W, W'.
    split; [exact W|]. rewrite W'. apply O1. }
  assert (W2 : forall f, frame_ok f -> dcd_good L (set_cur L (set_rd L a2 r2) f (FLzw m))).
  { intros f Hf. symmetry in Et. destruct (flzw_good _ _ _ _ _ f A2 Et C2 Hf) as (W & _). rewrite Et in W. exact W. }
  pose proof (Ff a1 v1 A1) as Fa. pose proof (Ff a2 v2 A2) as Fb.
  pose proof (frame_ok_set_buffer _ [] (proj1 (proj2 A1))) as Fc. pose proof (frame_ok_set_buffer _ [] (proj1 (proj2 A2))) as Fd.
  destruct z1 as [[]|e| | ]; injection H1 as <- <-; injection H2 as <- <-.
  - destruct (Hz eq_refl) as [Hsb <-]. destruct Hsim as [Z1 Z2 Z3 Z4 Z5 Z6].
    split; [|split; [split; [now apply W1|exact S1']|split; [split; [now apply W2|exact S2']|now apply W1]]].
    split; [reflexivity|]. constructor; cbn [dc_rd dc_conv dc_bg dc_repeat dc_cur dc_ty set_cur set_rd]; congruence.
  - split; [split; [reflexivity|exact I]|].
    split; [split; [now apply W1|exact S1']|split; [split; [now apply W2|exact S2']|now apply W1]].
  - split; [split; [reflexivity|exact I]|].
    split; [split; [now apply W1|exact S1']|split; [split; [now apply W2|exact S2']|now apply W1]].
  - split; [split; [reflexivity|exact I]|].
    split; [split; [now apply W1|exact S1']|split; [split; [now apply W2|exact S2']|now apply W1]].
Qed.

Lemma calls_sim os : forall d1 d2, quiet d1 -> quiet d2 -> sim d1 d2 ->
  (In true os -> o_skip_frame_decoding (dopts L d1) = true) ->
  calls d1 os = calls d2 os.
Proof.
  induction os as [|o os IH]; intros d1 d2 Q1 Q2 Hs Hsk; [reflexivity|].
  cbn [calls]. destruct (call d1 o) as [d1' x1] eqn:C1. destruct (call d2 o) as [d2' x2] eqn:C2.
  destruct (call_sim _ _ _ _ _ _ _ Q1 Q2 Hs (fun E => Hsk (or_introl E)) C1 C2) as ((<- & Hx) & Q1' & Q2' & Eo).
  destruct x1 as [b|e| | ]; try reflexivity.
  rewrite (sim_view _ _ Hx). f_equal. apply IH; auto.
  rewrite Eo. intros Hi. apply Hsk. now right.
Qed.

Lemma start_sim src1 src2 o : concat (map ev_bytes src1) = concat (map ev_bytes src2) ->
  sim (with_no_init L src1 o) (with_no_init L src2 o).
Proof. intros E. constructor; try reflexivity. repeat split. exact E. Qed.

Lemma read_info_src src o d : src_ok src -> good_src src -> read_info L src o = Ok d -> quiet d.
Proof.
  intros Hb Hg H. split; [eapply read_info_returns; eassumption|].
  unfold read_info in H. revert H.
  assert (Hd : dcd_good L (with_no_init L src o)) by (now apply with_no_init_good).
  assert (Hgs : good_src (rd_src L (dc_rd L (with_no_init L src o)))) by exact Hg.
  revert Hd Hgs. generalize (with_no_init L src o) as d0. intros d0. generalize (ev_fuel L (dc_rd L d0)) as fuel.
  intros fuel. revert d0.
  induction fuel as [|fuel IH]; intros d0 Hd Hgs H; [discriminate|]. cbn [init_loop] in H.
  destruct (decode_next L (dc_rd L d0) ONone) as [[r ob] y] eqn:E.
  pose proof Hd as (Hr & _).
  pose proof (decode_next_src _ _ _ _ _ (proj1 Hr) Hgs E) as Hg'.
  pose proof (decode_next_all L safe _ _ _ _ _ Hr E) as (Hr' & Hgn & Hev & _).
  destruct Hgn as (_ & Ho & _).
  assert (Hg3 : dcd_good L (set_rd L d0 r)) by (apply set_rd_good; assumption).
  assert (Hg4 := Hg3). destruct Hg4 as (W1 & W2 & W3 & W4 & W5).
  destruct y as [[ev|]|e| | ]; try discriminate H.
  assert (G2 : forall c b p, cv_limit c = cv_limit (dc_conv L d0) -> cv_color c = cv_color (dc_conv L d0) ->
     match cv_gpal c with Some p => bytes_ok p /\ pal_size (length p) | None => True end ->
     dcd_good L (mk_dcd L r c b p (dc_cur L d0) (dc_ty L d0))).
  { intros c b p Y1 Y2 Y3. unfold dcd_good. cbn [dc_rd dc_cur dc_conv set_rd] in *. rewrite Y1, Y2. auto. }
  destruct ev; try (eapply IH; [| |exact H]; [exact Hg3|exact Hg']).
  - eapply IH; [| |exact H]; [|exact Hg']. apply G2; [reflexivity|reflexivity|].
    cbn. destruct (Hev _ eq_refl) as [Hp1 Hp2]. destruct p as [|a p]; [exact I|]. cbn [is_nil].
    split; [exact Hp1|]. destruct Hp2; [discriminate|assumption].
  - injection H as <-. unfold fix_bg. destruct (cv_gpal _); [|exact Hg']. destruct (_ <=? _); exact Hg'.
Qed.

(** A scan: open, look at the accessors, then make the given calls. *)
Definition scan (src : list revent) (o : options) (os : list bool) :=
  match read_info L src o with
  | Ok d => Ok (view d, calls d os)
  | Err e => Err e
  | Panic => Panic
  | Hang => Hang
  end.

Theorem scan_chunk_independent src1 src2 o os :
  src_ok src1 -> src_ok src2 -> good_src src1 -> good_src src2 ->
  concat (map ev_bytes src1) = concat (map ev_bytes src2) ->
  (In true os -> o_skip_frame_decoding o = true) ->
  scan src1 o os = scan src2 o os.
Proof.
  intros B1 B2 G1 G2 E Hsk. unfold scan.
  pose proof (start_sim _ _ o E) as Hs.
  pose proof (with_no_init_good L src1 o B1) as D1. pose proof (with_no_init_good L src2 o B2) as D2.
  assert (Q1 : quiet (with_no_init L src1 o)) by (split; assumption).
  assert (Q2 : quiet (with_no_init L src2 o)) by (split; assumption).
  pose proof (init_sim _ _ _ _ Q1 Q2 Hs eq_refl eq_refl eq_refl) as Hi.
  fold (read_info L src1 o) in Hi. fold (read_info L src2 o) in Hi.
  destruct (read_info L src1 o) as [d1|e1| | ] eqn:R1; [| |easy|easy];
    destruct (read_info L src2 o) as [d2|e2| | ] eqn:R2; try easy; [|now subst].
  rewrite (sim_view _ _ Hi). f_equal. f_equal.
  pose proof (proj2 (read_info_returns L safe umax Humax src1 o B1) _ R1) as (_ & Eo).
  apply calls_sim; [exact (read_info_src _ _ _ B1 G1 R1)|exact (read_info_src _ _ _ B2 G2 R2)|exact Hi| ].
  rewrite Eo. exact Hsk.
Qed.

(** ** Transient I/O errors during a metadata scan *)
(** Sources whose reads deliver bytes or fail with a transient error. *)
Definition flaky_ev (e : revent) : Prop :=
  match e with RChunk (_ :: _) => True | RChunk [] => False | RErr k => transient (DIo k) = true end.
Definition bad_evs (src : list revent) : nat :=
  length (filter (fun e => match e with RErr _ => true | _ => false end) src).

(** Call [next_frame_info] again, at most [n] times, as long as it fails with a transient error. *)
Fixpoint info_retry (n : nat) (d : dcd) : dcd * dres bool :=
  let '(d1, x) := next_frame_info L d in
  match n, x with
  | S n', Err e => if transient e then info_retry n' d1 else (d1, x)
  | _, _ => (d1, x)
  end.
Fixpoint retry_calls (n : nat) (d : dcd) (k : nat) : list (dres (option (frame * N * N * option N * repeat_t * option (list N)))) :=
  match k with
  | O => []
  | S k' =>
    let '(d1, x) := info_retry n d in
    match x with
    | Ok b => Ok (if b then Some (view d1) else None) :: retry_calls n d1 k'
    | Err e => [Err e]
    | Panic => [Panic]
    | Hang => [Hang]
    end
  end.

Record lag (d d' : dcd) : Prop := mk_lag {
  lag_eof : rd_eof L (dc_rd L d) = false;
  lag_eof' : rd_eof L (dc_rd L d') = false;
  lag_cinfo : forall y, cinfo (rd_dec L (dc_rd L d)) (rd_rest L (dc_rd L d)) y ->
                        cinfo (rd_dec L (dc_rd L d')) (rd_rest L (dc_rd L d')) y;
  lag_conv : dc_conv L d = dc_conv L d';
  lag_bg : dc_bg L d = dc_bg L d';
  lag_rep : dc_repeat L d = dc_repeat L d';
  lag_cur : dc_cur L d = dc_cur L d';
  lag_ty : dc_ty L d = dc_ty L d'
}.

Lemma info_lag d1 d2 d1' d2' x1 x2 : dcd_good L d1 -> quiet d2 -> lag d1 d2 ->
  next_frame_info L d1 = (d1', x1) -> next_frame_info L d2 = (d2', x2) ->
  agree d1' d2' x1 x2 /\ (forall e, x1 = Err e -> transient e = false) \/
  exists e, x1 = Err e /\ cut (dc_rd L d1) (dc_rd L d1') e /\ lag d1' d2.
Proof.
  intros G1 [G2 Q2] Hs H1 H2.
  pose proof (lag_eof _ _ Hs) as Z1. pose proof (lag_eof' _ _ Hs) as Z2.
  pose proof (next_frame_info_returns L safe umax Humax _ _ _ G1 H1) as (R1 & _).
  pose proof (next_frame_info_returns L safe umax Humax _ _ _ G2 H2) as (R2 & _).
  pose proof (info_rel_of _ _ _ G1 Z1 H1) as I1. pose proof (info_rel_of _ _ _ G2 Z2 H2) as I2.
  unfold info_rel in I1, I2. rewrite <- (lag_conv _ _ Hs), <- (lag_bg _ _ Hs),
    <- (lag_rep _ _ Hs), <- (lag_cur _ _ Hs), <- (lag_ty _ _ Hs) in I2.
  pose proof (lag_cinfo _ _ Hs) as Hl.
  set (s := rd_dec L (dc_rd L d2)) in *. set (str := rd_rest L (dc_rd L d2)) in *.
  destruct I1 as (C1 & B1 & P1 & I1). destruct I2 as (C2 & B2 & P2 & I2).
  assert (Hno : forall d d' e, good_src (rd_src L (dc_rd L d)) -> cut (dc_rd L d) (dc_rd L d') e -> False).
  { intros d d' e Hg Hc. eapply cut_good; eassumption. }
  assert (Hfound : forall s1 f s2 f2, sd_current L s1 = Some f -> sd_current L s2 = Some f2 ->
     cinfo s str (IMeta s1 (rd_rest L (dc_rd L d1')) (dc_ty L d1')) ->
     cinfo s str (IMeta s2 (rd_rest L (dc_rd L d2')) (dc_ty L d2')) ->
     s1 = s2 /\ f = f2 /\ rd_rest L (dc_rd L d1') = rd_rest L (dc_rd L d2') /\ dc_ty L d1' = dc_ty L d2').
  { intros s1 f s2 f2 F1 F2 K1 K2. pose proof (cinfo_det _ _ _ K1 _ K2) as E. injection E as -> K3 K4.
    rewrite F1 in F2. injection F2 as ->. auto. }
  destruct x1 as [[|]|e1| | ]; [ | | |easy|easy].
  - left. destruct I1 as ((s1 & f & F1 & K1 & D1 & Y1 & U1) & V1). apply Hl in K1.
    split; [|discriminate].
    destruct x2 as [[|]|e2| | ]; [| | |easy|easy].
    + destruct I2 as ((s2 & f2 & F2 & K2 & D2 & Y2 & U2) & V2).
      destruct (Hfound _ _ _ _ F1 F2 K1 K2) as (<- & <- & Er & Et).
      split; [reflexivity|]. constructor; try congruence. repeat split; congruence.
    + exfalso. destruct I2 as (_ & _ & _ & K2). pose proof (cinfo_det _ _ _ K1 _ K2). discriminate.
    + exfalso.
      destruct I2 as [(Ee2 & (s2 & f2 & F2 & K2 & D2 & Y2 & U2) & V2 & V3)|[(K2 & _)|[(_ & _ & K2)|(K2 & _)]]];
      try (pose proof (cinfo_det _ _ _ K1 _ K2); discriminate).
      * destruct (Hfound _ _ _ _ F1 F2 K1 K2) as (<- & <- & Er & Et). destruct V1; congruence.
      * eapply Hno; [exact Q2|exact K2].
  - left. destruct I1 as (A1 & A2 & A3 & K1). apply Hl in K1. split; [|discriminate].
    destruct x2 as [[|]|e2| | ]; [| | |easy|easy].
    + exfalso. destruct I2 as ((s1 & f & F1 & K2 & _) & _). pose proof (cinfo_det _ _ _ K1 _ K2). discriminate.
    + destruct I2 as (A4 & A5 & A6 & K2).
      pose proof (cinfo_det _ _ _ K1 _ K2) as E. injection E as Ea Eb.
      split; [reflexivity|]. constructor; try congruence. repeat split; congruence.
    + exfalso.
      destruct I2 as [(Ee2 & (s2 & f2 & F2 & K2 & _) & _)|[(K2 & _)|[(_ & _ & K2)|(K2 & _)]]];
        try (pose proof (cinfo_det _ _ _ K1 _ K2); discriminate). eapply Hno; [exact Q2|exact K2].
  - destruct I1 as [(Ea & (s1 & f1 & F1 & K1 & _ & _ & U1) & W1 & W2)|[(K1 & T1)|[(Ea & _ & K1)|(K1 & Y1 & Y2 & Y3 & Y4)]]].
    4:{ right. exists e1. split; [reflexivity|]. split; [exact K1|].
        destruct Hs. constructor; try congruence. auto. }
    all: left; apply Hl in K1; (split; [|intros e [= <-]; try exact T1; subst; reflexivity]);
      split; [|exact I].
    all: destruct x2 as [[|]|e2| | ]; [| | |easy|easy];
      [destruct I2 as ((s2 & f2 & F2 & K2 & D2 & X2 & U2) & V2)
      |destruct I2 as (_ & _ & _ & K2)
      |destruct I2 as [(Eb & (s2 & f2 & F2 & K2 & _) & _)|[(K2 & _)|[(Eb & _ & K2)|(K2 & _)]]];
        [| | |exfalso; eapply Hno; [exact Q2|exact K2]]];
      pose proof (cinfo_det _ _ _ K1 _ K2) as E; try discriminate E; try congruence.
    exfalso. destruct (Hfound _ _ _ _ F1 F2 K1 K2) as (<- & <- & Er & Et).
    destruct V2 as [V2|V2]; [|congruence]. apply V2. rewrite U2, <- U1. exact W1.
Qed.

Lemma cut_bad r r' e : cut r r' e -> Forall flaky_ev (rd_src L r) ->
  transient e = true /\ Forall flaky_ev (rd_src L r') /\ (bad_evs (rd_src L r') < bad_evs (rd_src L r))%nat.
Proof.
  intros (p & ev & H1 & H2 & H3) H. rewrite H1 in H |- *. apply Forall_app in H. destruct H as [_ H].
  inversion H as [|? ? Hev Hrest]; subst. unfold bad_evs. rewrite filter_app, app_length. cbn [filter].
  destruct ev as [[|b bs]|k]; cbn in Hev; try easy. subst e. cbn [length].
  split; [exact Hev|]. split; [exact Hrest|]. lia.
Qed.

Lemma info_src_suffix fuel : forall d d' x, dcd_good L d ->
  next_frame_info_loop L fuel d = (d', x) -> exists p, rd_src L (dc_rd L d) = p ++ rd_src L (dc_rd L d').
Proof.
  induction fuel as [|fuel IH]; intros d d' x Hd H.
  { injection H as <- <-. exists []. reflexivity. }
  cbn [next_frame_info_loop] in H.
  destruct (decode_next L (dc_rd L d) ONone) as [[r ob] y] eqn:E.
  pose proof Hd as (Hr & _).
  pose proof (decode_next_all L safe _ _ _ _ _ Hr E) as (Hr' & Hgn & _).
  destruct Hgn as (_ & Ho & _ & (p & Hp) & _).
  assert (Hg : dcd_good L (set_rd L d r)) by (apply set_rd_good; assumption).
  destruct y as [[ev|]|e| | ]; try (injection H as <- <-; exists p; exact Hp).
  destruct ev; try (apply IH in H; [|exact Hg]; destruct H as [q Hq]; exists (p ++ q); rewrite Hp, <- app_assoc, <- Hq; reflexivity).
  destruct (sd_current L (rd_dec L r)); [|injection H as <- <-; exists p; exact Hp].
  cbn [frame_take] in H.
  destruct (f_palette f); [|destruct (cv_gpal _)]; injection H as <- <-; exists p; exact Hp.
Qed.

Lemma bad_evs_app p q : (bad_evs q <= bad_evs (p ++ q))%nat.
Proof. unfold bad_evs. rewrite filter_app, app_length. lia. Qed.

Lemma retry_rel n : forall d1 d2 d1' d2' x1 x2, dcd_good L d1 -> Forall flaky_ev (rd_src L (dc_rd L d1)) ->
  (bad_evs (rd_src L (dc_rd L d1)) <= n)%nat -> quiet d2 -> lag d1 d2 \/ sim d1 d2 /\ rd_eof L (dc_rd L d1) = true ->
  info_retry n d1 = (d1', x1) -> next_frame_info L d2 = (d2', x2) ->
  agree d1' d2' x1 x2 /\ dcd_good L d1' /\ Forall flaky_ev (rd_src L (dc_rd L d1')) /\
  (bad_evs (rd_src L (dc_rd L d1')) <= n)%nat.
Proof.
  induction n as [|n IH]; intros d1 d2 d1' d2' x1 x2 G1 F1 Hn Q2 Hl H1 H2; cbn [info_retry] in H1;
    destruct (next_frame_info L d1) as [a y] eqn:E;
    pose proof (next_frame_info_returns L safe umax Humax _ _ _ G1 E) as (_ & Ga & _);
    pose proof (info_src_suffix _ _ _ _ G1 E) as (p & Hp);
    (assert (Fa : Forall flaky_ev (rd_src L (dc_rd L a))) by (rewrite Hp in F1; apply Forall_app in F1; apply F1));
    pose proof (bad_evs_app p (rd_src L (dc_rd L a))) as Hb; rewrite <- Hp in Hb;
    (destruct Hl as [Hl|[Hl He]];
     [destruct (info_lag _ _ _ _ _ _ G1 Q2 Hl E H2) as [[Hag Ht]|(e & -> & Hc & Hl')]
     |rewrite info_eof in E by exact He; injection E as <- <-;
      rewrite info_eof in H2 by (rewrite <- (proj1 (proj2 (sim_rd _ _ Hl))); exact He);
      injection H2 as <- <-; injection H1 as <- <-; split; [split; [reflexivity|exact Hl]|]; split; [assumption|]; split; assumption]).
  - injection H1 as <- <-. split; [exact Hag|]. split; [exact Ga|]. split; [exact Fa|]. lia.
  - exfalso. apply cut_bad in Hc; [|exact F1]. lia.
  - destruct y as [b|e| | ]; try (injection H1 as <- <-; split; [exact Hag|]; split; [exact Ga|]; split; [exact Fa|]; lia).
    rewrite (Ht _ eq_refl) in H1. injection H1 as <- <-. split; [exact Hag|]. split; [exact Ga|]. split; [exact Fa|]. lia.
  - apply cut_bad in Hc; [|exact F1]. destruct Hc as (Hc1 & Hc2 & Hc3). rewrite Hc1 in H1.
    eapply IH in H1; [|exact Ga|exact Hc2|lia|exact Q2|left; exact Hl'|exact H2].
    destruct H1 as (W1 & W2 & W3 & W4). split; [exact W1|]. split; [exact W2|]. split; [exact W3|]. lia.
Qed.

Lemma sim_lag d1 d2 : sim d1 d2 -> lag d1 d2 \/ sim d1 d2 /\ rd_eof L (dc_rd L d1) = true.
Proof.
  intros Hs. destruct (rd_eof L (dc_rd L d1)) eqn:E; [right; auto|]. left.
  destruct Hs as [(E1 & E2 & E3) H1 H2 H3 H4 H5]. constructor; try assumption; [congruence|].
  intros y. rewrite E1, E3. auto.
Qed.

Lemma retry_calls_sim n k : forall d1 d2, dcd_good L d1 -> Forall flaky_ev (rd_src L (dc_rd L d1)) ->
  (bad_evs (rd_src L (dc_rd L d1)) <= n)%nat -> quiet d2 -> sim d1 d2 ->
  retry_calls n d1 k = calls d2 (repeat false k).
Proof.
  induction k as [|k IH]; intros d1 d2 G F Hn Q Hs; [reflexivity|].
  cbn [retry_calls repeat calls call].
  destruct (info_retry n d1) as [a1 y1] eqn:E1. destruct (next_frame_info L d2) as [a2 y2] eqn:E2.
  destruct (retry_rel _ _ _ _ _ _ _ G F Hn Q (sim_lag _ _ Hs) E1 E2) as ((<- & Hag) & Ga & Fa & Hb).
  destruct y1 as [b|e| | ]; try reflexivity. rewrite (sim_view _ _ Hag). f_equal.
  apply IH; auto.
  pose proof (next_frame_info_returns L safe umax Humax _ _ _ (proj1 Q) E2) as (_ & Ga2 & _).
  split; [exact Ga2|]. eapply info_loop_src; [exact Q|exact E2].
Qed.

(** A scan that retries after transient errors. *)
Definition retry_scan (n : nat) (src : list revent) (o : options) (k : nat) :=
  match read_info L src o with
  | Ok d => Ok (view d, retry_calls n d k)
  | Err e => Err e
  | Panic => Panic
  | Hang => Hang
  end.

Lemma init_src_suffix fuel : forall d d', dcd_good L d ->
  init_loop L fuel d = Ok d' -> exists p, rd_src L (dc_rd L d) = p ++ rd_src L (dc_rd L d').
Proof.
  induction fuel as [|fuel IH]; intros d0 d Hd H; [discriminate|]. cbn [init_loop] in H.
  destruct (decode_next L (dc_rd L d0) ONone) as [[r ob] y] eqn:E.
  pose proof Hd as (Hr & _).
  pose proof (decode_next_all L safe _ _ _ _ _ Hr E) as (Hr' & Hgn & Hev & _).
  destruct Hgn as (_ & Ho & _ & (p & Hp) & _).
  assert (Hg3 : dcd_good L (set_rd L d0 r)) by (apply set_rd_good; assumption).
  assert (Hg4 := Hg3). destruct Hg4 as (W1 & W2 & W3 & W4 & W5).
  destruct y as [[ev|]|e| | ]; try discriminate H.
  assert (Hrec : forall d1, dc_rd L d1 = r -> dcd_good L d1 -> init_loop L fuel d1 = Ok d ->
     exists p, rd_src L (dc_rd L d0) = p ++ rd_src L (dc_rd L d)).
  { intros d1 Ed Hgd Hq. apply IH in Hq; [|exact Hgd]. destruct Hq as [q Hq]. exists (p ++ q).
    rewrite Hp, <- app_assoc, <- Hq, Ed. reflexivity. }
  destruct ev; try (eapply Hrec; [| |exact H]; [reflexivity|exact Hg3]).
  - eapply Hrec; [| |exact H]; [reflexivity|].
    split; [exact W1|]. split; [exact W2|]. split; [exact W3|]. split; [exact W4|].
    cbn. destruct (Hev _ eq_refl) as [Hp1 Hp2]. destruct p0 as [|a p0]; [exact I|]. cbn [is_nil].
    split; [exact Hp1|]. destruct Hp2; [discriminate|assumption].
  - injection H as <-. exists p. unfold fix_bg. destruct (cv_gpal _); [|exact Hp]. destruct (_ <=? _); exact Hp.
Qed.

Theorem retry_scan_transparent src1 src2 o n k d :
  src_ok src1 -> src_ok src2 -> Forall flaky_ev src1 -> good_src src2 ->
  concat (map ev_bytes src1) = concat (map ev_bytes src2) ->
  (bad_evs src1 <= n)%nat -> read_info L src1 o = Ok d ->
  retry_scan n src1 o k = scan src2 o (repeat false k).
Proof.
  intros B1 B2 G1 G2 E Hn R1. unfold retry_scan, scan. rewrite R1.
  pose proof (start_sim _ _ o E) as Hs.
  pose proof (with_no_init_good L src1 o B1) as D1. pose proof (with_no_init_good L src2 o B2) as D2.
  pose proof (read_info_returns L safe umax Humax src2 o B2) as (Hret & _).
  pose proof (proj2 (read_info_returns L safe umax Humax src1 o B1) _ R1) as (Gd & _).
  pose proof R1 as R1'. unfold read_info in R1'.
  pose proof (init_src_suffix _ _ _ D1 R1') as (p & Hp).
  apply init_loop_rel in R1'; [|exact D1|reflexivity].
  assert (Hq : quiet (with_no_init L src2 o)) by (split; assumption).
  pose proof (init_loop_rel _ _ _ D2 eq_refl (eq_refl (read_info L src2 o))) as K2.
  unfold init_rel in R1', K2. destruct R1' as (a1 & -> & A1 & A2 & A3 & K1).
  destruct (sim_rd _ _ Hs) as (E1 & E2 & E3). rewrite E1, E3 in K1.
  assert (Eh : dhinfo (with_no_init L src1 o) = dhinfo (with_no_init L src2 o)) by reflexivity. rewrite Eh in K1.
  destruct (read_info L src2 o) as [d2|e2| | ] eqn:R2; [| |easy|easy].
  2:{ exfalso. destruct K2 as [K2|[(_ & K2)|K2]]; [..|apply K2, G2];
      pose proof (cini_det _ _ _ _ K1 _ K2); discriminate. }
  destruct K2 as (a2 & E4 & A4 & A5 & A6 & K2).
  pose proof (cini_det _ _ _ _ K1 _ K2) as Eq. injection Eq as F1 F2 F3 F4 F5.
  assert (Hss : sim (fix_bg L a1) d2).
  { subst d2. assert (Hss : sim a1 a2).
    { constructor; try congruence. repeat split; congruence. rewrite A2, A5. reflexivity. rewrite A3, A6. reflexivity. }
    unfold fix_bg. rewrite F3, F4.
    destruct (cv_gpal (dc_conv L a2)) as [pl|]; [|exact Hss].
    destruct (_ <=? _); [|exact Hss]. destruct Hss. constructor; try assumption; reflexivity. }
  rewrite (sim_view _ _ Hss). f_equal. f_equal.
  cbn [with_no_init dc_rd rd_src] in Hp.
  apply retry_calls_sim; [exact Gd| | |exact (read_info_src _ _ _ B2 G2 R2)|exact Hss].
  - rewrite Hp in G1. apply Forall_app in G1. apply G1.
  - pose proof (bad_evs_app p (rd_src L (dc_rd L (fix_bg L a1)))) as Hb. rewrite <- Hp in Hb. lia.
Qed.

End CR.
