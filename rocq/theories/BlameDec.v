(** The format errors of [read_info] and [next_frame_info] have their reasons in the file. *)
From Verif Require Import Base Common Lzw Encoder Stream StreamInv Steps Ranges Converter Reader ReaderInv ConvInv DecoderSafe DecInv.
From Verif Require Import SpecGif SpecAccept SpecStream StreamProps SpecCount DocTrace DocAll Accept AcceptDec SpecBlame Blame.
Open Scope N_scope.

Section Dec.
Variable L : lzw_codec.
Hypothesis safe : lzw_safe L.
Variable o : options.
Variable file : list N.
Hypothesis file_ok : bytes_ok file.
Notation rd := (rd L).
Notation dcd := (dcd L).
Notation reads := (reads L o file any_data (any_reader L) (any_lzw L)).
Notation dreads := (dreads L o file any_data (any_reader L) (any_lzw L)).

Definition past (s : sd L) : bool :=
  match sd_state L s with Magic | ScreenDescriptor | GlobalPalette _ => false | _ => true end.
(** The image that was announced has no colour table. *)
Definition bare_image (s : sd L) : Prop :=
  forall f, sd_current L s = Some f -> f_palette f = None ->
  exists g bs i r, front_ok o g bs /\ img_head o g i /\ table_ok (im_flags i) (im_lct i) /\ 1 <= im_mcs i <= 11 /\
    has_table (im_flags i) = false /\ file = front g bs ++ image_head i ++ r.
Definition no_global : Prop := has_table (nth 10 file 0) = false.

Lemma table_some fl : 0 < 3 * table_colors fl.
Proof.
  unfold table_colors. assert (H : 2 ^ (fl mod 8 + 1) <> 0) by (apply N.pow_nonzero; discriminate). lia.
Qed.
Lemma nth_ten c rest fl : nth 10 c 0 = fl -> (10 < length c)%nat -> nth 10 (c ++ rest) 0 = fl.
Proof. intros <- H. now apply app_nth1. Qed.
Lemma head_ten g rest : nth 10 (ser_head g ++ rest) 0 = g_flags g.
Proof. unfold ser_head, word, signature. destruct (g_89a g); reflexivity. Qed.

Lemma step_meta s buf ob s' ob' n t c more : file = c ++ buf ++ more ->
  parsed L o (tabled file) any_data (any_lzw L) s c (buf ++ more) -> nst L s buf ob s' ob' (Ok (n, DFrameMetadata t)) -> bare_image s'.
Proof.
  intros Ef H Hn.
  assert (Hq : exists m, sd_state L s = LzwInit m /\ check_code_size m = true /\ sd_current L s' = sd_current L s).
  { inversion Hn; subst; try (eexists; split; [eassumption|split; [assumption|reflexivity]]); exfalso.
    all: repeat match goal with Q : context [if ?x then _ else _] |- _ => destruct x end; discriminate. }
  destruct Hq as (m & Em & Hm & Ec).
  destruct (parsed_body _ _ _ _ _ _ _ _ H) as (g & bs & Hg & Ht & Ha & Hb); [rewrite Em; exact I|].
  unfold body in Hb. rewrite Em in Hb. destruct Hb as (B1 & i & I1 & (f0 & I2 & I2') & I3 & I4 & ->).
  intros f Ef1 Hp. rewrite Ec, I2 in Ef1. injection Ef1 as <-. rewrite I2' in Hp. unfold lct_of in Hp.
  exists g, bs, i, (buf ++ more). split; [eapply front_acc; eassumption|]. split; [exact I1|]. split; [exact I3|]. split.
  - rewrite I4. unfold check_code_size in Hm. apply negb_true_iff, orb_false_iff in Hm. rewrite !N.ltb_ge in Hm. lia.
  - split; [now destruct (has_table (im_flags i))|]. rewrite Ef, image_head_bytes. unfold front. now rewrite <- !app_assoc.
Qed.
Lemma step_global s buf ob s' ob' n p c more : file = c ++ buf ++ more ->
  parsed L o (tabled file) any_data (any_lzw L) s c (buf ++ more) -> nst L s buf ob s' ob' (Ok (n, DGlobalPalette p)) -> p = [] -> no_global.
Proof.
  intros Ef H Hn.
  assert (Hq : sd_state L s = GlobalPalette 0 /\ sd_gct L s = p).
  { inversion Hn; subst; auto; exfalso.
    all: repeat match goal with Q : context [if ?x then _ else _] |- _ => destruct x end; discriminate. }
  destruct Hq as [Est <-]. unfold parsed in H. rewrite Est in H. destruct H as (_ & g & _ & -> & Eg & _ & _ & _ & _ & _ & _ & G7).
  intros E. rewrite <- Eg in E. rewrite E in G7. cbn [length Nat.add] in G7. unfold no_global. rewrite Ef, head_ten.
  pose proof (table_some (g_flags g)). destruct (has_table (g_flags g)); [lia|reflexivity].
Qed.
Lemma step_past s buf ob s' ob' n d : nst L s buf ob s' ob' (Ok (n, d)) -> past s' = true ->
  past s = true \/ exists p, d = DGlobalPalette p.
Proof.
  intros Hn Hp. remember (Ok (n, d)) as r eqn:Er. unfold past in *.
  destruct Hn; try discriminate Er; injection Er as <- <-; sdcbn_in Hp; try rewrite H in *; eauto.
  all: unfold after_screen in Hp; destruct (negb _) in Hp; sdcbn_in Hp; discriminate Hp.
Qed.
Lemma step_header_end s buf ob s' ob' n : nst L s buf ob s' ob' (Ok (n, DHeaderEnd)) -> past s = true.
Proof.
  intros Hn. unfold past. inversion Hn; subst; try (match goal with Q : sd_state L s = _ |- _ => rewrite Q end; reflexivity).
  all: repeat match goal with Q : context [if ?x then _ else _] |- _ => destruct x end; discriminate.
Qed.

Definition facts (s : sd L) (s' : sd L) (d : decoded) : Prop :=
  (past s' = true -> past s = true \/ exists p, d = DGlobalPalette p) /\
  match d with
  | DFrameMetadata _ => bare_image s'
  | DGlobalPalette p => p = [] -> no_global
  | DHeaderEnd => past s = true
  | _ => True
  end.
Lemma step_facts s buf ob s' ob' n d c more : file = c ++ buf ++ more ->
  parsed L o (tabled file) any_data (any_lzw L) s c (buf ++ more) -> nst L s buf ob s' ob' (Ok (n, d)) -> facts s s' d.
Proof.
  intros Ef H Hn. split; [eapply step_past; eassumption|].
  destruct d; try exact I; [eapply step_global|eapply step_header_end|eapply step_meta]; eassumption.
Qed.

Lemma dnext_facts r ob r' ob' x : dnext L r ob r' ob' x -> rd_wf L r -> reads r ->
  match x with
  | Err (DFormat m) => blame o file ob (DFormat m)
  | Ok (Some d) => facts (rd_dec L r) (rd_dec L r') d
  | Ok None => rd_eof L r = false -> early L (rd_dec L r) -> False
  | _ => True
  end.
Proof.
  assert (Hone : forall buf src s ob s1 ob1 n d, buf <> [] -> next_state L s buf ob = (s1, ob1, Ok (n, d)) ->
    rd_wf L (mk_rd L buf src s false) -> reads (mk_rd L buf src s false) ->
    nst L s buf ob s1 ob1 (Ok (n, d)) /\ facts s s1 d).
  { intros buf src s ob0 s1 ob1 n d Hb He [H1 H2] ((Ro & Rj) & (c & Ec & Hc) & _). cbn [rd_dec rd_eof rd_buf] in *.
    destruct (H2 eq_refl) as [H3 H4]. pose proof (next_state_nst L safe _ _ _ _ _ _ H1 H3 Hb He) as Hst.
    split; [exact Hst|]. eapply step_facts; [exact Ec|exact Hc|exact Hst]. }
  induction 1 as [buf src s ob|k src s ob|s ob|src s ob|bs src s ob r' ob' x Hb Hn IH
    |buf src s ob s1 ob1 n r' ob' x Hb He Hn IH|buf src s ob s1 ob1 n Hb He
    |buf src s ob s1 ob1 n d Hb He Hd1 Hd2|pr buf src s ob s1 ob1 e Hb He]; intros Hwf Hr; try exact I.
  - discriminate.
  - apply IH; [|exact Hr]. destruct Hwf as [H1 H2]. cbn in H1, H2. destruct (H2 eq_refl) as [H3 H4].
    split; [exact H1|]. intros _. cbn. split; [|exact H4]. intros E. destruct (H3 E) as [t Ht]. discriminate.
  - destruct (Hone _ _ _ _ _ _ _ _ Hb He Hwf Hr) as [Hst [F _]].
    pose proof (dnext_reads L safe o file file_ok any_data (fun _ _ _ => I) (any_reader L) (fun _ _ _ _ _ _ => I) (fun _ _ _ _ _ _ _ _ => I)
      (any_lzw L)) as Hdr.
    assert (Hr1 : reads (mk_rd L (skipn n buf) src s1 false) /\ rd_wf L (mk_rd L (skipn n buf) src s1 false)).
    { destruct Hwf as [H1 H2]. cbn [rd_dec rd_eof rd_buf] in *. destruct (H2 eq_refl) as [H3 H4]. destruct Hr as ((Ro & Rj) & (c & Ec & Hc) & _).
      cbn [rd_dec rd_eof] in *. pose proof (next_state_good L safe s buf ob H1 H3 Hb) as Hg. rewrite He in Hg.
      destruct Hg as (Go & _ & Hg1 & Hg2 & Hg3 & Hg4 & _).
      unfold rd_rest in *. cbn [rd_buf rd_src] in *. split.
      - split; [split; [cbn [rd_dec]; congruence|exact I]|]. split; [|discriminate]. exists (c ++ firstn n buf). unfold rd_rest. cbn [rd_buf rd_src rd_dec]. split.
        + rewrite Ec, <- app_assoc. f_equal. now rewrite app_assoc, firstn_skipn.
        + refine (parsed_step L o (tabled file) any_data (fun _ _ _ => I) (any_lzw L) (any_lzw L) s buf _ ob s1 ob1 n DNothing c (any_keeps L _) (fun _ _ _ => I) H1 Ro _ Hb Hc Hst).
          pose proof file_ok as Hf. unfold bytes_ok in *. rewrite Ec, app_assoc in Hf. now apply Forall_app in Hf.
      - split; [exact Hg2|]. intros _. cbn [rd_dec rd_buf]. split; [exact Hg3|]. intros Q. destruct (Hg4 Q); [congruence|discriminate]. }
    destruct Hr1 as [Hr1 Hwf1]. specialize (IH Hwf1 Hr1). cbn [rd_dec rd_eof] in *.
    destruct x as [[d|]|[m|k]| | ]; try exact I.
    + destruct IH as [I1 I2]. split.
      * intros Hp. destruct (I1 Hp) as [Hq|Hq]; [|now right]. destruct (F Hq) as [Hq1|[p Hq1]]; [now left|discriminate Hq1].
      * destruct d; try exact I2. destruct (F I2) as [Hq1|[p Hq1]]; [exact Hq1|discriminate Hq1].
    + intros _ Hea. apply (IH eq_refl). destruct (nst_early L _ _ _ _ _ _ _ Hea Hst) as [Q|[Q _]]; [discriminate Q|exact Q].
    + eapply kept_blame; [|exact IH]. split; [eapply nst_kind, Hst|]. intros v ->. eapply nst_vec, Hst.
  - destruct (Hone _ _ _ _ _ _ _ _ Hb He Hwf Hr) as [Hst _]. intros _ Hea. cbn [rd_dec] in Hea.
    destruct Hea as [Q _]. inversion Hst; subst; try congruence.
    all: repeat match goal with Q : context [if ?x then _ else _] |- _ => destruct x end; discriminate.
  - exact (proj2 (Hone _ _ _ _ _ _ _ _ Hb He Hwf Hr)).
  - destruct e as [m|k]; [|exact I].
    destruct Hwf as [H1 H2]. cbn [rd_dec rd_eof rd_buf] in *. destruct (H2 eq_refl) as [H3 H4]. destruct Hr as ((Ro & Rj) & (c & Ec & Hc) & _).
    unfold rd_rest in *. cbn [rd_buf rd_src rd_dec] in *.
    rewrite Ec. eapply (step_blame L o); [exact H1|exact Ro| |exact Hb|exact Hc|].
    + pose proof file_ok as Hf. unfold bytes_ok in *. rewrite Ec, app_assoc in Hf. now apply Forall_app in Hf.
    + eapply next_state_nst; eassumption.
Qed.

Notation T3 := (fun _ _ _ => I).
Lemma next_reads r ob r' ob' x : rd_good L r -> reads r -> decode_next L r ob = (r', ob', x) ->
  match x with
  | Ok (Some d) => heard L o file any_data (any_reader L) (any_lzw L) (any_lzw L) r' d
  | Ok None => reads r' /\ rd_eof L r' = true
  | _ => True
  end.
Proof.
  apply (decode_next_reads L safe o file file_ok any_data T3 (any_reader L) (fun _ _ _ _ _ _ => I) (fun _ _ _ _ _ _ _ _ => I)
    (any_lzw L) (fun _ _ _ _ _ => I) (any_lzw L)). intros ob1 _. apply any_keeps.
Qed.

Lemma init_blame fuel : forall d, rd_good L (dc_rd L d) -> rd_eof L (dc_rd L d) = false -> early L (rd_dec L (dc_rd L d)) -> dreads d ->
  (past (rd_dec L (dc_rd L d)) = true -> cv_gpal (dc_conv L d) = None -> no_global) ->
  match init_loop L fuel d with
  | Err (DFormat m) => blame o file ONone (DFormat m)
  | Ok d' => cv_gpal (dc_conv L d') = None -> no_global
  | _ => True
  end.
Proof.
  induction fuel as [|fuel IH]; intros d Hr Heof He Hd Hpast; [exact I|]. cbn [init_loop]. destruct Hd as [Hd Hp].
  destruct (decode_next L (dc_rd L d) ONone) as [[r ob] x] eqn:E.
  pose proof (next_reads _ _ _ _ _ Hr Hd E) as Ha. pose proof (decode_next_dnext L safe _ _ _ _ _ (proj1 Hr) E) as Hdn.
  pose proof (dnext_early L safe _ _ _ _ _ Hdn (proj1 Hr) Heof He) as Hy.
  pose proof (dnext_facts _ _ _ _ _ Hdn (proj1 Hr) Hd) as Hf.
  apply decode_next_all in E; [|exact safe|exact Hr]. destruct E as (Hr' & _).
  destruct x as [[e|]|[m|k]| | ]; try exact I; [|contradiction (Hf Heof He)|exact Hf].
  destruct Hf as [Hf1 Hf2].
  assert (Hgo : forall d1, dc_rd L d1 = r -> dc_conv L d1 = dc_conv L d -> e <> DHeaderEnd -> reads r ->
    (forall p, e <> DGlobalPalette p) ->
    match init_loop L fuel d1 with
    | Err (DFormat m) => blame o file ONone (DFormat m)
    | Ok d' => cv_gpal (dc_conv L d') = None -> no_global
    | _ => True
    end).
  { intros d1 E1 E2 Hne Hh Hnp. destruct Hy as [Hy|(Y1 & Y2 & Y3)]; [contradiction|].
    apply IH; [rewrite E1; assumption..| |].
    - split; [now rewrite E1|]. now rewrite E2.
    - rewrite E1, E2. intros Hps. destruct (Hf1 Hps) as [Q|[p Q]]; [now apply Hpast|contradiction (Hnp p Q)]. }
  destruct e; cbn [heard] in *;
    try (match goal with |- context [init_loop L fuel ?d1] => refine (Hgo d1 eq_refl eq_refl _ Ha _) end; discriminate).
  - (* global palette *)
    destruct Hy as [Hy|(Y1 & Y2 & Y3)]; [discriminate Hy|]. destruct Ha as [Ha1 Ha2].
    apply IH; [assumption..| |].
    + split; [exact Ha2|]. cbn [dc_conv set_conv set_global_palette cv_gpal]. intros Q. apply Ha1. intros ->. now apply Q.
    + cbn [dc_conv set_conv set_global_palette cv_gpal]. intros _ Q. apply Hf2. revert Q. match goal with |- (if is_nil ?q then _ else _) = _ -> _ => destruct q end; [reflexivity|discriminate].
  - (* header end *)
    intros Q. apply (Hpast Hf2). revert Q. unfold fix_bg.
    destruct (cv_gpal (dc_conv L (set_rd L d r))) eqn:Eg; [destruct (_ <=? _)|]; cbn [dc_conv set_bg set_rd] in *; congruence.
  - (* metadata *) destruct Hy as [Hy|(Y1 & Y2 & Y3)]; [discriminate Hy|discriminate Y3].
Qed.

Lemma info_blame fuel : forall d d' m, rd_good L (dc_rd L d) -> dreads d -> (cv_gpal (dc_conv L d) = None -> no_global) ->
  next_frame_info_loop L fuel d = (d', Err (DFormat m)) ->
  blame o file ONone (DFormat m) \/ m = NoColorTable /\ bad_colors o file.
Proof.
  induction fuel as [|fuel IH]; intros d d' m Hr Hd Hg H; [discriminate H|]. cbn [next_frame_info_loop] in H. destruct Hd as [Hd Hp].
  destruct (decode_next L (dc_rd L d) ONone) as [[r ob] y] eqn:E.
  pose proof (next_reads _ _ _ _ _ Hr Hd E) as Ha. pose proof (decode_next_dnext L safe _ _ _ _ _ (proj1 Hr) E) as Hdn.
  pose proof (dnext_facts _ _ _ _ _ Hdn (proj1 Hr) Hd) as Hf.
  apply decode_next_all in E; [|exact safe|exact Hr]. destruct E as (Hr' & _ & _ & Hm).
  destruct y as [[e|]|e| | ]; try discriminate H.
  2:{ injection H as _ ->. left. exact Hf. }
  assert (Hgo : reads r -> next_frame_info_loop L fuel (set_rd L d r) = (d', Err (DFormat m)) ->
    blame o file ONone (DFormat m) \/ m = NoColorTable /\ bad_colors o file).
  { intros Hrr H1. apply IH in H1; [exact H1|exact Hr'|split; [exact Hrr|exact Hp]|exact Hg]. }
  destruct e; cbn [heard] in Ha; try (apply (Hgo Ha H)).
  { apply (Hgo (proj2 Ha) H). }
  destruct (Hm _ eq_refl) as (Hc & k & Hk). destruct (sd_current L (rd_dec L r)) as [f|] eqn:Ef; [|congruence].
  unfold frame_take in H. cbn zeta in H. destruct Hf as [_ Hf].
  cbn [set_cur set_rd dc_conv] in H.
  destruct (f_palette f) as [p|] eqn:Ep; [discriminate H|]. destruct (cv_gpal (dc_conv L d)) eqn:Ecv; [discriminate H|].
  injection H as _ <-. right. split; [reflexivity|]. destruct (Hf f Ef Ep) as (g & bs & i & q & A & B & C & D & F & G).
  exists g, bs, i, q. repeat (split; [assumption|]). split; [|exact G]. specialize (Hg eq_refl). unfold no_global in Hg. rewrite G in Hg.
  unfold front in Hg. rewrite <- !app_assoc, head_ten in Hg. exact Hg.
Qed.
End Dec.

Section Calls.
Variable L : lzw_codec.
Hypothesis safe : lzw_safe L.
Variable umax : N.
Hypothesis Humax : 2 ^ 32 - 1 <= umax.

Theorem open_blame src o m : src_ok src -> read_info L src o = Err (DFormat m) ->
  blame o (concat (map ev_bytes src)) ONone (DFormat m).
Proof.
  intros Hs H. pose proof (init_blame L safe o _ (src_bytes _ Hs) (ev_fuel L (dc_rd L (with_no_init L src o))) (with_no_init L src o)) as Q.
  unfold read_info in H. rewrite H in Q. apply Q; [apply (with_no_init_good L src o Hs)|reflexivity|split; [reflexivity|exact I]| |discriminate].
  split; [|intros R; now contradiction R]. split; [split; [reflexivity|exact I]|]. split; [|discriminate]. exists []. split; [reflexivity|].
  split; [|reflexivity]. repeat split; reflexivity.
Qed.
Theorem info_call_blame src o d os d1 ys d2 m : src_ok src -> limit_ok umax (o_limit o) -> Forall (op_ok umax) os -> read_info L src o = Ok d ->
  run_dops L umax d os = (d1, ys) -> Forall went_well ys -> next_frame_info L d1 = (d2, Err (DFormat m)) ->
  blame o (concat (map ev_bytes src)) ONone (DFormat m) \/ m = NoColorTable /\ bad_colors o (concat (map ev_bytes src)).
Proof.
  intros Hs Hl Ho Hi H Hy He. pose proof (src_bytes _ Hs) as Hf.
  destruct (read_info_whole L safe umax Humax o _ Hf any_data (fun _ _ _ => I) (any_reader L) (fun _ _ _ _ _ _ => I) (fun _ _ _ _ _ _ _ _ => I)
    (any_lzw L) (fun _ _ _ _ _ => I) I src d Hs eq_refl Hi) as (Hd & Hopt & Hr).
  assert (Hg : cv_gpal (dc_conv L d) = None -> no_global (concat (map ev_bytes src))).
  { pose proof (init_blame L safe o _ Hf (ev_fuel L (dc_rd L (with_no_init L src o))) (with_no_init L src o)) as Q.
    unfold read_info in Hi. rewrite Hi in Q. apply Q; [apply (with_no_init_good L src o Hs)|reflexivity|split; [reflexivity|exact I]| |discriminate].
    split; [|intros R; now contradiction R]. split; [split; [reflexivity|exact I]|]. split; [|discriminate]. exists []. split; [reflexivity|].
    split; [|reflexivity]. repeat split; reflexivity. }
  assert (Ha : alloc_ok L umax d) by (unfold alloc_ok; now rewrite Hopt).
  set (file := concat (map ev_bytes src)) in *. clearbody file. clear Hi Hopt Hs. revert d ys Hd Ha Hr Hg H Hy Ho.
  induction os as [|op os IH]; intros d ys Hd Ha Hr Hg H Hy Ho; cbn [run_dops] in H.
  { injection H as <- <-. eapply (info_blame L safe o file Hf); [exact (proj1 Hd)|exact Hr|exact Hg|exact He]. }
  destruct (run_dop L umax d op) as [d0 y] eqn:E. destruct (run_dops L umax d0 os) as [d3 ys1] eqn:E1. injection H as <- <-.
  apply Forall_cons_iff in Ho as [Ho1 Ho]. apply Forall_cons_iff in Hy as [Hy1 Hy].
  pose proof (run_dop_returns L safe umax Humax _ _ _ _ Hd Ha Ho1 E) as (_ & Hd1 & Hk).
  pose proof (dop_reads L safe umax Humax o file Hf any_data (fun _ _ _ => I) (any_reader L) (fun _ _ _ _ _ _ => I) (fun _ _ _ _ _ _ _ _ => I)
    (any_lzw L) (any_lzw L) (fun _ _ _ _ _ => I) (fun _ _ _ q => q) (fun s => any_keeps L (OSlice s)) (any_keeps L ONone)
    (fun s => any_keeps L (OVec s)) d op d0 y Hd Ha Ho1 Hr E Hy1) as [A _].
  eapply IH; [exact Hd1|exact (alloc_ok_kept L umax _ _ Hk Ha)|exact A| |exact E1|exact Hy|exact Ho].
  destruct Hk as [_ (_ & _ & Eg)]. rewrite Eg. exact Hg.
Qed.
End Calls.
