(** C72: which errors a call may return. *)
From Verif Require Import Base Common Lzw Encoder Stream Converter Reader
  StreamInv Steps ReaderInv Interlace Ranges  FrameDec ConvInv DecoderSafe DecInv SpecStream StreamProps DecProps SpecErrors.
Open Scope N_scope.

Section Err.
Variable L : lzw_codec.
Hypothesis safe : lzw_safe L.
Notation sd := (sd L).
Notation rd := (rd L).
Notation dcd := (dcd L).

Definition is_vec (ob : obuf) : bool := match ob with OVec _ => true | _ => false end.

(** Errors of single steps, with the states they occur in. *)
Definition step_error (s : sd) (ob : obuf) (e : derr) : Prop :=
  match e with
  | DFormat MalformedHeader => sd_state L s = Magic
  | DFormat FrameOutOfBounds => sd_state L s = ImageBlockStart /\ o_check_frame_consistency (sd_opts L s) = true
  | DFormat UnknownBlockType => exists t, sd_state L s = BlockStart t /\ (sd_header_end L s = true \/ t = 0x21)
  | DFormat MemoryLimitReached => o_limit (sd_opts L s) <> None /\
      exists k, sd_state L s = ExtensionDataBlock k \/ sd_state L s = CopySubBlock k /\ is_vec ob = true
  | DFormat ControlWrongLength => sd_state L s = ExtensionDataBlock 0
  | DFormat InvalidMinimalCodeSize => exists m, sd_state L s = LzwInit m
  | DIo InvalidData => o_skip_frame_decoding (sd_opts L s) = false /\ is_vec ob = false /\ exists k, sd_state L s = DecodeSubBlock k
  | DIo Unsupported => o_skip_frame_decoding (sd_opts L s) = false /\ is_vec ob = true /\ exists k, sd_state L s = DecodeSubBlock k
  | _ => False
  end.

Lemma lr_decode_err r data ob r1 ob1 e : lr_decoder L r <> None -> lr_decode_bytes L r data ob = (r1, ob1, Err e) ->
  e = (if is_vec ob then DIo Unsupported else DIo InvalidData).
Proof.
  unfold lr_decode_bytes. intros Hd H. destruct (lr_decoder L r) as [d|]; [|congruence].
  destruct ob as [s|v| ]; cbn [is_vec].
  - destruct (lz_decode L d data (length s)) as [d' [[n w] st]].
    destruct st; try discriminate H; try destruct (lr_check L r); congruence.
  - congruence.
  - destruct (lz_decode L d data (length (@nil N))) as [d' [[n w] st]].
    destruct st; try discriminate H; try destruct (lr_check L r); congruence.
Qed.

Lemma nst_error s buf ob s' ob' e : sd_wf L s -> nst L s buf ob s' ob' (Err e) -> step_error s ob e.
Proof.
  intros (_ & _ & _ & Hm) Hn. unfold mode_wf in Hm.
  inversion Hn; subst; cbn [step_error]; eauto.
  - split; [assumption|]. match goal with E : img_oob _ _ _ = true |- _ => apply img_oob_spec in E; tauto end.
  - split; [|eauto]. match goal with E : check_size _ _ = false |- _ => unfold check_size in E end.
    destruct (o_limit _); [discriminate|discriminate].
  - match goal with E : obuf_append _ _ _ = _ |- _ => unfold obuf_append in E; destruct ob' as [sl|v| ]; try discriminate E;
      destruct (check_size _ _) eqn:Ec in E; try discriminate E; injection E as <- end.
    split; [|eauto]. unfold check_size in Ec. destruct (o_limit _); discriminate.
  - match goal with E : sd_state L s = _ |- _ => rewrite E in Hm end. destruct Hm as [M1 M2].
    match goal with E : lr_decode_bytes _ _ _ _ = _ |- _ => apply lr_decode_err in E; [|exact M2]; subst e end.
    destruct (is_vec ob) eqn:Ev; cbn [step_error]; eauto.
  - match goal with E : sd_state L s = _ |- _ => rewrite E in Hm end. destruct Hm as [M1 M2].
    match goal with E : lr_decode_bytes _ _ _ _ = _ |- _ => apply lr_decode_err in E; [|exact M2]; subst e end.
    destruct (is_vec ob) eqn:Ev; cbn [step_error]; eauto.
Qed.

Lemma lr_same r data ob r1 ob1 x : lr_decode_bytes L r data ob = (r1, ob1, x) -> is_vec ob1 = is_vec ob.
Proof.
  unfold lr_decode_bytes. intros H. destruct (lr_decoder L r) as [d|]; [|congruence]. destruct ob as [s|v| ].
  - destruct (lz_decode L d data (length s)) as [d' [[n w] st]]. destruct st; try destruct (lr_check L r); injection H as _ <- _; reflexivity.
  - congruence.
  - destruct (lz_decode L d data (length (@nil N))) as [d' [[n w] st]]. destruct st; try destruct (lr_check L r); injection H as _ <- _; reflexivity.
Qed.
Lemma nst_same s buf ob s' ob' r : nst L s buf ob s' ob' r -> is_vec ob' = is_vec ob /\ sd_opts L s' = sd_opts L s.
Proof.
  intros Hn. inversion Hn; subst; sdcbn; try (split; reflexivity).
  - split; [reflexivity|]. unfold after_screen. destruct (negb _); reflexivity.
  - split; [reflexivity|]. unfold after_image. destruct (negb _); reflexivity.
  - split; [|reflexivity]. match goal with E : obuf_append _ _ _ = _ |- _ => unfold obuf_append in E; destruct ob as [sl|v| ];
      [|destruct (check_size _ _)|]; inversion E; reflexivity end.
  - split; [|reflexivity]. eapply lr_same; eassumption.
  - split; [|reflexivity]. eapply lr_same; eassumption.
  - split; [|reflexivity]. eapply lr_same; eassumption.
  - split; [|reflexivity]. eapply lr_same; eassumption.
Qed.

(** ** One call of [decode_next], for a set of states and the events that leave it *)
Section Phase.
Variable vec : bool.
Variable P : sd -> Prop.
Variable V : decoded -> sd -> Prop.
Variable E : derr -> Prop.
Hypothesis step : forall s buf ob s' ob' r, P s -> sd_wf L s -> is_vec ob = vec -> nst L s buf ob s' ob' r ->
  match r with
  | Ok (_, DNothing) => P s'
  | Ok (_, d) => V d s'
  | Err e => E e
  | Panic | Hang => True
  end.

Lemma dnext_phase r ob r' ob' x : dnext L r ob r' ob' x -> rd_wf L r -> P (rd_dec L r) -> is_vec ob = vec ->
  match x with
  | Ok (Some d) => V d (rd_dec L r')
  | Ok None => rd_eof L r = true \/ V (DBlockStart BkTrailer) (rd_dec L r')
  | Err e => E e \/ reader_error (rd_src L r) e
  | Panic | Hang => True
  end.
Proof.
  assert (Hv : forall buf src s ob s1 ob1 y, rd_wf L (mk_rd L buf src s false) -> buf <> [] ->
    next_state L s buf ob = (s1, ob1, y) -> is_vec ob1 = is_vec ob).
  { intros buf src s ob0 s1 ob1 y Hwf Hb He. exact (proj1 (nst_same _ _ _ _ _ _ (wf_nst L safe _ _ _ _ _ _ _ Hwf Hb He))). }
  assert (Hs : forall buf src s ob s1 ob1 y, rd_wf L (mk_rd L buf src s false) -> buf <> [] ->
    next_state L s buf ob = (s1, ob1, y) -> P s -> is_vec ob = vec ->
    match y with Ok (_, DNothing) => P s1 | Ok (_, d) => V d s1 | Err e => E e | Panic | Hang => True end).
  { intros buf src s ob0 s1 ob1 y Hwf Hb He Hp Ho. eapply step; [exact Hp|apply Hwf|exact Ho|eapply wf_nst; eassumption]. }
  induction 1 as [buf src s ob|k src s ob|s ob|src s ob|bs src s ob r' ob' x Hb Hn IH
    |buf src s ob s1 ob1 n r' ob' x Hb He Hn IH|buf src s ob s1 ob1 n Hb He
    |buf src s ob s1 ob1 n d Hb He Hd1 Hd2|pr buf src s ob s1 ob1 e Hb He]; intros Hwf Hp Ho.
  - left. reflexivity.
  - right. right. exists k. split; [left; reflexivity|reflexivity].
  - right. left. reflexivity.
  - right. left. reflexivity.
  - specialize (IH (wf_fill L _ _ _ _ _ Hwf eq_refl) Hp Ho).
    destruct x as [[d|]|e| | ]; try exact IH. destruct IH as [IH|[IH|(k & IH & ->)]]; [left; exact IH|right; left; exact IH|].
    right. right. exists k. split; [right; exact IH|reflexivity].
  - specialize (IH (wf_step L safe _ _ _ _ _ _ _ Hwf Hb He) (Hs _ _ _ _ _ _ _ Hwf Hb He Hp Ho)
      (eq_trans (Hv _ _ _ _ _ _ _ Hwf Hb He) Ho)). exact IH.
  - right. exact (Hs _ _ _ _ _ _ _ Hwf Hb He Hp Ho).
  - pose proof (Hs _ _ _ _ _ _ _ Hwf Hb He Hp Ho) as H. cbn in H. destruct d; try exact H. congruence.
  - left. exact (Hs _ _ _ _ _ _ _ Hwf Hb He Hp Ho).
Qed.
End Phase.

Lemma dnext_src r ob r' ob' x : dnext L r ob r' ob' x -> incl (rd_src L r') (rd_src L r).
Proof.
  induction 1; cbn [rd_src] in *; try apply incl_refl; try (apply incl_tl; try apply incl_refl; assumption); assumption.
Qed.
Lemma hist_src src o r : src_ok src -> hist L src o r -> incl (rd_src L r) src.
Proof.
  intros Hs. induction 1 as [|r ob r' ob' x Hr IH E|r ob r' ob' t f Hr IH E Ef].
  - apply incl_refl.
  - destruct (hist_good L safe src o Hs r Hr) as [(Hw & _) _].
    eapply incl_tran; [eapply dnext_src, decode_next_dnext; eassumption|exact IH].
  - destruct (hist_good L safe src o Hs r Hr) as [(Hw & _) _].
    eapply incl_tran; [exact (dnext_src _ _ _ _ _ (decode_next_dnext L safe _ _ _ _ _ Hw E))|exact IH].
Qed.
Lemma reader_error_incl a b e : incl a b -> reader_error a e -> reader_error b e.
Proof. intros H [->|(k & A & ->)]; [now left|right; eauto]. Qed.

Ltac rewrite_state := try match goal with E : sd_state L ?s = _, H : context [sd_state L ?s] |- _ => rewrite E in H end.

Ltac break_up := repeat match goal with
  | H : _ /\ _ |- _ => destruct H
  | H : exists _, _ |- _ => destruct H
  | H : _ \/ _ |- _ => destruct H
  end.

(** ** The phases *)
Section Phases.
Variable o : options.

(** After the screen descriptor. *)
Definition body_errors : list derr :=
  DIo InvalidData ::
  map DFormat [UnknownBlockType; ControlWrongLength; MemoryLimitReached; FrameOutOfBounds; InvalidMinimalCodeSize].
Definition in_body (s : sd) : Prop := sd_state L s <> Magic /\ sd_opts L s = o.
Definition body_event (_ : decoded) (s : sd) : Prop := in_body s.
Lemma body_step s buf ob s' ob' r : in_body s -> sd_wf L s -> is_vec ob = false -> nst L s buf ob s' ob' r ->
  match r with
  | Ok (_, DNothing) => in_body s'
  | Ok (_, d) => body_event d s'
  | Err e => In e body_errors /\ with_options o e
  | Panic | Hang => True
  end.
Proof.
  intros [H1 H2] Hw Hv Hn.
  assert (G : in_body s').
  { destruct (nst_same _ _ _ _ _ _ Hn) as [_ Ho]. split; [|congruence].
    clear - H1 Hn. inversion Hn; subst; try contradiction; sdcbn; try assumption; try discriminate;
      try (unfold after_screen; destruct (negb _); discriminate); try (unfold after_image; destruct (negb _); discriminate);
      try (destruct (w =? 0)%nat; discriminate). }
  destruct r as [[n d]|e| | ]; try exact I; [destruct d; exact G|].
  pose proof (nst_error _ _ _ _ _ _ Hw Hn) as He. rewrite <- H2.
  unfold step_error in He. destruct e as [m|k]; [destruct m|destruct k]; try contradiction;
    try (exfalso; destruct He as (_ & A & _); congruence); cbn [with_options];
    (split; [cbn; tauto|]); try exact I; tauto.
Qed.

(** While the pixels of a frame are decoded. *)
Definition in_pixels (s : sd) : Prop :=
  ((exists k, sd_state L s = DecodeSubBlock k) \/ sd_state L s = FrameDecoded) /\ sd_opts L s = o.
Definition pixel_event (d : decoded) (s : sd) : Prop := (exists w, d = DBytesDecoded w) /\ in_pixels s \/ d = DDataEnd.
Lemma pixel_step s buf ob s' ob' r : in_pixels s -> sd_wf L s -> is_vec ob = false -> nst L s buf ob s' ob' r ->
  match r with
  | Ok (_, DNothing) => in_pixels s'
  | Ok (_, d) => pixel_event d s'
  | Err e => e = DIo InvalidData /\ o_skip_frame_decoding o = false
  | Panic | Hang => True
  end.
Proof.
  intros [H1 H2] Hw Hv Hn. destruct (nst_same _ _ _ _ _ _ Hn) as [_ Ho]. rewrite H2 in Ho.
  destruct r as [[n d]|e| | ]; try exact I.
  - assert (Hd : match sd_state L s with DecodeSubBlock _ | FrameDecoded => True | _ => False end)
      by (destruct H1 as [[k ->]| ->]; exact I).
    clear H1. inversion Hn; subst; rewrite_state; try contradiction;
      try match goal with E : is_hdr (sd_state L s) = true |- _ => destruct (sd_state L s); try discriminate E; contradiction end.
    + split; [left; eexists; reflexivity|exact Ho].
    + destruct (w =? 0)%nat; [|left; split; [eauto|]]; (split; [left; eexists; reflexivity|exact Ho]).
    + split; [left; eexists; reflexivity|exact Ho].
    + destruct (w =? 0)%nat; [|left; split; [eauto|]]; (split; [|exact Ho]); [right; reflexivity|left; eexists; reflexivity].
    + right. reflexivity.
  - pose proof (nst_error _ _ _ _ _ _ Hw Hn) as He. rewrite <- H2. unfold step_error in He.
    destruct H1 as [[k H1]|H1]; rewrite H1 in He; destruct e as [m|k0]; [destruct m|destruct k0|destruct m|destruct k0];
      try contradiction; break_up; try discriminate; try congruence; split; [reflexivity|assumption].
Qed.

(** While the compressed data of a frame are copied. *)
Definition in_copy (s : sd) : Prop :=
  ((exists k, sd_state L s = CopySubBlock k) \/ sd_state L s = FrameDecoded) /\ sd_opts L s = o.
Definition copy_event (d : decoded) (s : sd) : Prop := (exists w, d = DLzwDataCopied w) /\ in_copy s \/ d = DDataEnd.
Lemma copy_step s buf ob s' ob' r : in_copy s -> sd_wf L s -> is_vec ob = true -> nst L s buf ob s' ob' r ->
  match r with
  | Ok (_, DNothing) => in_copy s'
  | Ok (_, d) => copy_event d s'
  | Err e => e = DFormat MemoryLimitReached /\ o_limit o <> None
  | Panic | Hang => True
  end.
Proof.
  intros [H1 H2] Hw Hv Hn. destruct (nst_same _ _ _ _ _ _ Hn) as [_ Ho]. rewrite H2 in Ho.
  destruct r as [[n d]|e| | ]; try exact I.
  - assert (Hd : match sd_state L s with CopySubBlock _ | FrameDecoded => True | _ => False end)
      by (destruct H1 as [[k ->]| ->]; exact I).
    clear H1. inversion Hn; subst; rewrite_state; try contradiction;
      try match goal with E : is_hdr (sd_state L s) = true |- _ => destruct (sd_state L s); try discriminate E; contradiction end.
    + left. split; [eauto|]. split; [left; eexists; reflexivity|exact Ho].
    + split; [left; eexists; reflexivity|exact Ho].
    + split; [right; reflexivity|exact Ho].
    + right. reflexivity.
  - pose proof (nst_error _ _ _ _ _ _ Hw Hn) as He. rewrite <- H2. unfold step_error in He.
    destruct H1 as [[k H1]|H1]; rewrite H1 in He; destruct e as [m|k0]; [destruct m|destruct k0|destruct m|destruct k0];
      try contradiction; break_up; try discriminate; try congruence; split; [reflexivity|assumption].
Qed.

(** Up to the end of the header. *)
Definition opening (s : sd) : Prop :=
  sd_header_end L s = false /\ sd_opts L s = o /\
  match sd_state L s with
  | Magic | ScreenDescriptor | GlobalPalette _ | BlockStart _ | BlockEnd | ExtensionBlockStart | ExtensionDataBlock _
  | ApplicationExtension => True
  | _ => False
  end.
Definition opening_event (d : decoded) (s : sd) : Prop := d = DHeaderEnd \/ d <> DBlockStart BkTrailer /\ opening s.
Lemma opening_step s buf ob s' ob' r : opening s -> sd_wf L s -> is_vec ob = false -> nst L s buf ob s' ob' r ->
  match r with
  | Ok (_, DNothing) => opening s'
  | Ok (_, d) => opening_event d s'
  | Err e => In e open_errors /\ with_options o e
  | Panic | Hang => True
  end.
Proof.
  intros (H0 & H2 & H1) Hw Hv Hn. destruct (nst_same _ _ _ _ _ _ Hn) as [_ Ho]. rewrite H2 in Ho.
  destruct r as [[n d]|e| | ]; try exact I.
  - unfold opening_event, opening. inversion Hn; subst; sdcbn; rewrite_state; try contradiction; try congruence;
      try (unfold after_screen; destruct (negb _)); sdcbn; try (left; reflexivity); 
      try (right; split; [discriminate|]); try (repeat split; assumption || exact I).
    destruct (is_netscape (sd_ext_data L s)); [right; split; [discriminate|]|]; repeat split; assumption.
  - pose proof (nst_error _ _ _ _ _ _ Hw Hn) as He. rewrite <- H2. unfold step_error in He.
    destruct e as [m|k0]; [destruct m|destruct k0]; try contradiction; break_up;
      try (split; [cbn; tauto|exact I || assumption]);
      try (exfalso; match goal with E : sd_state L s = _ |- _ => rewrite E in H1; exact H1 end).
Qed.
End Phases.

(** ** The pixel converter with a source that reports certain errors *)
Section ConvErr.
Variable umax : N.
Variable St : Type.
Variable cb : St -> obuf -> St * obuf * dres nat.
Variable Inv : St -> Prop.
Variable E : derr -> Prop.
Hypothesis cb_err : forall x s x' ob' r, Inv x -> cb x (OSlice s) = (x', ob', r) ->
  match r with Ok (Datatypes.S _) => Inv x' | Err e => E e | _ => True end.

Definition odd_error (c : conv) (e : derr) : Prop := e = DFormat OddSizedBuffer /\ cv_color c = CRgba.

Lemma fill_loop_err f : forall fuel x c done buf x' c' b' r, Inv x ->
  fill_loop St cb fuel x c f done buf = (x', c', b', r) ->
  cv_color c' = cv_color c /\
  match r with Ok true => Inv x' | Err e => E e \/ odd_error c e | _ => True end.
Proof.
  induction fuel as [|fuel IH]; intros x c done buf x' c' b' r Hx H; cbn [fill_loop] in H.
  { injection H as <- <- <- <-. split; [reflexivity|exact I]. }
  destruct (cv_color c) eqn:Ec.
  - destruct (length buf / 4 =? 0)%nat.
    { injection H as <- <- <- <-. split; [exact Ec|]. right. split; [reflexivity|exact Ec]. }
    cbn zeta in H.
    match type of H with context [cb x ?s] => destruct (cb x s) as [[x1 ob] y] eqn:Ecb end.
    apply cb_err in Ecb; [|exact Hx].
    destruct y as [n|e| | ]; try (injection H as <- <- <- <-; split; [exact Ec|first [exact I|left; exact Ecb]]).
    destruct n as [|n]; [injection H as <- <- <- <-; split; [exact Ec|exact I]|].
    destruct (length buf <? Datatypes.S n * 4)%nat; [injection H as <- <- <- <-; split; [exact Ec|exact I]|].
    match type of H with (if is_nil ?b then _ else _) = _ => destruct (is_nil b) end.
    + injection H as <- <- <- <-. split; [exact Ec|exact Ecb].
    + apply IH in H; [|exact Ecb]. destruct H as [H1 H2]. cbn [with_cbuf cv_color] in H1. split; [congruence|].
      destruct r as [[|]|e| | ]; exact H2.
  - match type of H with context [cb x ?s] => destruct (cb x s) as [[x1 ob] y] eqn:Ecb end.
    apply cb_err in Ecb; [|exact Hx].
    destruct y as [n|e| | ]; try (injection H as <- <- <- <-; split; [exact Ec|first [exact I|left; exact Ecb]]).
    destruct n as [|n]; [injection H as <- <- <- <-; split; [exact Ec|exact I]|].
    destruct (length (obuf_bytes ob) <? Datatypes.S n)%nat; [injection H as <- <- <- <-; split; [exact Ec|exact I]|].
    cbn zeta in H.
    match type of H with (if is_nil ?b then _ else _) = _ => destruct (is_nil b) end.
    + injection H as <- <- <- <-. split; [exact Ec|exact Ecb].
    + apply IH in H; [|exact Ecb]. destruct H as [H1 H2]. split; [congruence|exact H2].
Qed.

Definition conv_error (c : conv) (e : derr) : Prop := E e \/ odd_error c e \/ e = DFormat ImageTruncated.

Lemma read_rows_err f : forall rows x c buf x' c' b' r, Inv x ->
  read_rows umax St cb rows x c f buf = (x', c', b', r) ->
  match r with Err e => conv_error c e \/ e = DFormat BufferTooSmall | _ => True end.
Proof.
  induction rows as [|row rows IH]; intros x c buf x' c' b' r Hx H; cbn [read_rows] in H.
  { injection H as <- <- <- <-. exact I. }
  destruct (umax <? _); [injection H as <- <- <- <-; exact I|].
  destruct (_ && _); [|injection H as <- <- <- <-; right; reflexivity].
  match type of H with context [conv_fill_buffer St cb x c f ?b] =>
    destruct (conv_fill_buffer St cb x c f b) as [[[x1 c1] line] y] eqn:Ef end.
  apply fill_loop_err in Ef; [|exact Hx]. destruct Ef as [Hc Ef]. unfold conv_error, odd_error in *.
  destruct y as [[|]|e| | ]; try (injection H as <- <- <- <-; tauto).
  apply IH in H; [|exact Ef]. rewrite Hc in H. exact H.
Qed.

Lemma read_into_err x c f buf x' c' b' r : Inv x -> conv_read_into_buffer umax St cb x c f buf = (x', c', b', r) ->
  match r with Err e => conv_error c e \/ e = DFormat BufferTooSmall | _ => True end.
Proof.
  intros Hx H. unfold conv_read_into_buffer in H. destruct (f_interlaced f); [eapply read_rows_err; eassumption|].
  destruct (buffer_size umax c f) as [n|]; [|injection H as <- <- <- <-; right; reflexivity].
  destruct (n <=? len buf); [|injection H as <- <- <- <-; right; reflexivity]. cbn zeta in H.
  match type of H with context [conv_fill_buffer St cb x c f ?b] =>
    destruct (conv_fill_buffer St cb x c f b) as [[[x1 c1] line] y] eqn:Ef end.
  apply fill_loop_err in Ef; [|exact Hx]. destruct Ef as [Hc Ef]. unfold conv_error, odd_error in *.
  destruct y as [[|]|e| | ]; injection H as <- <- <- <-; tauto.
Qed.

(** [read_frame] always passes a large enough buffer. *)
Variable Inv2 : St -> Prop.
Hypothesis cb_ok : forall x s x' ob' r, Inv2 x -> cb x (OSlice s) = (x', ob', r) ->
  Inv2 x' /\ (exists s', ob' = OSlice s' /\ length s' = length s) /\
  match r with Ok n => (n <= length s)%nat | Err _ => True | Panic | Hang => False end.

Lemma read_rows_fits f h : forall rows x c buf x' c' b' r, Inv x -> Inv2 x -> (forall row, In row rows -> N.of_nat row < h) ->
  line_length c f * h <= len buf -> read_rows umax St cb rows x c f buf = (x', c', b', r) ->
  match r with Err e => conv_error c e | _ => True end.
Proof.
  induction rows as [|row rows IH]; intros x c buf x' c' b' r Hx Hx2 Hr Hl H; cbn [read_rows] in H.
  { injection H as <- <- <- <-. exact I. }
  destruct (umax <? _); [injection H as <- <- <- <-; exact I|].
  pose proof (Hr row (or_introl eq_refl)) as Hrow.
  assert (Hfit : N.of_nat row * line_length c f + line_length c f <= len buf) by nia.
  destruct (_ && _) eqn:Eb.
  2:{ exfalso. apply andb_false_iff in Eb. rewrite !N.leb_gt in Eb. lia. }
  set (width := line_length c f) in *. set (start := N.of_nat row * width) in *.
  destruct (conv_fill_buffer St cb x c f (firstn (N.to_nat width) (skipn (N.to_nat start) buf)))
    as [[[x1 c1] line] y] eqn:Ef.
  pose proof Ef as Ef2. apply (conv_fill_buffer_ok _ _ Inv2 cb_ok) in Ef2; [|exact Hx2].
  destruct Ef2 as (Hx1 & Hline & Hss & _).
  apply fill_loop_err in Ef; [|exact Hx]. destruct Ef as [Hc Ef]. unfold conv_error, odd_error in *.
  rewrite firstn_length, skipn_length in Hline.
  set (buf1 := firstn (N.to_nat start) buf ++ line ++ skipn (N.to_nat width) (skipn (N.to_nat start) buf)) in *.
  assert (Hb1 : length buf1 = length buf).
  { unfold buf1. rewrite !app_length, firstn_length, !skipn_length, Hline. unfold len in *. lia. }
  destruct y as [[|]|e| | ]; try (injection H as <- <- <- <-; tauto).
  apply IH in H; [rewrite Hc in H; exact H|exact Ef|exact Hx1|intros; apply Hr; right; assumption|].
  rewrite (line_length_settings _ _ f Hss). fold width. unfold len in *. rewrite Hb1. exact Hl.
Qed.

Lemma read_into_fits x c f buf m x' c' b' r : u16_ok (f_width f) -> u16_ok (f_height f) -> Inv x -> Inv2 x ->
  check_buffer_size umax c f = Ok m -> length buf = N.to_nat m ->
  conv_read_into_buffer umax St cb x c f buf = (x', c', b', r) ->
  match r with Err e => conv_error c e | _ => True end.
Proof.
  intros Hw Hh Hx Hx2 Eck Hg Ef. pose proof (check_buffer_size_ok umax c f Hw Hh) as Hc. rewrite Eck in Hc.
  destruct Hc as [Hm _]. unfold conv_read_into_buffer in Ef. destruct (f_interlaced f).
  - eapply (read_rows_fits _ (f_height f)); [exact Hx|exact Hx2| | |exact Ef].
    + intros row Hr. rewrite interlace_rows_order in Hr. apply gif_row_order_in in Hr. lia.
    + unfold len. rewrite Hg. unfold line_length in *. lia.
  - assert (Hbs : buffer_size umax c f = Some m).
    { unfold check_buffer_size in Eck. destruct (limit_buffer_size _ _ _ _ _); [|discriminate].
      destruct (buffer_size umax c f) as [q|]; [|discriminate]. destruct (N.eqb_spec n q); [|discriminate]. congruence. }
    rewrite Hbs in Ef. destruct (N.leb_spec m (len buf)) as [Hle|Hle]; [|unfold len in Hle; lia]. cbn zeta in Ef.
    destruct (conv_fill_buffer St cb x c f (firstn (N.to_nat m) buf)) as [[[x2 c2] b2] z] eqn:Efb.
    apply fill_loop_err in Efb; [|exact Hx]. destruct Efb as [_ Efb]. unfold conv_error.
    destruct z as [[|]|e| | ]; injection Ef as <- <- <- <-; tauto.
Qed.
Lemma check_size_err c f e : check_buffer_size umax c f = Err e -> e = DIo OutOfMemory.
Proof.
  unfold check_buffer_size. destruct (limit_buffer_size _ _ _ _ _); [|congruence].
  destruct (buffer_size umax c f); [destruct (_ =? _)|]; discriminate.
Qed.

Lemma read_frame_err x c f x' c' f' r : u16_ok (f_width f) -> u16_ok (f_height f) -> Inv x -> Inv2 x ->
  conv_read_frame umax St cb x c f = (x', c', f', r) ->
  match r with Err e => conv_error c e \/ e = DIo OutOfMemory | _ => True end.
Proof.
  intros Hw Hh Hx Hx2 H. unfold conv_read_frame in H.
  destruct (check_buffer_size umax c f) as [m|e| | ] eqn:Eck; try (injection H as <- <- <- <-; exact I).
  2:{ injection H as <- <- <- <-. right. exact (check_size_err _ _ _ Eck). }
  cbn zeta in H.
  destruct (umax / 2 <? m); [injection H as <- <- <- <-; exact I|].
  destruct (conv_read_into_buffer umax St cb x c (set_buffer f []) (grow (firstn (N.to_nat m) (f_buffer f)) (N.to_nat m)))
    as [[[x1 c1] b] y] eqn:Ef.
  assert (Hg : length (grow (firstn (N.to_nat m) (f_buffer f)) (N.to_nat m)) = N.to_nat m)
    by (apply grow_length; rewrite firstn_length; lia).
  apply (read_into_fits _ _ (set_buffer f []) _ m) in Ef; [|exact Hw|exact Hh|exact Hx|exact Hx2|exact Eck|exact Hg].
  destruct y as [u|e| | ]; injection H as <- <- <- <-; try exact I. left. exact Ef.
Qed.
End ConvErr.

(** ** The calls *)
Variable umax : N.
Hypothesis Humax : 2 ^ 32 - 1 <= umax.
Variable src : list revent.
Variable o : options.
Hypothesis Hs : src_ok src.

Lemma among_incl l l' e : incl l l' -> among l src o e -> among l' src o e.
Proof. intros H [[A B]|A]; [left; auto|right; exact A]. Qed.

Lemma init_loop_err fuel : forall d e, hist L src o (dc_rd L d) -> opening o (rd_dec L (dc_rd L d)) -> rd_eof L (dc_rd L d) = false ->
  init_loop L fuel d = Err e -> among open_errors src o e.
Proof.
  induction fuel as [|fuel IH]; intros d e Hh Ho Heof H; [discriminate H|]. cbn [init_loop] in H.
  destruct (decode_next L (dc_rd L d) ONone) as [[r ob] x] eqn:Ed.
  destruct (hist_good L safe src o Hs _ Hh) as [(Hw & _) _].
  pose proof (h_next _ _ _ _ _ _ _ _ Hh Ed) as Hh1.
  pose proof (decode_next_dnext L safe _ _ _ _ _ Hw Ed) as Hdn.
  pose proof (dnext_phase false (opening o) (opening_event o) _ (opening_step o) _ _ _ _ _ Hdn Hw Ho eq_refl) as Hp.
  assert (He : forall ev, x = Ok (Some ev) -> rd_eof L r = false).
  { clear - Hdn. intros ev. remember (dc_rd L d) as r0. clear Heqr0. induction Hdn; try discriminate; auto. }
  destruct x as [[ev|]|e1| | ]; try discriminate H.
  - specialize (He ev eq_refl).
    destruct Hp as [->|[_ Hp]]; [discriminate H|].
    destruct ev; try (eapply IH; [| | |exact H]; assumption). discriminate H.
  - destruct Hp as [Hp|[Hp|[Hp _]]]; [congruence|discriminate Hp|contradiction].
  - injection H as <-. destruct Hp as [Hp|Hp]; [left; exact Hp|right; eapply reader_error_incl; [|exact Hp]; eapply hist_src; eassumption].
Qed.
Theorem read_info_err e : read_info L src o = Err e -> among open_errors src o e.
Proof.
  intros H. unfold read_info in H. eapply init_loop_err; [| | |exact H]; [apply h_new| |reflexivity].
  unfold opening. cbn. auto.
Qed.

Hypothesis Ha : limit_ok umax (o_limit o).

Definition body_rd (r : rd) : Prop := hist L src o r /\ in_body o (rd_dec L r).
Lemma body_next r ob r' ob' x : body_rd r -> is_vec ob = false -> decode_next L r ob = (r', ob', x) ->
  body_rd r' /\ match x with Err e => among body_errors src o e | _ => True end.
Proof.
  intros [Hh Hb] Hv Ed. destruct (hist_good L safe src o Hs _ Hh) as [(Hw & _) _].
  pose proof (h_next _ _ _ _ _ _ _ _ Hh Ed) as Hh1.
  pose proof (decode_next_dnext L safe _ _ _ _ _ Hw Ed) as Hdn. split.
  - split; [exact Hh1|]. refine (dnext_inv L safe (in_body o) _ _ _ _ _ _ Hdn Hw Hb).
    intros s buf ob0 s' ob0' y A B C. destruct (nst_same _ _ _ _ _ _ C) as [_ Hso]. destruct A as [A1 A2]. split; [|congruence].
    clear - A1 C. inversion C; subst; try contradiction; sdcbn; try assumption; try discriminate;
      try (unfold after_screen; destruct (negb _); discriminate); try (unfold after_image; destruct (negb _); discriminate);
      try (destruct (w =? 0)%nat; discriminate).
  - pose proof (dnext_phase false (in_body o) (body_event o) _ (body_step o) _ _ _ _ _ Hdn Hw Hb Hv) as Hp.
    destruct x as [y|e| | ]; try exact I. destruct Hp as [Hp|Hp]; [left; exact Hp|right].
    eapply reader_error_incl; [|exact Hp]. eapply hist_src; eassumption.
Qed.

Lemma opened_body d : opened L umax src o d -> body_rd (dc_rd L d).
Proof.
  intros Hd. destruct (opened_good L umax safe Humax src o Hs d Ha Hd) as (_ & Ho & Hh).
  destruct (opened_screen L umax safe Humax src o Hs Ha d Hd) as ((Hm & _) & _). split; [exact Hh|]. split; [exact Hm|exact Ho].
Qed.

Lemma next_frame_info_loop_err fuel : forall d d' e, body_rd (dc_rd L d) -> next_frame_info_loop L fuel d = (d', Err e) ->
  among seek_errors src o e.
Proof.
  induction fuel as [|fuel IH]; intros d d' e Hb H; cbn [next_frame_info_loop] in H; [discriminate H|].
  destruct (decode_next L (dc_rd L d) ONone) as [[r ob] y] eqn:E.
  destruct (body_next _ ONone _ _ _ Hb eq_refl E) as [Hr He].
  destruct y as [[ev|]|e1| | ]; try discriminate H.
  - destruct ev; try (eapply IH; [|exact H]; exact Hr).
    destruct (sd_current L (rd_dec L r)) as [f|]; [|discriminate H]. cbn [frame_take] in H.
    destruct (f_palette f); [|destruct (cv_gpal _)]; try discriminate H. injection H as _ <-. left. split; [cbn; tauto|exact I].
  - injection H as _ <-. eapply among_incl; [|exact He]. intros z Hz. cbn in *. tauto.
Qed.
Theorem next_frame_info_err d d' e : opened L umax src o d -> next_frame_info L d = (d', Err e) -> among seek_errors src o e.
Proof. intros Hd. apply next_frame_info_loop_err, opened_body, Hd. Qed.

(** Directly after the announcement of a frame. *)
Lemma fresh_frame d d' : opened L umax src o d -> next_frame_info L d = (d', Ok true) ->
  hist L src o (dc_rd L d') /\ rd_good L (dc_rd L d') /\ dcd_good L d' /\
  match dc_ty L d' with
  | FPixels => in_pixels o (rd_dec L (dc_rd L d')) /\ o_skip_frame_decoding o = false
  | FLzw _ => in_copy o (rd_dec L (dc_rd L d')) /\ o_skip_frame_decoding o = true
  end.
Proof.
  intros Hd H. destruct (opened_good L umax safe Humax src o Hs d Ha Hd) as (Hg & Ho & Hh).
  destruct (next_frame_info_returns L safe umax Humax d d' _ Hg H) as (_ & Hg' & _).
  pose proof (next_frame_info_loop_hist L src o _ _ _ _ Hh H) as Hh'.
  destruct (hist_good L safe src o Hs _ Hh') as [Hgr Hor].
  split; [exact Hh'|]. split; [exact Hgr|]. split; [exact Hg'|].
  destruct (next_frame_info_loop_cur L src o _ _ _ _ Hh H) as [[_ A]|(r & ob & r' & ob' & t & C1 & C2 & C3 & C4 & C5)]; [congruence|].
  destruct (hist_good L safe src o Hs _ C1) as [Hg1 _].
  destruct (decode_next_all L safe _ _ _ _ _ Hg1 C2) as (_ & _ & _ & Hm).
  destruct (Hm t eq_refl) as [_ (k & Hst)].
  destruct Hgr as ((Hwf & _) & _). destruct Hwf as (_ & _ & _ & Hmo). unfold mode_wf in Hmo. rewrite C5.
  rewrite C4 in *. cbn [taken_rd rd_dec] in *. unfold in_pixels, in_copy. sdcbn. sdcbn_in Hmo. sdcbn_in Hor.
  destruct Hst as [[A ->]|(m & A & ->)]; rewrite A in Hmo |- *.
  - split; [|rewrite <- Hor; apply Hmo]. split; [left; eauto|exact Hor].
  - split; [|rewrite <- Hor; exact Hmo]. split; [left; eauto|exact Hor].
Qed.

Lemma dnext_eof r ob r' ob' x : dnext L r ob r' ob' x -> rd_wf L r -> rd_eof L r' = true ->
  sd_state L (rd_dec L r') = Trailer \/ r' = r.
Proof.
  induction 1 as [buf rs s ob|k rs s ob|s ob|rs s ob|bs rs s ob r' ob' x Hb Hn IH
    |buf rs s ob s1 ob1 n r' ob' x Hb He Hn IH|buf rs s ob s1 ob1 n Hb He
    |buf rs s ob s1 ob1 n d Hb He Hd1 Hd2|pr buf rs s ob s1 ob1 e Hb He]; intros Hwf Hx; cbn [rd_eof rd_dec] in *; try discriminate Hx.
  - right. reflexivity.
  - destruct (IH (wf_fill L _ _ _ _ _ Hwf eq_refl) Hx) as [A|A]; [left; exact A|]. subst r'. discriminate Hx.
  - destruct (IH (wf_step L safe _ _ _ _ _ _ _ Hwf Hb He) Hx) as [A|A]; [left; exact A|]. subst r'. discriminate Hx.
  - left. pose proof (wf_nst L safe _ _ _ _ _ _ _ Hwf Hb He) as Hn. inversion Hn; subst; try congruence; try reflexivity;
      repeat match goal with H : context [if ?b then _ else _] |- _ => destruct b end; discriminate || reflexivity.
Qed.
Lemma hist_eof_trailer r : hist L src o r -> rd_eof L r = true -> sd_state L (rd_dec L r) = Trailer.
Proof.
  induction 1 as [|r ob r' ob' x Hr IH E|r ob r' ob' t f Hr IH E Ef]; intros He.
  - discriminate He.
  - destruct (hist_good L safe src o Hs r Hr) as [(Hw & _) _].
    destruct (dnext_eof _ _ _ _ _ (decode_next_dnext L safe _ _ _ _ _ Hw E) Hw He) as [A|A]; [exact A|]. subst r'. auto.
  - destruct (hist_good L safe src o Hs r Hr) as [(Hw & _) _].
    destruct (dnext_eof _ _ _ _ _ (decode_next_dnext L safe _ _ _ _ _ Hw E) Hw He) as [A|A]; [exact A|]. subst r'. exact (IH He).
Qed.

(** The pixel source in the two phases. *)
Definition pixel_rd (r : rd) : Prop := hist L src o r /\ in_pixels o (rd_dec L r).
Definition pixel_error (e : derr) : Prop := e = DIo InvalidData /\ o_skip_frame_decoding o = false \/ reader_error src e.
Lemma pixel_cb r s r' ob' x : pixel_rd r -> decode_next_bytes L r (OSlice s) = (r', ob', x) ->
  match x with Ok (Datatypes.S _) => pixel_rd r' | Err e => pixel_error e | _ => True end.
Proof.
  intros [Hh Hp] H. unfold decode_next_bytes in H.
  destruct (decode_next L r (OSlice s)) as [[r1 ob1] y] eqn:E.
  destruct (hist_good L safe src o Hs _ Hh) as [(Hw & _) _].
  assert (Heof : rd_eof L r = false).
  { destruct Hp as [Hp _]. destruct (rd_eof L r) eqn:Ee; [|reflexivity]. exfalso.
    pose proof (hist_eof_trailer r Hh Ee) as Ht. rewrite Ht in Hp. destruct Hp as [[k Hp]|Hp]; discriminate Hp. }
  pose proof (dnext_phase false (in_pixels o) (pixel_event o) _ (pixel_step o) _ _ _ _ _
    (decode_next_dnext L safe _ _ _ _ _ Hw E) Hw Hp eq_refl) as Hd.
  pose proof (h_next _ _ _ _ _ _ _ _ Hh E) as Hh1.
  destruct y as [[ev|]|e| | ].
  - destruct Hd as [[[w ->] Hd]| ->]; injection H as <- <- <-; [destruct w; [exact I|split; assumption]|exact I].
  - destruct Hd as [Hd|[[[w Hd] _]|Hd]]; [congruence|discriminate Hd..].
  - injection H as <- <- <-. destruct Hd as [Hd|Hd]; [left; exact Hd|right].
    eapply reader_error_incl; [|exact Hd]. eapply hist_src; eassumption.
  - injection H as <- <- <-. exact I.
  - injection H as <- <- <-. exact I.
Qed.

Definition body_error (e : derr) : Prop := among (DFormat UnexpectedDataMsg :: body_errors) src o e.
Lemma body_cb r s r' ob' x : body_rd r -> decode_next_bytes L r (OSlice s) = (r', ob', x) ->
  match x with Ok (Datatypes.S _) => body_rd r' | Err e => body_error e | _ => True end.
Proof.
  intros Hb H. unfold decode_next_bytes in H.
  destruct (decode_next L r (OSlice s)) as [[r1 ob1] y] eqn:E.
  destruct (body_next _ (OSlice s) _ _ _ Hb eq_refl E) as [Hr He].
  assert (U : body_error (DFormat UnexpectedDataMsg)) by (left; split; [left; reflexivity|exact I]).
  destruct y as [[ev|]|e| | ].
  - destruct ev; injection H as <- <- <-; try exact U; try exact I. destruct n; [exact I|exact Hr].
  - injection H as <- <- <-. exact U.
  - injection H as <- <- <-. eapply among_incl; [|exact He]. apply incl_tl, incl_refl.
  - injection H as <- <- <-. exact I.
  - injection H as <- <- <-. exact I.
Qed.

Lemma dopts_color d : opened L umax src o d -> cv_color (dc_conv L d) = o_color o.
Proof.
  intros Hd. destruct (opened_good L umax safe Humax src o Hs d Ha Hd) as ((_ & _ & _ & Hc & _) & Ho & _).
  unfold dopts in *. congruence.
Qed.

Lemma body_error_in l e : body_error e -> incl (DFormat UnexpectedDataMsg :: body_errors) l -> among l src o e.
Proof. intros H Hi. eapply among_incl; eassumption. Qed.

(** At any time. *)
Theorem fill_buffer_err d buf d' b e : opened L umax src o d -> fill_buffer L d buf = (d', b, Err e) -> among fill_errors src o e.
Proof.
  intros Hd H. unfold fill_buffer in H.
  match type of H with context [conv_fill_buffer ?a ?b ?c ?d ?e ?f] => destruct (conv_fill_buffer a b c d e f) as [[[r c1] b1] y] eqn:Ef end.
  injection H as _ _ ->.
  apply (fill_loop_err _ _ body_rd body_error body_cb) in Ef; [|apply opened_body; exact Hd].
  destruct Ef as [_ [Ef|[-> Ef]]].
  - apply (body_error_in _ _ Ef). intros z Hz. cbn in *. tauto.
  - left. split; [cbn; tauto|]. cbn. rewrite <- (dopts_color d Hd). exact Ef.
Qed.
Theorem read_into_buffer_err d buf d' b e : opened L umax src o d -> read_into_buffer L umax d buf = (d', b, Err e) ->
  among into_errors src o e.
Proof.
  intros Hd H. unfold read_into_buffer in H.
  match type of H with context [conv_read_into_buffer ?a ?b ?c ?d ?e ?f ?g] =>
    destruct (conv_read_into_buffer a b c d e f g) as [[[r c1] b1] y] eqn:Ef end.
  injection H as _ _ ->.
  apply (read_into_err umax _ _ body_rd body_error body_cb) in Ef; [|apply opened_body; exact Hd].
  destruct Ef as [[Ef|[[-> Ef]| ->]]| ->].
  - apply (body_error_in _ _ Ef). intros z Hz. cbn in *. tauto.
  - left. split; [cbn; tauto|]. cbn. rewrite <- (dopts_color d Hd). exact Ef.
  - left. split; [cbn; tauto|exact I].
  - left. split; [cbn; tauto|exact I].
Qed.

(** Directly after the announcement of a frame. *)
Lemma fresh_pixels d d' : opened L umax src o d -> o_skip_frame_decoding o = false -> next_frame_info L d = (d', Ok true) ->
  pixel_rd (dc_rd L d') /\ cv_color (dc_conv L d') = o_color o.
Proof.
  intros Hd Hk H. destruct (fresh_frame d d' Hd H) as (Hh & Hg & (_ & _ & _ & Hc & _) & Hm).
  destruct (hist_good L safe src o Hs _ Hh) as [_ Hor].
  split; [|congruence]. split; [exact Hh|]. destruct (dc_ty L d') as [|m]; [apply Hm|destruct Hm; congruence].
Qed.
Lemma pixel_error_in l e : pixel_error e -> In (DIo InvalidData) l -> among l src o e.
Proof. intros [[-> A]|A] Hl; [left; split; [exact Hl|exact A]|right; exact A]. Qed.

Theorem fill_fresh_err d d1 buf d' b e : opened L umax src o d -> o_skip_frame_decoding o = false ->
  next_frame_info L d = (d1, Ok true) -> fill_buffer L d1 buf = (d', b, Err e) -> among fill_fresh_errors src o e.
Proof.
  intros Hd Hk Hi H. destruct (fresh_pixels d d1 Hd Hk Hi) as [Hp Hc]. unfold fill_buffer in H.
  match type of H with context [conv_fill_buffer ?a ?b ?c ?d ?e ?f] => destruct (conv_fill_buffer a b c d e f) as [[[r c1] b1] y] eqn:Ef end.
  injection H as _ _ ->.
  apply (fill_loop_err _ _ pixel_rd pixel_error pixel_cb) in Ef; [|exact Hp].
  destruct Ef as [_ [Ef|[-> Ef]]].
  - apply (pixel_error_in _ _ Ef). cbn. tauto.
  - left. split; [cbn; tauto|]. cbn. congruence.
Qed.
Theorem into_fresh_err d d1 buf d' b e : opened L umax src o d -> o_skip_frame_decoding o = false ->
  next_frame_info L d = (d1, Ok true) -> read_into_buffer L umax d1 buf = (d', b, Err e) -> among into_fresh_errors src o e.
Proof.
  intros Hd Hk Hi H. destruct (fresh_pixels d d1 Hd Hk Hi) as [Hp Hc]. unfold read_into_buffer in H.
  match type of H with context [conv_read_into_buffer ?a ?b ?c ?d ?e ?f ?g] =>
    destruct (conv_read_into_buffer a b c d e f g) as [[[r c1] b1] y] eqn:Ef end.
  injection H as _ _ ->.
  apply (read_into_err umax _ _ pixel_rd pixel_error pixel_cb) in Ef; [|exact Hp].
  destruct Ef as [[Ef|[[-> Ef]| ->]]| ->].
  - apply (pixel_error_in _ _ Ef). cbn. tauto.
  - left. split; [cbn; tauto|]. cbn. congruence.
  - left. split; [cbn; tauto|exact I].
  - left. split; [cbn; tauto|exact I].
Qed.

(** And as long as the buffers were filled. *)
Lemma fills_pixels : forall bufs d d' ys, pixel_rd (dc_rd L d) -> cv_color (dc_conv L d) = o_color o ->
  run_dops L umax d (map OpFill bufs) = (d', ys) -> Forall (fun y => exists b, y = OutFill b (Ok true)) ys ->
  pixel_rd (dc_rd L d') /\ cv_color (dc_conv L d') = o_color o.
Proof.
  induction bufs as [|buf bufs IH]; intros d d' ys Hp Hc H Hy; cbn [map run_dops run_dop] in H.
  { injection H as <- _. now split. }
  destruct (fill_buffer L d buf) as [[d1 b] y] eqn:E. destruct (run_dops L umax d1 (map OpFill bufs)) as [d2 ys2] eqn:E2.
  injection H as <- <-. inversion Hy as [|y0 ys0 (b0 & Hy1) Hy2]; subst. injection Hy1 as _ ->. unfold fill_buffer in E.
  match type of E with context [conv_fill_buffer ?a ?b ?c ?d ?e ?f] => destruct (conv_fill_buffer a b c d e f) as [[[r c1] b1] z] eqn:Ef end.
  injection E as <- <- ->.
  apply (fill_loop_err _ _ pixel_rd pixel_error pixel_cb) in Ef; [|exact Hp]. destruct Ef as [Ec Ef].
  eapply IH; [| |exact E2|exact Hy2]; cbn; [exact Ef|congruence].
Qed.
Theorem fills_err d d1 bufs d2 ys buf d' b e : opened L umax src o d -> o_skip_frame_decoding o = false ->
  next_frame_info L d = (d1, Ok true) -> run_dops L umax d1 (map OpFill bufs) = (d2, ys) ->
  Forall (fun y => exists b, y = OutFill b (Ok true)) ys ->
  fill_buffer L d2 buf = (d', b, Err e) -> among fill_fresh_errors src o e.
Proof.
  intros Hd Hk Hi Hr Hy H. destruct (fresh_pixels d d1 Hd Hk Hi) as [Hp Hc]. destruct (fills_pixels _ _ _ _ Hp Hc Hr Hy) as [Hp2 Hc2].
  unfold fill_buffer in H.
  match type of H with context [conv_fill_buffer ?a ?b ?c ?d ?e ?f] => destruct (conv_fill_buffer a b c d e f) as [[[r c1] b1] y] eqn:Ef end.
  injection H as _ _ ->.
  apply (fill_loop_err _ _ pixel_rd pixel_error pixel_cb) in Ef; [|exact Hp2].
  destruct Ef as [_ [Ef|[-> Ef]]].
  - apply (pixel_error_in _ _ Ef). cbn. tauto.
  - left. split; [cbn; tauto|]. cbn. congruence.
Qed.

(** Copying the compressed data. *)
Definition copy_rd (r : rd) : Prop := hist L src o r /\ in_copy o (rd_dec L r).
Lemma copy_loop_err fuel : forall r v r' v' e, copy_rd r -> copy_lzw_loop L fuel r v = (r', v', Err e) ->
  e = DFormat MemoryLimitReached /\ o_limit o <> None \/ reader_error src e.
Proof.
  induction fuel as [|fuel IH]; intros r v r' v' e [Hh Hp] H; cbn [copy_lzw_loop] in H; [discriminate H|].
  destruct (decode_next L r (OVec v)) as [[r1 ob1] y] eqn:E.
  destruct (hist_good L safe src o Hs _ Hh) as [(Hw & _) _].
  assert (Heof : rd_eof L r = false).
  { destruct Hp as [Hp _]. destruct (rd_eof L r) eqn:Ee; [|reflexivity]. exfalso.
    pose proof (hist_eof_trailer r Hh Ee) as Ht. rewrite Ht in Hp. destruct Hp as [[k Hp]|Hp]; discriminate Hp. }
  pose proof (dnext_phase true (in_copy o) (copy_event o) _ (copy_step o) _ _ _ _ _
    (decode_next_dnext L safe _ _ _ _ _ Hw E) Hw Hp eq_refl) as Hd.
  pose proof (h_next _ _ _ _ _ _ _ _ Hh E) as Hh1.
  destruct y as [[ev|]|e1| | ]; try discriminate H.
  - destruct Hd as [[[w ->] Hd]| ->]; [|discriminate H]. eapply IH; [|exact H]. split; assumption.
  - destruct Hd as [Hd|[[[w Hd] _]|Hd]]; [congruence|discriminate Hd..].
  - injection H as _ _ <-. destruct Hd as [Hd|Hd]; [left; exact Hd|right].
    eapply reader_error_incl; [|exact Hd]. eapply hist_src; eassumption.
Qed.

Theorem read_next_frame_err d d' e : opened L umax src o d -> read_next_frame L umax d = (d', Err e) ->
  among (if o_skip_frame_decoding o then seek_errors else frame_errors) src o e.
Proof.
  intros Hd H. unfold read_next_frame in H. destruct (next_frame_info L d) as [d1 x] eqn:Ei.
  assert (G : forall e, among seek_errors src o e -> among (if o_skip_frame_decoding o then seek_errors else frame_errors) src o e).
  { intros z Hz. destruct (o_skip_frame_decoding o); [exact Hz|]. eapply among_incl; [|exact Hz].
    unfold frame_errors. do 3 apply incl_tl. apply incl_refl. }
  destruct x as [[|]|e1| | ]; try discriminate H.
  2:{ injection H as _ <-. apply G. eapply next_frame_info_err; eassumption. }
  destruct (fresh_frame d d1 Hd Ei) as (Hh & Hg & Hdg & Hm).
  destruct (hist_good L safe src o Hs _ Hh) as [_ Hor].
  pose proof Hdg as (_ & Hfr & _ & Hc & _). rewrite Hor in Hc.
  destruct (dc_ty L d1) as [|m] eqn:Ety.
  - destruct Hm as [Hm Hk]. rewrite Hk in *.
    destruct (conv_read_frame umax (Reader.rd L) (decode_next_bytes L) (dc_rd L d1) (dc_conv L d1) (dc_cur L d1))
      as [[[r c] f] z] eqn:Ec.
    destruct z as [u|e1| | ]; try discriminate H. injection H as _ <-.
    destruct Hfr as (_ & _ & _ & _ & Hw & Hh2 & _).
    apply (read_frame_err umax _ _ pixel_rd pixel_error pixel_cb
      (fun r => rd_good L r /\ sd_opts L (rd_dec L r) = dopts L d1)) in Ec.
    2:{ intros. eapply decode_next_bytes_ok; eassumption. }
    2:{ exact Hw. } 2:{ exact Hh2. } 2:{ split; [exact Hh|exact Hm]. } 2:{ split; [exact Hg|reflexivity]. }
    destruct Ec as [[Ef|[[-> Ef]| ->]]| ->].
    + apply (pixel_error_in _ _ Ef). cbn. tauto.
    + left. split; [cbn; tauto|]. cbn. congruence.
    + left. split; [cbn; tauto|exact I].
    + left. split; [cbn; tauto|exact Hk].
  - destruct Hm as [Hm Hk]. rewrite Hk in *.
    match type of H with context [copy_lzw_into_buffer ?a ?b ?c ?d] => destruct (copy_lzw_into_buffer a b c d) as [[r v] z] eqn:Ec end.
    destruct z as [u|e1| | ]; try discriminate H. injection H as _ <-.
    unfold copy_lzw_into_buffer in Ec. apply copy_loop_err in Ec; [|split; assumption].
    destruct Ec as [[-> Ec]|Ec]; [left; split; [cbn; tauto|exact Ec]|right; exact Ec].
Qed.
Theorem iter_next_err it it' e : opened L umax src o (it_dec L it) -> iter_next L umax it = (it', IErr e) ->
  among (if o_skip_frame_decoding o then seek_errors else frame_errors) src o e.
Proof.
  intros Hd H. unfold iter_next in H. destruct (it_ended L it); [discriminate H|].
  destruct (read_next_frame L umax (it_dec L it)) as [d x] eqn:E.
  destruct x as [[|]|e1| | ]; try discriminate H.
  - destruct (is_nil _); [discriminate H|]. cbn [frame_take] in H. discriminate H.
  - injection H as _ <-. eapply read_next_frame_err; eassumption.
Qed.
End Err.

(** [StreamingDecoder::update]. *)
Section ErrStream.
Variable L : lzw_codec.
Variable safe : lzw_safe L.
Lemma nsteps_vec s buf ob s' buf' ob' : nsteps L s buf ob s' buf' ob' -> pre L s buf -> is_vec ob' = is_vec ob.
Proof.
  induction 1 as [|s buf ob s1 ob1 n s' buf' ob' Hb He Hn IH]; intros (Hw & Hz & Ht); [reflexivity|].
  pose proof (next_state_good L safe s buf ob Hw Hz Hb) as Hg. rewrite He in Hg.
  destruct Hg as (_ & _ & _ & Gw & Gz & Gt & _). apply next_state_nst in He; auto.
  rewrite IH; [exact (proj1 (nst_same L _ _ _ _ _ _ He))|].
  split; [exact Gw|]. split; [exact Gz|]. intros E. destruct (Gt E) as [A|A]; [auto|discriminate A].
Qed.
Theorem update_err o s buf tl evs ob s' ob' e : driven L o s (buf ++ tl) evs -> update L s buf ob = (s', ob', Err e) ->
  with_options o e /\
  (In e update_errors \/ e = DIo Unsupported /\ is_vec ob = true /\ o_skip_frame_decoding o = false).
Proof.
  intros H Hu. destruct (driven_drv L safe _ _ _ _ H) as (Ho & Hw & Hz & _).
  destruct buf as [|b buf]; [discriminate Hu|].
  assert (Hb : b :: buf <> []) by discriminate. remember (b :: buf) as bf eqn:Eb. clear Eb.
  assert (Ht : sd_state L s <> Trailer).
  { intros Ht. pose proof (trailer_hangs L s bf ob (update_fuel bf) (length bf) Ht Hb Hw : snd (update L s bf ob) = Hang) as Hh. rewrite Hu in Hh. discriminate Hh. }
  pose proof (conj Hw (conj (zero_piece L _ _ _ Hz Hb) Ht) : pre L s bf) as Hpre.
  destruct (update_flat L safe _ _ _ _ _ _ Hpre Hu) as (s1 & buf1 & ob1 & Hns & (Hw1 & Hz1 & _) & _ & Hc).
  destruct Hc as [(_ & _ & _ & E)|(Hb1 & r0 & Hns0 & [(n0 & d0 & _ & _ & E)|(e0 & -> & E)])]; try discriminate E.
  injection E as <-.
  assert (Hs1 : sd_opts L s1 = o).
  { refine (nsteps_inv L safe (fun x => sd_opts L x = o) _ _ _ _ _ _ _ Hns Hpre Ho).
    intros x bx ox x' ox' rx A _ B. destruct (nst_same L _ _ _ _ _ _ B). congruence. }
  pose proof (nsteps_vec _ _ _ _ _ _ Hns Hpre) as Hv.
  apply next_state_nst in Hns0; auto. apply nst_error in Hns0; [|exact Hw1].
  unfold step_error in Hns0. rewrite Hs1, Hv in Hns0.
  destruct e as [m|k]; [destruct m|destruct k]; try contradiction; cbn [with_options];
    (split; [exact I || tauto|]); try (left; cbn; tauto). right. tauto.
Qed.
End ErrStream.

(** [FrameDecoder]. *)
Section ErrFrame.
Variable L : lzw_codec.
Variable safe : lzw_safe L.
Variable umax : N.
Hypothesis Humax : 2 ^ 32 - 1 <= umax.

Lemma fd_loop_err fuel : forall x s x' ob' r, fd_inv L x -> fd_loop L fuel x (OSlice s) = (x', ob', r) ->
  match r with Err e => e = DIo InvalidData | _ => True end.
Proof.
  induction fuel as [|fuel IH]; intros x s x' ob' r Hx H; cbn [fd_loop] in H.
  { injection H as <- <- <-. exact I. }
  destruct (lr_decode_bytes L (fst x) (snd x) (OSlice s)) as [[r1 ob1] y] eqn:E.
  destruct (lr_decode_bytes_safe L safe _ _ _ _ _ _ E Hx) as (Hd & _ & (s1 & -> & _) & _).
  destruct y as [[n w]|e| | ]; try (injection H as <- <- <-; exact I).
  - cbn zeta in H. destruct ((0 <? w)%nat || (n =? 0)%nat || is_nil (skipn n (snd x))); [injection H as <- <- <-; exact I|].
    eapply IH; [|exact H]. exact Hd.
  - injection H as <- <- <-. apply lr_decode_err in E; [exact E|exact Hx].
Qed.
Definition lzw_error (e : derr) : Prop := e = DIo InvalidData.
Lemma fd_cb x s x' ob' r : fd_inv L x -> fd_callback L x (OSlice s) = (x', ob', r) ->
  match r with Ok (Datatypes.S _) => fd_inv L x' | Err e => lzw_error e | _ => True end.
Proof.
  intros Hx H. pose proof (fd_callback_ok L umax safe Humax _ _ _ _ _ Hx H) as (A & _).
  apply fd_loop_err in H; [|exact Hx]. destruct r as [[|n]|e| | ]; auto.
Qed.

Theorem fd_into_err fd f buf fd' b e : decode_lzw_encoded_frame_into_buffer L umax fd f buf = (fd', b, Err e) ->
  In e lzw_into_errors /\ (e = DFormat OddSizedBuffer -> cv_color (fd_conv L fd) = CRgba).
Proof.
  intros H. unfold decode_lzw_encoded_frame_into_buffer in H.
  destruct (match f_buffer f with [] => (2, []) | m :: data => (m, data) end) as [m data].
  destruct (lr_reset L (fd_lzw L fd) m) as [r y] eqn:Er.
  destruct (lr_reset_cases _ _ _ _ _ Er) as [[-> Hd]| ->].
  - destruct (conv_read_into_buffer umax (lzw_reader L * list N) (fd_callback L) (r, data) (fd_conv L fd) f buf)
      as [[[[r1 d1] c] b1] z] eqn:Ec.
    apply (read_into_err umax _ _ (fd_inv L) lzw_error fd_cb) in Ec; [|exact Hd]. injection H as _ _ ->.
    destruct Ec as [[Ec|[[-> Ec]| ->]]| ->]; [rewrite Ec| | | ]; (split; [cbn; tauto|]); try discriminate. auto.
  - injection H as _ _ <-. split; [cbn; tauto|discriminate].
Qed.
Theorem fd_frame_err fd f fd' f' e : u16_ok (f_width f) -> u16_ok (f_height f) ->
  decode_lzw_encoded_frame L umax fd f = (fd', f', Err e) ->
  In e lzw_frame_errors /\ (e = DFormat OddSizedBuffer -> cv_color (fd_conv L fd) = CRgba).
Proof.
  intros Hw Hh H. unfold decode_lzw_encoded_frame in H.
  destruct (check_buffer_size umax (fd_conv L fd) f) as [n|e1| | ] eqn:Eck; try discriminate H.
  2:{ injection H as _ _ <-. rewrite (check_size_err _ _ _ _ Eck). split; [cbn; tauto|discriminate]. }
  destruct (umax / 2 <? n); [discriminate H|].
  destruct (decode_lzw_encoded_frame_into_buffer L umax fd f (repeat 0 (N.to_nat n))) as [[fd1 b] y] eqn:E.
  destruct y as [u|e1| | ]; try discriminate H. injection H as _ _ <-.
  unfold decode_lzw_encoded_frame_into_buffer in E.
  destruct (match f_buffer f with [] => (2, []) | m :: data => (m, data) end) as [m data].
  destruct (lr_reset L (fd_lzw L fd) m) as [r y] eqn:Er.
  destruct (lr_reset_cases _ _ _ _ _ Er) as [[-> Hd]| ->].
  - destruct (conv_read_into_buffer umax (lzw_reader L * list N) (fd_callback L) (r, data) (fd_conv L fd) f (repeat 0 (N.to_nat n)))
      as [[[[r1 d1] c] b1] z] eqn:Ec.
    apply (read_into_fits umax _ _ (fd_inv L) lzw_error fd_cb (fd_inv L) (fd_callback_ok L umax safe Humax) _ _ _ _ n) in Ec;
      [|exact Hw|exact Hh|exact Hd|exact Hd|exact Eck|apply repeat_length]. injection E as _ _ ->.
    destruct Ec as [Ec|[[-> Ec]| ->]]; [rewrite Ec| | ]; (split; [cbn; tauto|]); try discriminate. auto.
  - injection E as _ _ <-. split; [cbn; tauto|discriminate].
Qed.
End ErrFrame.
