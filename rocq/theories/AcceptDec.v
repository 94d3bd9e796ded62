(** Whatever the decoders accept is a file of the grammar of [SpecAccept]. *)
From Verif Require Import Base Common Lzw Encoder Stream StreamInv Steps Ranges Converter Reader ReaderInv ConvInv DecoderSafe DecInv.
From Verif Require Import SpecGif SpecAccept SpecStream StreamProps SpecCount DocAll Accept.
Open Scope N_scope.

Section Cb.
Variable umax : N.
Variable St : Type.
Variable cb : St -> obuf -> St * obuf * dres nat.
Variable Inv : St -> Prop.
Hypothesis cb_ok : forall x s x' ob' r, Inv x -> cb x (OSlice s) = (x', ob', r) ->
  Inv x' /\ (exists s', ob' = OSlice s' /\ length s' = length s) /\
  match r with Ok n => (n <= length s)%nat | Err _ => True | Panic | Hang => False end.
Variable P : St -> Prop.
Hypothesis cb_p : forall x s x' ob' n, Inv x -> P x -> cb x (OSlice s) = (x', ob', Ok n) -> P x'.

Lemma fill_p f : forall fuel x c done buf x' c' b' y, Inv x -> P x ->
  fill_loop St cb fuel x c f done buf = (x', c', b', Ok y) -> P x'.
Proof.
  induction fuel as [|fuel IH]; intros x c done buf x' c' b' y Hx Hp H; [discriminate H|].
  cbn [fill_loop] in H. destruct (cv_color c) eqn:Ec.
  - destruct (length buf / 4 =? 0)%nat; [discriminate H|]. cbn zeta in H.
    match type of H with context [cb x (OSlice ?s)] => destruct (cb x (OSlice s)) as [[x1 ob] r] eqn:Ecb end.
    destruct r as [n|e| | ]; try discriminate H.
    pose proof (cb_p _ _ _ _ _ Hx Hp Ecb) as Hm. pose proof (cb_ok _ _ _ _ _ Hx Ecb) as (Hx1 & _).
    destruct n as [|n]; [now injection H as <- <- <- <-|].
    destruct (length buf <? Datatypes.S n * 4)%nat; [discriminate H|].
    match type of H with (if is_nil ?b then _ else _) = _ => destruct (is_nil b) end; [now injection H as <- <- <- <-|].
    apply IH in H; assumption.
  - destruct (cb x (OSlice buf)) as [[x1 ob] r] eqn:Ecb.
    destruct r as [n|e| | ]; try discriminate H.
    pose proof (cb_p _ _ _ _ _ Hx Hp Ecb) as Hm. pose proof (cb_ok _ _ _ _ _ Hx Ecb) as (Hx1 & _).
    destruct n as [|n]; [now injection H as <- <- <- <-|].
    destruct (length (obuf_bytes ob) <? Datatypes.S n)%nat; [discriminate H|]. cbn zeta in H.
    destruct (is_nil _); [now injection H as <- <- <- <-|].
    apply IH in H; assumption.
Qed.

Lemma rows_p f : forall rows x c buf x' c' b' y, Inv x -> P x ->
  read_rows umax St cb rows x c f buf = (x', c', b', Ok y) -> P x'.
Proof.
  induction rows as [|row rows IH]; intros x c buf x' c' b' y Hx Hp H; [now injection H as <- <- <-|].
  cbn [read_rows] in H. cbn zeta in H. destruct (umax <? _); [discriminate H|]. destruct (_ && _); [|discriminate H].
  match type of H with context [conv_fill_buffer St cb x c f ?b] =>
    destruct (conv_fill_buffer St cb x c f b) as [[[x1 c1] line] z] eqn:Ef end.
  pose proof Ef as Ef'. apply (conv_fill_buffer_ok St cb Inv cb_ok) in Ef'; [|exact Hx]. destruct Ef' as (Hx1 & _).
  destruct z as [[|]|e| | ]; try discriminate H.
  apply fill_p in Ef; [|assumption..]. apply IH in H; assumption.
Qed.

Lemma into_p x c f buf x' c' b' y : Inv x -> P x ->
  conv_read_into_buffer umax St cb x c f buf = (x', c', b', Ok y) -> P x'.
Proof.
  intros Hx Hp H. unfold conv_read_into_buffer in H. destruct (f_interlaced f); [now apply rows_p in H|].
  destruct (buffer_size umax c f) as [n|]; [|discriminate H]. destruct (n <=? len buf); [|discriminate H]. cbn zeta in H.
  match type of H with context [conv_fill_buffer St cb x c f ?b] =>
    destruct (conv_fill_buffer St cb x c f b) as [[[x1 c1] line] z] eqn:Ef end.
  destruct z as [[|]|e| | ]; try discriminate H. injection H as <- <- <- <-. now apply fill_p in Ef.
Qed.

Lemma frame_p x c f x' c' f' y : Inv x -> P x ->
  conv_read_frame umax St cb x c f = (x', c', f', Ok y) -> P x'.
Proof.
  intros Hx Hp H. unfold conv_read_frame in H. destruct (check_buffer_size umax c f) as [n|e| | ]; try discriminate H.
  cbn zeta in H. destruct (umax / 2 <? n); [discriminate H|].
  match type of H with context [conv_read_into_buffer umax St cb x c ?g ?b] =>
    destruct (conv_read_into_buffer umax St cb x c g b) as [[[x1 c1] b1] z] eqn:Ef end.
  destruct z as [u|e| | ]; try discriminate H. injection H as <- <- <- <-. now apply into_p in Ef.
Qed.
End Cb.

(** Nothing is known of the data of the images. *)
Definition any_data (m : N) (p : list N) : Prop := True.
Definition any_lzw L (r : lzw_reader L) (m : N) (p : list N) : Prop := True.
Lemma any_keeps L ob : keeps L any_data (any_lzw L) ob.
Proof. split; [|split]; intros; try exact I. destruct (w =? 0)%nat; exact I. Qed.
Ltac phases p := destruct p as [ | |[|] [|]|[|]| | | ].
Section Stream.
Variable L : lzw_codec.
Hypothesis safe : lzw_safe L.
Variable o : options.
Notation sd := (sd L).
Notation any := (fun _ : N => True).
Notation parsed := (parsed L o any any_data (any_lzw L)).

Lemma hears_any s c rest d : hears L o any any_data (any_lzw L) (any_lzw L) s c rest d -> parsed s c rest.
Proof. destruct d; cbn [hears]; try (intros H; exact H); [intros [_ H]; exact H|intros (fl & _ & H); exact (H I)]. Qed.

Lemma nsteps_parsed s buf ob s' buf' ob' : nsteps L s buf ob s' buf' ob' -> forall c more, pre L s buf -> sd_opts L s = o ->
  bytes_ok (c ++ buf) -> parsed s c (buf ++ more) ->
  exists c', c ++ buf = c' ++ buf' /\ parsed s' c' (buf' ++ more) /\ sd_opts L s' = o.
Proof.
  induction 1 as [|s buf ob s1 ob1 n s' buf' ob' Hb He Hn IH]; intros c more Hp Ho Hby H; [eauto|].
  destruct Hp as (H1 & H2 & H3).
  pose proof (next_state_good L safe s buf ob H1 H2 Hb) as Hg. rewrite He in Hg.
  destruct Hg as (Go & _ & Hg1 & Hg2 & Hg3 & Hg4 & _).
  pose proof (next_state_nst L safe _ _ _ _ _ _ H1 H2 Hb He) as Hst.
  pose proof (parsed_step L o any any_data (fun _ _ _ => I) (any_lzw L) _ _ _ more _ _ _ _ _ c (any_keeps L _) (fun _ _ _ => I) H1 Ho Hby Hb H Hst) as Hs. apply hears_any in Hs.
  assert (Ec : (c ++ firstn n buf) ++ skipn n buf = c ++ buf) by (now rewrite <- app_assoc, firstn_skipn).
  destruct (IH (c ++ firstn n buf) more) as (c' & E & Hc').
  - split; [exact Hg2|]. split; [exact Hg3|]. intros E. destruct (Hg4 E); [congruence|discriminate].
  - congruence.
  - now rewrite Ec.
  - exact Hs.
  - exists c'. split; [|exact Hc']. now rewrite <- Ec.
Qed.

Lemma taken_driven file s rest evs : taken L o file s rest evs -> driven L o s rest evs.
Proof. induction 1; [apply dr_new|eapply dr_ok; eassumption]. Qed.

Lemma taken_parsed file s rest evs : taken L o file s rest evs -> bytes_ok file ->
  exists c, file = c ++ rest /\ parsed s c rest.
Proof.
  intros H Hby. induction H as [|s buf tl ob s' ob' n d evs Ht IH Hu].
  - exists []. split; [reflexivity|]. split; [|reflexivity]. repeat split; reflexivity.
  - destruct IH as (c & Ec & Hc). pose proof (taken_driven _ _ _ _ Ht) as Hdr.
    destruct buf as [|b buf].
    { cbn in Hu. injection Hu as <- _ <- <-. exists c. split; [exact Ec|exact Hc]. }
    assert (Hb : b :: buf <> []) by discriminate. remember (b :: buf) as bf eqn:Eb. clear Eb b buf.
    destruct (driven_drv L safe _ _ _ _ Hdr) as (Ho & Hw & Hz & p & Hr & Hp).
    pose proof (zero_piece L _ _ _ Hz Hb) as Hz1.
    assert (Hnt : sd_state L s <> Trailer).
    { intros E. pose proof (trailer_hangs L s bf ob (update_fuel bf) (length bf) E Hb Hw : snd (update L s bf ob) = Hang) as Hh. rewrite Hu in Hh. discriminate Hh. }
    pose proof (conj Hw (conj Hz1 Hnt) : pre L s bf) as Hpre.
    destruct (update_flat L safe _ _ _ _ _ _ Hpre Hu) as (s1 & buf1 & ob1 & Hns & (Hw1 & Hz2 & Ht1) & _ & Hcase).
    destruct (nsteps_suffix L safe _ _ _ _ _ _ Hns Hpre) as (k & Hk & Hkl).
    assert (Hb1 : bytes_ok (c ++ bf)).
    { unfold bytes_ok in *. rewrite Ec, app_assoc in Hby. now apply Forall_app in Hby. }
    destruct (nsteps_parsed _ _ _ _ _ _ Hns c tl Hpre Ho Hb1 Hc) as (c1 & E1 & P1 & Ho1).
    destruct Hcase as [(Hnil & -> & -> & E)|(Hne & r0 & Hns0 & [(n0 & d0 & -> & Hd & E)|(e0 & _ & E)])]; [| |discriminate E].
    + injection E as -> ->. rewrite skipn_all. rewrite Hnil in E1, P1. rewrite app_nil_r in E1. exists c1. split; [|exact P1].
      now rewrite Ec, app_assoc, E1.
    + injection E as -> ->. rewrite Hk in *. 
      pose proof (next_state_nst L safe _ _ _ _ _ _ Hw1 Hz2 Hne Hns0) as Hst.
      pose proof (next_state_good L safe _ _ ob1 Hw1 Hz2 Hne) as Hg. rewrite Hns0 in Hg.
      destruct Hg as (_ & _ & Gn & _).
      rewrite skipn_skipn_suffix by assumption.
      exists (c1 ++ firstn n0 (skipn k bf)). split.
      * rewrite Ec, app_assoc, E1, <- !app_assoc. f_equal. now rewrite app_assoc, firstn_skipn.
      * eapply hears_any, (parsed_step L o any any_data (fun _ _ _ => I) (any_lzw L)); [apply any_keeps|intros; exact I|exact Hw1|exact Ho1| |exact Hne|exact P1|exact Hst].
        rewrite <- E1. exact Hb1.
Qed.

(** The header that a decoder tells about. *)
Lemma parsed_head T wh W s c rest : Accept.parsed L o T wh W s c rest -> sd_state L s <> Magic -> sd_state L s <> ScreenDescriptor ->
  exists g t, c ++ rest = ser_head g ++ t /\ u16_ok (g_w g) /\ u16_ok (g_h g) /\ told_head L s g.
Proof.
  intros H H1 H2. unfold Accept.parsed in H.
  assert (Hb : (exists k g, sd_state L s = GlobalPalette k /\ told_head L s g /\ c = ser_head g /\ u16_ok (g_w g) /\ u16_ok (g_h g)) \/
    exists g bs, head_ok g /\ told_head L s g /\ acc_blocks o T wh g bs /\ body L o T wh W g bs s c rest).
  { destruct (sd_state L s); try congruence; try (right; exact H). left. destruct H as (_ & g & A & B & _ & D & E & _). eauto 10. }
  clear H. destruct Hb as [(k & g & _ & A & -> & D & E)|(g & bs & (D & E & _) & A & _ & B)]; [eauto 10|].
  exists g. unfold body in B.
  assert (Hc : (exists t, c = (ser_head g ++ ser_blocks bs) ++ t) \/ exists tl, c ++ rest = ser_gif (with_blocks g bs) tl).
  { destruct (sd_state L s); try contradiction B; 
      repeat match goal with Q : ex _ |- _ => destruct Q | Q : _ /\ _ |- _ => destruct Q | Q : _ \/ _ |- _ => destruct Q end;
      first [right; eexists; eassumption|left; eexists; eassumption|left; exists []; rewrite app_nil_r; eassumption]. }
  destruct Hc as [[t ->]|[tl ->]].
  - eexists. split; [|auto]. rewrite <- !app_assoc. reflexivity.
  - eexists. split; [|auto]. unfold ser_gif. change (ser_head (with_blocks g bs)) with (ser_head g). rewrite <- ?app_assoc. reflexivity.
Qed.
Lemma told_bytes s g t : u16_ok (g_w g) -> u16_ok (g_h g) -> told_head L s g -> head_told L (ser_head g ++ t) s.
Proof.
  intros Hw Hh (H1 & H2 & H3). unfold head_told. rewrite H1, H2, H3. unfold ser_head, word, signature. unfold u16_ok in *.
  destruct (g_89a g); cbn [app nth]; (split; [reflexivity|]); split; lia.
Qed.
Lemma decoded_nothing d : d = DNothing \/ d <> DNothing.
Proof. destruct d; auto; right; discriminate. Qed.
Lemma phase_end_stays unk evs : forall q, phase_run unk PEnd evs = Some q -> q = PEnd.
Proof.
  induction evs as [|d evs IH]; intros q H; cbn [phase_run] in H; [now injection H|].
  destruct (phase_step unk PEnd d) as [p'|] eqn:E; [|discriminate H]. destruct d; try discriminate E. injection E as <-. now apply IH.
Qed.
Lemma phase_ended unk evs : forall p q, phase_run unk p evs = Some q -> In (DBlockStart BkTrailer) evs -> q = PEnd.
Proof.
  induction evs as [|d evs IH]; intros p q H Hin; [contradiction Hin|]. cbn [phase_run] in H. destruct Hin as [->|Hd].
  - destruct (phase_step unk p (DBlockStart BkTrailer)) as [p'|] eqn:E; [|discriminate H].
    assert (p' = PEnd) by (revert E; clear; phases p; cbn; congruence). subst p'. eapply phase_end_stays, H.
  - destruct (phase_step unk p d) as [p'|] eqn:E; [|discriminate H]. eapply IH; eassumption.
Qed.
Lemma phase_moved unk evs : forall p q, phase_run unk p evs = Some q ->
  p <> PStart \/ (exists d, In d evs /\ d <> DNothing) -> q <> PStart.
Proof.
  induction evs as [|d evs IH]; intros p q H Hp; cbn [phase_run] in H.
  - injection H as ->. destruct Hp as [Hp|(d & [] & _)]. exact Hp.
  - destruct (phase_step unk p d) as [p'|] eqn:E; [|discriminate H]. apply (IH _ _ H).
    destruct (decoded_nothing d) as [->|Hd].
    + rewrite phase_nothing in E. injection E as <-. destruct Hp as [Hp|(d & [<-|Hd] & Hn)]; [now left|congruence|eauto].
    + left. intros ->. revert E Hd. clear. phases p; destruct d as [ | | | | |[ | | ]| | | | | | ]; cbn; try destruct unk; congruence.
Qed.

Theorem told_head_bytes file s rest evs d : bytes_ok file -> taken L o file s rest evs -> In d evs -> d <> DNothing ->
  head_told L file s.
Proof.
  intros Hby H Hd Hn. destruct (taken_parsed _ _ _ _ H Hby) as (c & Ec & Hc).
  destruct (driven_drv L safe _ _ _ _ (taken_driven _ _ _ _ H)) as (_ & _ & _ & p & Hr & Hp).
  assert (Hs : p <> PStart) by (eapply phase_moved; [exact Hr|eauto]).
  destruct (parsed_head _ _ _ _ _ _ Hc) as (g & t & E & A & B & C).
  - intros E. unfold at_phase in Hp. rewrite E in Hp. revert Hp Hs. phases p; tauto.
  - intros E. unfold at_phase in Hp. rewrite E in Hp. revert Hp Hs. phases p; tauto.
  - subst file. rewrite E. apply told_bytes; assumption.
Qed.

Lemma trailer_accepted s c rest : parsed s c rest -> sd_state L s = Trailer ->
  exists g tl, c ++ rest = ser_gif g tl /\ file_acc false o g tl /\ told_head L s g.
Proof.
  intros H E. destruct (parsed_body L o any any_data _ s c rest H) as (g & bs & Hg & Ht & [Ha Hu] & Hb); [rewrite E; exact I|].
  unfold body in Hb. rewrite E in Hb. destruct Hb as (tl & Hb & Htl).
  exists (with_blocks g bs), tl. split; [exact Hb|]. split; [|exact Ht]. split; [|exact Htl].
  split; [exact Hg|]. split; [|exact Hu]. cbn [with_blocks g_blocks]. eapply Forall_impl; [|exact Ha].
  intros b [Hb1 _]. exact Hb1.
Qed.
Theorem stream_accepts file s rest evs : bytes_ok file -> taken L o file s rest evs -> In (DBlockStart BkTrailer) evs ->
  exists g tl, file = ser_gif g tl /\ file_acc false o g tl.
Proof.
  intros Hby H Hd. destruct (taken_parsed _ _ _ _ H Hby) as (c & Ec & Hc).
  destruct (driven_drv L safe _ _ _ _ (taken_driven _ _ _ _ H)) as (_ & _ & _ & p & Hr & Hp).
  assert (Hs : p = PEnd) by (eapply phase_ended; eassumption). subst p.
  assert (Ht : sd_state L s = Trailer) by (unfold at_phase in Hp; destruct (sd_state L s); try contradiction Hp; reflexivity).
  destruct (trailer_accepted _ _ _ Hc Ht) as (g & tl & E & A & _). exists g, tl. rewrite Ec, E. auto.
Qed.
End Stream.

(** ** The decoder *)
Section Dec.
Variable L : lzw_codec.
Hypothesis safe : lzw_safe L.
Variable umax : N.
Hypothesis Humax : 2 ^ 32 - 1 <= umax.
Variable o : options.
(** All bytes of the source. *)
Variable file : list N.
Hypothesis file_ok : bytes_ok file.
Notation rd := (rd L).
Notation dcd := (dcd L).
Definition tabled (fl : N) : Prop := has_table fl = true \/ has_table (nth 10 file 0) = true.
(** What is to be known of the data of complete images; of the LZW reader always; when the data begin and as long as they are given to
    it, and when they may have been passed over. *)
Variable whole : N -> list N -> Prop.
Hypothesis whole_skip : o_skip_frame_decoding o = true -> forall m p, whole m p.
Variable J : lzw_reader L -> Prop.
Hypothesis J_reset : forall r m r' x, J r -> lr_reset L r m = (r', x) -> J r'.
Hypothesis J_decode : forall r data ob r' ob' x, J r -> lr_decode_bytes L r data ob = (r', ob', x) -> J r'.
Variables W0 W1 : lzw_known L.
Hypothesis W_start : forall r m r', J r -> lr_reset L r m = (r', Ok tt) -> W0 r' m [].
Hypothesis W_less : forall r m p, W0 r m p -> W1 r m p.
Hypothesis W_slice : forall s, keeps L whole W0 (OSlice s).
Hypothesis W_none : keeps L whole W1 ONone.
(** Copied data do not concern the LZW reader. *)
Hypothesis W_vec : forall v, keeps L whole W0 (OVec v).
Notation parsed := (parsed L o tabled whole).

Lemma nst_J s buf ob s' ob' x : nst L s buf ob s' ob' x -> J (sd_lzw L s) -> J (sd_lzw L s').
Proof.
  intros H Hj. destruct H; unfold after_screen, after_image; sdcbn; try exact Hj;
    repeat match goal with |- context [if ?c then _ else _] => destruct c; sdcbn; try exact Hj end;
    first [eapply J_reset; eassumption|eapply J_decode; eassumption].
Qed.
(** The output buffer remains one of its kind. *)
Definition same_kind (a b : obuf) : Prop :=
  match a, b with OSlice _, OSlice _ | OVec _, OVec _ | ONone, ONone => True | _, _ => False end.
Lemma same_kind_refl a : same_kind a a.
Proof. destruct a; exact I. Qed.
Lemma decode_kind r data ob r' ob' x : lr_decode_bytes L r data ob = (r', ob', x) -> same_kind ob ob'.
Proof.
  unfold lr_decode_bytes. intros H. destruct (lr_decoder L r) as [d|]; [|injection H as <- <- <-; apply same_kind_refl].
  destruct ob; try (injection H as <- <- <-; exact I).
  all: match type of H with context [lz_decode L ?d0 ?x0 ?n] => destruct (lz_decode L d0 x0 n) as [d' [[k w] st]] end;
    destruct st; try destruct (lr_check L r); injection H as <- <- <-; exact I.
Qed.
Lemma append_kind ob data lim ob' x : obuf_append ob data lim = (ob', x) -> same_kind ob ob'.
Proof.
  unfold obuf_append. intros H. destruct ob; repeat match type of H with context [if ?c then _ else _] => destruct c end;
    injection H as <- <-; exact I.
Qed.
Lemma nst_kind s buf ob s' ob' x : nst L s buf ob s' ob' x -> same_kind ob ob'.
Proof. intros H. destruct H; try apply same_kind_refl; first [eapply decode_kind; eassumption|eapply append_kind; eassumption]. Qed.

Definition reads (W : lzw_known L) (r : rd) : Prop :=
  (sd_opts L (rd_dec L r) = o /\ J (sd_lzw L (rd_dec L r))) /\
  (exists c, file = c ++ rd_rest L r /\ parsed W (rd_dec L r) c (rd_rest L r)) /\
  (rd_eof L r = true -> sd_state L (rd_dec L r) = Trailer).
Definition heard (W : lzw_known L) (r : rd) (d : decoded) : Prop :=
  match d with
  | DFrameMetadata _ => exists fl, (forall f, sd_current L (rd_dec L r) = Some f -> f_palette f <> None -> has_table fl = true) /\
      (tabled fl -> reads W0 r)
  | DGlobalPalette p => (p <> [] -> has_table (nth 10 file 0) = true) /\ reads W r
  | _ => reads W r
  end.

Lemma nth_front {A} (a b : list A) n d x : nth n a d = x -> x <> d -> nth n (a ++ b) d = x.
Proof.
  intros H Hx. destruct (Nat.lt_ge_cases n (length a)) as [Hl|Hl]; [now rewrite app_nth1|].
  rewrite nth_overflow in H by exact Hl. congruence.
Qed.

Lemma reads_less (W W' : lzw_known L) r : (forall r m p, W r m p -> W' r m p) -> reads W r -> reads W' r.
Proof. intros Hw (A & (c & B & C) & D). split; [exact A|]. split; [|exact D]. exists c. split; [exact B|]. eapply parsed_weaken; [exact Hw|exact C]. Qed.
(** At the end nothing is to be known. *)
Lemma reads_eof (W W' : lzw_known L) r : reads W r -> rd_eof L r = true -> reads W' r.
Proof.
  intros (A & (c & B & C) & D) He. split; [exact A|]. split; [|exact D]. exists c. split; [exact B|]. specialize (D He).
  unfold Accept.parsed in *. rewrite D in *. destruct C as (g & bs & C1 & C2 & C3 & C4). exists g, bs.
  split; [exact C1|]. split; [exact C2|]. split; [exact C3|]. unfold body in *. rewrite D in *. exact C4.
Qed.

Lemma dnext_reads W r ob r' ob' x : dnext L r ob r' ob' x -> (forall ob1, same_kind ob ob1 -> keeps L whole W ob1) -> rd_wf L r -> reads W r ->
  match x with Ok (Some d) => heard W r' d | Ok None => reads W r' /\ rd_eof L r' = true | _ => True end.
Proof.
  assert (Hone : forall buf src s ob s1 ob1 n d, keeps L whole W ob -> buf <> [] -> next_state L s buf ob = (s1, ob1, Ok (n, d)) ->
    rd_wf L (mk_rd L buf src s false) -> reads W (mk_rd L buf src s false) ->
    (sd_opts L s1 = o /\ J (sd_lzw L s1)) /\ sd_wf L s1 /\ zero_ok L s1 (skipn n buf) /\
    (sd_state L s1 = Trailer -> d = DBlockStart BkTrailer) /\
    exists c, file = c ++ rd_rest L (mk_rd L (skipn n buf) src s1 false) /\
      hears L o tabled whole W0 W s1 c (rd_rest L (mk_rd L (skipn n buf) src s1 false)) d).
  { intros buf src s ob0 s1 ob1 n d Hkp Hb He [H1 H2] ((Ro & Rj) & (c & Ec & Hc) & _). cbn [rd_dec rd_eof rd_buf] in *.
    destruct (H2 eq_refl) as [H3 H4].
    pose proof (next_state_good L safe s buf ob0 H1 H3 Hb) as Hg. rewrite He in Hg.
    destruct Hg as (Go & _ & Hg1 & Hg2 & Hg3 & Hg4 & _).
    pose proof (next_state_nst L safe _ _ _ _ _ _ H1 H3 Hb He) as Hst.
    split; [split; [congruence|eapply nst_J; eassumption]|]. split; [exact Hg2|]. split; [exact Hg3|].
    split; [intros E; destruct (Hg4 E); [contradiction|assumption]|].
    unfold rd_rest in *. cbn [rd_buf rd_src] in *. exists (c ++ firstn n buf). split.
    - rewrite Ec, <- app_assoc. f_equal. now rewrite app_assoc, firstn_skipn.
    - eapply (parsed_step L o tabled whole whole_skip W0 W); [exact Hkp|intros m0 r0; apply W_start; exact Rj|exact H1|exact Ro| |exact Hb|exact Hc|exact Hst].
      pose proof file_ok as Hf. unfold bytes_ok in *. rewrite Ec, app_assoc in Hf. now apply Forall_app in Hf. }
  induction 1 as [buf src s ob|k src s ob|s ob|src s ob|bs src s ob r' ob' x Hb Hn IH
    |buf src s ob s1 ob1 n r' ob' x Hb He Hn IH|buf src s ob s1 ob1 n Hb He
    |buf src s ob s1 ob1 n d Hb He Hd1 Hd2|pr buf src s ob s1 ob1 e Hb He]; intros Hkk Hwf Hr; try exact I.
  - split; [exact Hr|reflexivity].
  - apply IH; [exact Hkk| |exact Hr]. destruct Hwf as [H1 H2]. cbn in H1, H2. destruct (H2 eq_refl) as [H3 H4].
    split; [exact H1|]. intros _. cbn. split; [|exact H4]. intros E. destruct (H3 E) as [t Ht]. discriminate.
  - destruct (Hone _ _ _ _ _ _ _ _ (Hkk _ (same_kind_refl _)) Hb He Hwf Hr) as (A & B & C & D & c & E & F). cbn [hears] in F. apply IH.
    + intros ob2 Hob. apply Hkk. destruct Hwf as [H1 H2]. destruct (H2 eq_refl) as [H3 H4].
      pose proof (nst_kind _ _ _ _ _ _ (next_state_nst L safe _ _ _ _ _ _ H1 H3 Hb He)) as Hk1. destruct ob, ob1, ob2; try exact I; contradiction.
    + split; [exact B|]. intros _. split; [exact C|]. cbn [rd_dec]. intros Q. now specialize (D Q).
    + split; [exact A|]. split; [eauto|discriminate].
  - destruct (Hone _ _ _ _ _ _ _ _ (Hkk _ (same_kind_refl _)) Hb He Hwf Hr) as (A & B & C & D & c & E & F). cbn [hears] in F.
    split; [|reflexivity]. split; [exact A|]. split; [exists c; split; [exact E|exact F]|]. intros _. cbn [rd_dec].
    destruct Hwf as [H1 H2]. destruct (H2 eq_refl) as [H3 H4]. cbn [rd_dec rd_buf] in *.
    pose proof (next_state_nst L safe _ _ _ _ _ _ H1 H3 Hb He) as Hst. inversion Hst; subst; try reflexivity.
    all: repeat match goal with Q : context [if ?c then _ else _] |- _ => destruct c; try discriminate end.
  - destruct (Hone _ _ _ _ _ _ _ _ (Hkk _ (same_kind_refl _)) Hb He Hwf Hr) as (A & B & C & D & c & E & F).
    assert (Hq : forall V, Accept.parsed L o tabled whole V s1 c (rd_rest L (mk_rd L (skipn n buf) src s1 false)) -> reads V (mk_rd L (skipn n buf) src s1 false)).
    { intros V Q. split; [exact A|]. split; [eauto|discriminate]. }
    destruct d; cbn [hears heard] in *; try (apply Hq; exact F).
    + destruct F as [F1 F2]. split; [|now apply Hq]. intros Hp. specialize (F1 Hp). rewrite E.
      rewrite (nth_front c _ 10 0 (nth 10 c 0)); [exact F1|reflexivity|]. intros Q. rewrite Q in F1. discriminate F1.
    + destruct F as (fl & F1 & F2). exists fl. split; [exact F1|]. auto.
Qed.
Lemma decode_next_reads W r ob r' ob' x : (forall ob1, same_kind ob ob1 -> keeps L whole W ob1) -> rd_good L r -> reads W r ->
  decode_next L r ob = (r', ob', x) ->
  match x with Ok (Some d) => heard W r' d | Ok None => reads W r' /\ rd_eof L r' = true | _ => True end.
Proof. intros Hk (Hw & _) Hr H. apply (dnext_reads _ _ _ _ _ _ (decode_next_dnext L safe _ _ _ _ _ Hw H) Hk Hw Hr). Qed.
Lemma kind_none (W : lzw_known L) : keeps L whole W ONone -> forall ob1, same_kind ONone ob1 -> keeps L whole W ob1.
Proof. intros H ob1. destruct ob1; try contradiction. intros _. exact H. Qed.
Lemma kind_slice s ob1 : same_kind (OSlice s) ob1 -> keeps L whole W0 ob1.
Proof. destruct ob1; try contradiction. intros _. apply W_slice. Qed.
Lemma kind_vec v ob1 : same_kind (OVec v) ob1 -> keeps L whole W0 ob1.
Proof. destruct ob1; try contradiction. intros _. apply W_vec. Qed.

(** The decoder, and what its global colour table tells about the file. *)
Definition dreads (W : lzw_known L) (d : dcd) : Prop :=
  reads W (dc_rd L d) /\ (cv_gpal (dc_conv L d) <> None -> has_table (nth 10 file 0) = true).

(** Before the end of the header there are no images. *)
Definition early (s : sd L) : Prop :=
  sd_header_end L s = false /\
  match sd_state L s with
  | Magic | ScreenDescriptor | GlobalPalette _ | BlockStart _ | BlockEnd | ExtensionBlockStart | ExtensionDataBlock _
  | ApplicationExtension => True
  | _ => False
  end.
Definition is_metadata (d : decoded) : bool := match d with DFrameMetadata _ => true | _ => false end.
Lemma nst_early s buf ob s' ob' n d : early s -> nst L s buf ob s' ob' (Ok (n, d)) -> d = DHeaderEnd \/ early s' /\ is_metadata d = false.
Proof.
  intros [H1 H2] H. unfold early. inversion H; subst; unfold after_screen in *;
    repeat match goal with E : sd_state L s = _ |- _ => rewrite E in * end; cbn iota in *; try contradiction; try congruence;
    auto; try (right; sdcbn; auto; fail).
  - right. sdcbn. destruct (negb _); sdcbn; auto.
  - right. sdcbn. destruct (is_netscape _); auto.
Qed.
Lemma dnext_early r ob r' ob' x : dnext L r ob r' ob' x -> rd_wf L r -> rd_eof L r = false -> early (rd_dec L r) ->
  match x with
  | Ok (Some d) => d = DHeaderEnd \/ early (rd_dec L r') /\ rd_eof L r' = false /\ is_metadata d = false
  | _ => True
  end.
Proof.
  induction 1 as [buf src s ob|k src s ob|s ob|src s ob|bs src s ob r' ob' x Hb Hn IH
    |buf src s ob s1 ob1 n r' ob' x Hb He Hn IH|buf src s ob s1 ob1 n Hb He
    |buf src s ob s1 ob1 n d Hb He Hd1 Hd2|pr buf src s ob s1 ob1 e Hb He]; intros Hwf Heof Hr; try exact I.
  - apply IH; [|reflexivity|exact Hr]. destruct Hwf as [H1 H2]. cbn in H1, H2. destruct (H2 eq_refl) as [H3 H4].
    split; [exact H1|]. intros _. cbn. split; [|exact H4]. intros E. destruct (H3 E) as [t Ht]. discriminate.
  - destruct Hwf as [H1 H2]. cbn in H1, H2. destruct (H2 eq_refl) as [H3 H4].
    pose proof (next_state_good L safe s buf ob H1 H3 Hb) as Hg. rewrite He in Hg.
    destruct Hg as (_ & _ & Hg1 & Hg2 & Hg3 & Hg4 & _).
    apply (next_state_nst L safe) in He; [|assumption..]. apply nst_early in He; [|exact Hr].
    destruct He as [He|[He _]]; [discriminate He|]. apply IH; [|reflexivity|exact He].
    split; [exact Hg2|]. intros _. cbn. split; [exact Hg3|]. intros E. destruct (Hg4 E); [congruence|discriminate].
  - destruct Hwf as [H1 H2]. cbn in H1, H2. destruct (H2 eq_refl) as [H3 H4].
    apply (next_state_nst L safe) in He; [|assumption..]. apply nst_early in He; [|exact Hr].
    destruct He as [He|[He Hm]]; [now left|right; auto].
Qed.

Lemma init_reads W (HW : keeps L whole W ONone) fuel : forall d d', rd_good L (dc_rd L d) -> rd_eof L (dc_rd L d) = false -> early (rd_dec L (dc_rd L d)) -> dreads W d ->
  init_loop L fuel d = Ok d' -> dreads W d'.
Proof.
  induction fuel as [|fuel IH]; intros d d' Hr Heof He Hd H; [discriminate H|]. cbn [init_loop] in H. destruct Hd as [Hd Hp].
  destruct (decode_next L (dc_rd L d) ONone) as [[r ob] x] eqn:E.
  pose proof (decode_next_reads _ _ _ _ _ _ (kind_none W HW) Hr Hd E) as Ha.
  pose proof (dnext_early _ _ _ _ _ (decode_next_dnext L safe _ _ _ _ _ (proj1 Hr) E) (proj1 Hr) Heof He) as Hy.
  apply decode_next_all in E; [|exact safe|exact Hr]. destruct E as (Hr' & _).
  destruct x as [[e|]|e| | ]; try discriminate H.
  assert (Hgo : forall d1, dc_rd L d1 = r -> dc_conv L d1 = dc_conv L d -> e <> DHeaderEnd -> heard W r e ->
    (is_metadata e = false -> heard W r e -> reads W r) -> init_loop L fuel d1 = Ok d' -> dreads W d').
  { intros d1 E1 E2 Hne Hh Hm H1. destruct Hy as [Hy|(Y1 & Y2 & Y3)]; [contradiction|].
    apply IH in H1; [exact H1|rewrite E1; assumption..|]. split; [rewrite E1; now apply Hm|]. now rewrite E2. }
  destruct e; cbn [heard is_metadata] in *;
    try (match type of H with init_loop L fuel ?d1 = _ => refine (Hgo d1 eq_refl eq_refl _ Ha (fun _ q => q) H) end; discriminate).
  - (* global palette *)
    destruct Hy as [Hy|(Y1 & Y2 & Y3)]; [discriminate Hy|]. destruct Ha as [Ha1 Ha2].
    apply IH in H; [exact H|assumption..|]. split; [exact Ha2|]. cbn [dc_conv set_conv set_global_palette cv_gpal].
    intros Q. apply Ha1. intros ->. now apply Q.
  - (* header end *)
    injection H as <-. assert (Hx : dreads W (set_rd L d r)) by (split; [exact Ha|exact Hp]).
    unfold fix_bg. destruct (cv_gpal (dc_conv L (set_rd L d r))); [destruct (_ <=? _)|]; exact Hx.
  - (* metadata *) destruct Hy as [Hy|(Y1 & Y2 & Y3)]; [discriminate Hy|discriminate Y3].
Qed.

Lemma info_passes fuel : forall d d' x, rd_good L (dc_rd L d) -> dreads W1 d -> next_frame_info_loop L fuel d = (d', Ok x) ->
  dreads (if x then W0 else W1) d' /\ (x = false -> rd_eof L (dc_rd L d') = true).
Proof.
  induction fuel as [|fuel IH]; intros d d' x Hr Hd H; [discriminate H|]. cbn [next_frame_info_loop] in H. destruct Hd as [Hd Hp].
  destruct (decode_next L (dc_rd L d) ONone) as [[r ob] y] eqn:E.
  pose proof (decode_next_reads _ _ _ _ _ _ (kind_none W1 W_none) Hr Hd E) as Ha.
  apply decode_next_all in E; [|exact safe|exact Hr]. destruct E as (Hr' & _ & _ & Hm).
  destruct y as [[e|]|e| | ]; try discriminate H.
  2:{ injection H as <- <-. destruct Ha as [Ha1 Ha2]. split; [split; [exact Ha1|exact Hp]|auto]. }
  assert (Hgo : reads W1 r -> next_frame_info_loop L fuel (set_rd L d r) = (d', Ok x) ->
    dreads (if x then W0 else W1) d' /\ (x = false -> rd_eof L (dc_rd L d') = true)).
  { intros Hrr H1. apply IH in H1; [exact H1|exact Hr'|split; [exact Hrr|exact Hp]]. }
  destruct e; cbn [heard] in Ha; try (apply (Hgo Ha H)).
  { apply (Hgo (proj2 Ha) H). }
  destruct (Hm _ eq_refl) as (Hc & k & Hk). destruct (sd_current L (rd_dec L r)) as [f|]; [|congruence].
  destruct Ha as (fl & Hf & Ha). unfold frame_take in H. cbn zeta in H.
  match type of H with context [mk_rd L ?a ?b ?c ?d] => set (r' := mk_rd L a b c d) in * end.
  match type of H with context [set_cur L ?a ?b ?c] => set (d2 := set_cur L a b c) in * end.
  assert (Hrr : reads W0 r -> reads W0 r').
  { intros (A & (c & B & C) & D). split; [exact A|]. split; [|exact D]. exists c. split; [exact B|].
    unfold Accept.parsed in *. destruct Hk as [[Ek _]|(mm & Ek & _)]; cbn [rd_dec r'] in *; sdcbn; rewrite Ek in C |- *;
    destruct C as (g & bs & C1 & C2 & C3 & C4); exists g, bs; (split; [exact C1|]); (split; [exact C2|]); (split; [exact C3|]);
    unfold body in *; sdcbn; rewrite Ek in C4 |- *; exact C4. }
  assert (Hdd : tabled fl -> dreads W0 d2) by (intros Q; split; [exact (Hrr (Ha Q))|exact Hp]).
  destruct (f_palette f) as [p|] eqn:Ep.
  - injection H as <- <-. split; [|discriminate]. apply Hdd. left. eapply Hf; [reflexivity|congruence].
  - assert (Eg : cv_gpal (dc_conv L d2) = cv_gpal (dc_conv L d)) by reflexivity. rewrite Eg in H.
    destruct (cv_gpal (dc_conv L d)) eqn:Ecv; [|discriminate H]. injection H as <- <-. split; [|discriminate].
    apply Hdd. right. apply Hp. discriminate.
Qed.

Lemma info_reads fuel d d' x : rd_good L (dc_rd L d) -> dreads W0 d -> next_frame_info_loop L fuel d = (d', Ok x) ->
  dreads W0 d' /\ (x = false -> rd_eof L (dc_rd L d') = true).
Proof.
  intros Hr [H1 H2] H. pose proof (info_passes fuel d d' x Hr (conj (reads_less _ _ _ W_less H1) H2) H) as [[A B] C].
  split; [|exact C]. split; [|exact B]. destruct x; [exact A|]. exact (reads_eof _ _ _ A (C eq_refl)).
Qed.

Lemma copy_reads fuel : forall r v r' v' y, rd_good L r -> reads W0 r -> copy_lzw_loop L fuel r v = (r', v', Ok y) -> reads W0 r'.
Proof.
  induction fuel as [|fuel IH]; intros r v r' v' y Hr Hd H; [discriminate H|]. cbn [copy_lzw_loop] in H.
  destruct (decode_next L r (OVec v)) as [[r1 ob] x] eqn:E.
  pose proof (decode_next_reads _ _ _ _ _ _ (kind_vec _) Hr Hd E) as Ha.
  apply decode_next_all in E; [|exact safe|exact Hr]. destruct E as (Hr' & _).
  destruct x as [[e|]|e| | ]; try discriminate H. destruct e; try discriminate H; cbn [heard] in Ha.
  - eapply IH; [exact Hr'|exact Ha|exact H].
  - injection H as <- <- <-. exact Ha.
Qed.

Lemma bytes_reads (o' : options) r s r' ob n : rd_good L r /\ sd_opts L (rd_dec L r) = o' -> reads W0 r ->
  decode_next_bytes L r (OSlice s) = (r', ob, Ok n) -> reads W0 r'.
Proof.
  intros [Hr _] Hd H. unfold decode_next_bytes in H. destruct (decode_next L r (OSlice s)) as [[r1 ob1] x] eqn:E.
  pose proof (decode_next_reads _ _ _ _ _ _ (kind_slice _) Hr Hd E) as Ha.
  destruct x as [[e|]|e| | ]; try discriminate H. destruct e; try discriminate H; injection H as <- <- <-; exact Ha.
Qed.

Lemma frame_reads d d' x : dcd_good L d -> alloc_ok L umax d -> dreads W0 d -> read_next_frame L umax d = (d', Ok x) ->
  dreads W0 d' /\ (x = false -> rd_eof L (dc_rd L d') = true).
Proof.
  intros Hd Hal Hr H. unfold read_next_frame in H. destruct (next_frame_info L d) as [d1 y] eqn:E.
  pose proof (next_frame_info_returns L safe umax Humax d d1 y Hd E) as (_ & Hd1 & Hk & _).
  destruct y as [[|]|e| | ]; try discriminate H.
  2:{ injection H as <- <-. apply (info_reads _ _ _ _ (proj1 Hd) Hr E). }
  destruct (info_reads _ _ _ _ (proj1 Hd) Hr E) as [[H1 H2] _]. destruct (dc_ty L d1) as [|m].
  - destruct (conv_read_frame umax (Reader.rd L) (decode_next_bytes L) (dc_rd L d1) (dc_conv L d1) (dc_cur L d1))
      as [[[r c] f] z] eqn:Ec.
    destruct z as [u|e| | ]; try discriminate H. injection H as <- <-. split; [|discriminate].
    pose proof (decode_next_bytes_ok L safe umax Humax (dopts L d1)) as Hcb.
    pose proof (alloc_ok_kept L umax _ _ Hk Hal) as Hal1.
    assert (Hi : rd_good L (dc_rd L d1) /\ sd_opts L (rd_dec L (dc_rd L d1)) = dopts L d1) by (split; [apply Hd1|reflexivity]).
    destruct Hd1 as (G1 & G2 & G3 & G4 & G5).
    pose proof Ec as Ec'. apply (conv_read_frame_ok umax _ _ _ Hcb) in Ec'; [|apply G2|apply G2|exact Humax|rewrite G3; exact Hal1|exact Hi].
    destruct Ec' as (_ & (_ & _ & Eg) & _).
    apply (frame_p umax _ _ _ Hcb (reads W0) (bytes_reads (dopts L d1))) in Ec; [|exact Hi|exact H1].
    split; [exact Ec|]. cbn [dc_conv set_cur set_conv]. now rewrite Eg.
  - unfold copy_lzw_into_buffer in H.
    destruct (copy_lzw_loop L (ev_fuel L (dc_rd L d1)) (dc_rd L d1) ([] ++ [m])) as [[r v] z] eqn:Ec.
    destruct z as [u|e| | ]; try discriminate H. injection H as <- <-. split; [|discriminate].
    apply copy_reads in Ec; [|apply Hd1|exact H1]. split; [exact Ec|exact H2].
Qed.

Lemma reads_end W r : reads W r -> rd_eof L r = true ->
  exists g tl, file = ser_gif g tl /\ file_acc true o g tl /\
    Forall (fun b => match b with BImg i => whole (im_mcs i) (payload (im_subs i)) | _ => True end) (g_blocks g).
Proof.
  intros (Ho & (c & Ec & Hc) & Ht) He. specialize (Ht He).
  destruct (parsed_body L o tabled whole _ _ _ _ Hc) as (g & bs & Hg & Hh & [Ha Hu] & Hb); [rewrite Ht; exact I|].
  unfold body in Hb. rewrite Ht in Hb. destruct Hb as (tl & Hb & Htl). rewrite <- Ec in Hb.
  exists (with_blocks g bs), tl. split; [exact Hb|].
  split; [|eapply Forall_impl; [|exact Ha]; intros [l subs|i|t subs] [_ Q]; [exact I|exact (proj2 Q)|exact I]]. split; [|exact Htl].
  split; [exact Hg|]. split; [|exact Hu]. cbn [with_blocks g_blocks]. eapply Forall_impl; [|exact Ha].
  assert (E10 : nth 10 file 0 = g_flags g).
  { rewrite Hb. unfold ser_gif, ser_head, with_blocks, word, signature. cbn [g_89a g_w g_h g_flags]. destruct (g_89a g); reflexivity. }
  intros b [Hb1 Hb2]. destruct b as [l subs|i|t subs]; [exact Hb1| |exact Hb1]. destruct Hb2 as [Hb2 _]. unfold tabled in Hb2. rewrite E10 in Hb2.
  cbn [blk_acc] in *. destruct Hb1 as [(I1 & I2 & I3 & _) I4]. split; [|exact I4]. repeat (split; [assumption|]). intros _. exact Hb2.
Qed.

Hypothesis J_new : J (lr_new L (o_check_for_end_code o)).
Lemma read_info_whole src d : src_ok src -> file = concat (map ev_bytes src) -> read_info L src o = Ok d ->
  dcd_good L d /\ dopts L d = o /\ dreads W0 d.
Proof.
  intros Hs Ef H. destruct (read_info_returns L safe umax Humax src o Hs) as [_ Hg]. destruct (Hg d H) as [H1 H2].
  split; [exact H1|]. split; [exact H2|]. unfold read_info in H.
  assert (Hno : keeps L whole (fun _ _ _ => False) ONone) by (split; [|split]; intros; contradiction).
  assert (Hx : dreads (fun _ _ _ => False) d).
  2:{ destruct Hx as [A B]. split; [|exact B]. eapply reads_less; [|exact A]. intros r m p []. }
  eapply (init_reads _ Hno); [apply (with_no_init_good L src o Hs)|reflexivity|split; [reflexivity|exact I]| |exact H].
  split; [|intros Q; now contradiction Q]. split; [split; [reflexivity|exact J_new]|]. split; [|discriminate]. exists []. split; [exact Ef|].
  split; [|reflexivity]. repeat split; reflexivity.
Qed.
Lemma all_reads n : forall d d' fs, dcd_good L d -> alloc_ok L umax d -> dreads W0 d -> read_all L umax n d = (d', fs, Ok false) ->
  dreads W0 d' /\ rd_eof L (dc_rd L d') = true.
Proof.
  induction n as [|n IH]; intros d d' fs Hd Ha Hr H; cbn [read_all] in H; [discriminate H|].
  destruct (read_next_frame L umax d) as [d1 y] eqn:E.
  pose proof (read_next_frame_returns L safe umax Humax _ _ _ Hd Ha E) as (_ & Hd1 & Hk & _).
  destruct y as [[|]|e| | ]; try discriminate H.
  - destruct (frame_reads _ _ _ Hd Ha Hr E) as [A _].
    destruct (read_all L umax n d1) as [[d2 fs1] z] eqn:E1. injection H as <- <- ->.
    exact (IH _ _ _ Hd1 (alloc_ok_kept L umax _ _ Hk Ha) A E1).
  - injection H as <- <-. destruct (frame_reads _ _ _ Hd Ha Hr E) as [A B]. auto.
Qed.
Theorem read_whole src d n d' fs : src_ok src -> file = concat (map ev_bytes src) -> limit_ok umax (o_limit o) -> read_info L src o = Ok d ->
  read_all L umax n d = (d', fs, Ok false) ->
  exists g tl, file = ser_gif g tl /\ file_acc true o g tl /\
    Forall (fun b => match b with BImg i => whole (im_mcs i) (payload (im_subs i)) | _ => True end) (g_blocks g).
Proof.
  intros Hs Ef Hl Hi H. destruct (read_info_whole _ _ Hs Ef Hi) as (Hd & Hopt & Hr).
  assert (Ha : alloc_ok L umax d) by (unfold alloc_ok; now rewrite Hopt).
  destruct (all_reads _ _ _ _ Hd Ha Hr H) as [[A _] B]. exact (reads_end _ _ A B).
Qed.
Lemma dop_reads d op d' y : dcd_good L d -> alloc_ok L umax d -> op_ok umax op -> dreads W0 d ->
  run_dop L umax d op = (d', y) -> went_well y ->
  dreads W0 d' /\ (y = OutBool (Ok false) -> rd_eof L (dc_rd L d') = true).
Proof.
  intros Hd Hal Hop Hr H Hy.
  assert (Hcb := decode_next_bytes_ok L safe umax Humax (dopts L d)).
  assert (Hi : rd_good L (dc_rd L d) /\ sd_opts L (rd_dec L (dc_rd L d)) = dopts L d) by (split; [apply Hd|reflexivity]).
  destruct op as [ | |buf|buf]; cbn [run_dop] in H.
  - destruct (next_frame_info L d) as [d1 x] eqn:E. injection H as <- <-. destruct Hy as [b ->].
    destruct (info_reads _ _ _ _ (proj1 Hd) Hr E) as [A B]. split; [exact A|]. intros [= ->]. auto.
  - destruct (read_next_frame L umax d) as [d1 x] eqn:E. injection H as <- <-. destruct Hy as [b ->].
    destruct (frame_reads _ _ _ Hd Hal Hr E) as [A B]. split; [exact A|]. intros [= ->]. auto.
  - destruct (read_into_buffer L umax d buf) as [[d1 b] x] eqn:E. injection H as <- <-. cbn in Hy. subst x. split; [|discriminate].
    unfold read_into_buffer in E.
    match type of E with context [conv_read_into_buffer ?a ?b ?c ?d ?e ?f ?g] =>
      destruct (conv_read_into_buffer a b c d e f g) as [[[r c1] b1] z] eqn:Ec end.
    injection E as <- <- ->. pose proof Ec as Ec'.
    apply (conv_read_into_buffer_ok umax _ _ _ Hcb) in Ec'; [|apply Hd|exact Humax|exact Hop|exact Hi].
    destruct Ec' as (_ & _ & (_ & _ & Eg) & _).
    apply (into_p umax _ _ _ Hcb (reads W0) (bytes_reads (dopts L d))) in Ec; [|exact Hi|apply Hr].
    split; [exact Ec|]. cbn [dc_conv set_conv]. rewrite Eg. apply Hr.
  - destruct (fill_buffer L d buf) as [[d1 b] x] eqn:E. injection H as <- <-. destruct Hy as [v ->]. split; [|discriminate].
    unfold fill_buffer in E.
    match type of E with context [conv_fill_buffer ?b ?c ?d ?e ?f ?g] =>
      destruct (conv_fill_buffer b c d e f g) as [[[r c1] b1] z] eqn:Ec end.
    injection E as <- <- ->. pose proof Ec as Ec'.
    apply (conv_fill_buffer_ok _ _ _ Hcb) in Ec'; [|exact Hi]. destruct Ec' as (_ & _ & (_ & _ & Eg) & _).
    apply (fill_p _ _ _ Hcb (reads W0) (bytes_reads (dopts L d))) in Ec; [|exact Hi|apply Hr].
    split; [exact Ec|]. cbn [dc_conv set_conv]. rewrite Eg. apply Hr.
Qed.


Lemma calls_read os : forall d d' ys, Forall (op_ok umax) os -> dcd_good L d -> alloc_ok L umax d -> dreads W0 d ->
  run_dops L umax d os = (d', ys) -> Forall went_well ys -> In (OutBool (Ok false)) ys ->
  exists d1, dreads W0 d1 /\ rd_eof L (dc_rd L d1) = true.
Proof.
  induction os as [|op os IH]; intros d d' ys Ho Hd Ha Hr H Hy Hin; cbn [run_dops] in H.
  { injection H as <- <-. contradiction Hin. }
  destruct (run_dop L umax d op) as [d1 y] eqn:E. destruct (run_dops L umax d1 os) as [d2 ys1] eqn:E1. injection H as <- <-.
  apply Forall_cons_iff in Ho as [Ho1 Ho]. apply Forall_cons_iff in Hy as [Hy1 Hy].
  pose proof (run_dop_returns L safe umax Humax _ _ _ _ Hd Ha Ho1 E) as (_ & Hd1 & Hk).
  destruct (dop_reads _ _ _ _ Hd Ha Ho1 Hr E Hy1) as [A B].
  destruct Hin as [->|Hin]; [eauto|]. exact (IH _ _ _ Ho Hd1 (alloc_ok_kept L umax _ _ Hk Ha) A E1 Hy Hin).
Qed.
(** Any calls that go well, up to the end of the file. *)
Theorem calls_whole src d os d' ys : src_ok src -> file = concat (map ev_bytes src) -> limit_ok umax (o_limit o) -> Forall (op_ok umax) os ->
  read_info L src o = Ok d -> run_dops L umax d os = (d', ys) -> Forall went_well ys -> In (OutBool (Ok false)) ys ->
  exists g tl, file = ser_gif g tl /\ file_acc true o g tl /\
    Forall (fun b => match b with BImg i => whole (im_mcs i) (payload (im_subs i)) | _ => True end) (g_blocks g).
Proof.
  intros Hs Ef Hl Ho Hi H Hy Hin. destruct (read_info_whole _ _ Hs Ef Hi) as (Hd & Hopt & Hr).
  assert (Ha : alloc_ok L umax d) by (unfold alloc_ok; now rewrite Hopt).
  destruct (calls_read _ _ _ _ Ho Hd Ha Hr H Hy Hin) as (d1 & [A _] & B). exact (reads_end _ _ A B).
Qed.
End Dec.

Section Whole.
Variable L : lzw_codec.
Hypothesis safe : lzw_safe L.
Variable umax : N.
Hypothesis Humax : 2 ^ 32 - 1 <= umax.

Definition any_reader (r : lzw_reader L) : Prop := True.
Lemma src_bytes src : src_ok src -> bytes_ok (concat (map ev_bytes src)).
Proof.
  intros Hs. induction Hs as [|e src He _ IH]; [constructor|]. cbn [map concat]. apply Forall_app. split; [|exact IH].
  destruct e; [exact He|constructor].
Qed.
Theorem calls_accept src o d os d' ys : src_ok src -> limit_ok umax (o_limit o) -> Forall (op_ok umax) os ->
  read_info L src o = Ok d -> run_dops L umax d os = (d', ys) -> Forall went_well ys -> In (OutBool (Ok false)) ys ->
  exists g tl, concat (map ev_bytes src) = ser_gif g tl /\ file_acc true o g tl.
Proof.
  intros Hs Hl Ho Hi H Hy Hin.
  destruct (calls_whole L safe umax Humax o _ (src_bytes _ Hs) any_data (fun _ _ _ => I) any_reader (fun _ _ _ _ _ _ => I) (fun _ _ _ _ _ _ _ _ => I)
    (any_lzw L) (any_lzw L) (fun _ _ _ _ _ => I) (fun _ _ _ q => q) (fun s => any_keeps L (OSlice s)) (any_keeps L ONone)
    (fun s => any_keeps L (OVec s)) I src d os d' ys Hs eq_refl Hl Ho Hi H Hy Hin) as (g & tl & E & F & _). eauto.
Qed.
Theorem read_accepts src o d n d' fs : src_ok src -> limit_ok umax (o_limit o) -> read_info L src o = Ok d ->
  read_all L umax n d = (d', fs, Ok false) -> exists g tl, concat (map ev_bytes src) = ser_gif g tl /\ file_acc true o g tl.
Proof.
  intros Hs Hl Hi H.
  destruct (read_whole L safe umax Humax o _ (src_bytes _ Hs) any_data (fun _ _ _ => I) any_reader (fun _ _ _ _ _ _ => I) (fun _ _ _ _ _ _ _ _ => I)
    (any_lzw L) (any_lzw L) (fun _ _ _ _ _ => I) (fun _ _ _ q => q) (fun s => any_keeps L (OSlice s)) (any_keeps L ONone)
    (fun s => any_keeps L (OVec s)) I src d n d' fs Hs eq_refl Hl Hi H) as (g & tl & E & F & _). eauto.
Qed.
Theorem scan_accepts src o d n d' fs : src_ok src -> read_info L src o = Ok d ->
  scan_all L n d = (d', fs, Ok false) -> exists g tl, concat (map ev_bytes src) = ser_gif g tl /\ file_acc true o g tl.
Proof.
  intros Hs Hi H. pose proof (src_bytes _ Hs) as Hf.
  destruct (read_info_whole L safe umax Humax o _ Hf any_data (fun _ _ _ => I) any_reader (fun _ _ _ _ _ _ => I) (fun _ _ _ _ _ _ _ _ => I)
    (any_lzw L) (fun _ _ _ _ _ => I) I src d Hs eq_refl Hi) as (Hd & Hopt & Hr).
  set (file := concat (map ev_bytes src)) in *. clear Hi Hopt. revert d d' fs Hd Hr H.
  induction n as [|n IH]; intros d d' fs Hd Hr H; cbn [scan_all] in H; [discriminate H|].
  destruct (next_frame_info L d) as [d1 y] eqn:E.
  pose proof (next_frame_info_returns L safe umax Humax _ _ _ Hd E) as (_ & Hd1 & Hk & _).
  assert (Hn : forall x, y = Ok x -> dreads L o file any_data any_reader (any_lzw L) d1 /\ (x = false -> rd_eof L (dc_rd L d1) = true)).
  { intros x ->.
    exact (info_reads L safe o file Hf any_data (fun _ _ _ => I) any_reader (fun _ _ _ _ _ _ => I) (fun _ _ _ _ _ _ _ _ => I)
      (any_lzw L) (any_lzw L) (fun _ _ _ _ _ => I) (fun _ _ _ q => q) (any_keeps L ONone) _ d d1 x (proj1 Hd) Hr E). }
  destruct y as [[|]|e| | ]; try discriminate H; destruct (Hn _ eq_refl) as [A B].
  - destruct (scan_all L n d1) as [[d2 fs1] z] eqn:E1. injection H as <- <- ->. exact (IH _ _ _ Hd1 A E1).
  - destruct (reads_end _ _ _ _ _ _ _ (proj1 A) (B eq_refl)) as (g & tl & F & G & _). eauto.
Qed.
End Whole.
