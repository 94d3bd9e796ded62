(** Data of the file are stored in reserved memory only: without memory the decoder stores none. *)
From Verif Require Import Base Common Lzw Encoder Stream Converter Reader OomModel SpecOom StreamInv Steps.
Open Scope N_scope.

Section Need.
Variable L : lzw_codec.
Notation sd := (sd L).
Definition colorless (f : frame) : Prop := f_palette f = None \/ f_palette f = Some [].
Definition hungry (s : sd) : Prop :=
  sd_gct L s = [] /\ (length (sd_ext_data L s) <= 1)%nat /\
  match sd_current L s with Some f => colorless f | None => True end /\
  match sd_state L s with
  | GlobalPalette (S _) | LocalPalette (S _) => False
  | ExtensionBlockStart => sd_ext_data L s = []
  | _ => True
  end.
Definition no_colors (d : decoded) : Prop := forall p, d = DGlobalPalette p -> p = [].
Definition same_vec (s : sd) (ob ob' : obuf) : Prop :=
  forall v, ob = OVec v -> o_skip_frame_decoding (sd_opts L s) = true -> ob' = OVec v.

Lemma same_vec_refl s ob : same_vec s ob ob.
Proof. intros v -> _. reflexivity. Qed.

Lemma ensure_min_ibuf s buf k : match ensure_min L s buf k with
  | GotPanic _ => True
  | GotMore _ s1 _ | GotAll _ s1 _ _ => exists d, s1 = set_ibuf L s d
  end.
Proof.
  assert (E : exists d, s = set_ibuf L s d) by (exists (sd_ibuf L s); destruct s; reflexivity).
  unfold ensure_min. destruct (_ && _); [exact E|]. destruct (_ <? k)%nat; [|exact E]. destruct (9 <? _)%nat; [exact I|].
  destruct (_ <? k)%nat; eexists; reflexivity.
Qed.

Definition fine (s : sd) (ob : obuf) (y : sd * obuf * dres (nat * decoded)) : Prop :=
  let '(s', ob', r) := y in
  hungry s' /\ sd_opts L s' = sd_opts L s /\ same_vec s ob ob' /\ forall n d, r = Ok (n, d) -> no_colors d.
Lemma fine_intro s ob s' r : hungry s' -> sd_opts L s' = sd_opts L s -> (forall n d, r = Ok (n, d) -> no_colors d) -> fine s ob (s', ob, r).
Proof. intros H1 H2 H3. split; [exact H1|]. split; [exact H2|]. split; [apply same_vec_refl|exact H3]. Qed.

Ltac quiet := let n := fresh in let d := fresh in let p := fresh in intros n d; try discriminate; intros [= <- <-]; intros p; try discriminate.
Ltac hungered := unfold hungry; sdcbn; (split; [assumption|]); (split; [assumption|]); (split; [assumption|]).

(** A step that needs no reservation. *)
Lemma hungry_step s buf ob : hungry s -> reserving L s buf ob = None -> fine s ob (next_state L s buf ob).
Proof.
  intros (Hg & Hx & Hc & Hs) Hr. unfold next_state. destruct buf as [|b buf].
  { apply fine_intro; [repeat split; assumption|reflexivity|discriminate]. }
  remember (b :: buf) as bf eqn:Eb. unfold reserving in Hr.
  destruct (sd_state L s) as [ | | | lft | t | | | lft | | lft | m | lft | lft | | ] eqn:Est; unfold goto.
  - pose proof (ensure_min_ibuf s bf 6) as He. destruct (ensure_min L s bf 6) as [ |s1 n|s1 n v].
    + apply fine_intro; [repeat split; try assumption; now rewrite Est|reflexivity|discriminate].
    + destruct He as [d ->]. apply fine_intro; [hungered; now rewrite Est|reflexivity|quiet].
    + destruct He as [d ->]. destruct (list_eqb v GIF87a); [|destruct (list_eqb v GIF89a)];
        (apply fine_intro; [hungered; try rewrite Est; exact I|reflexivity|quiet]).
  - pose proof (ensure_min_ibuf s bf 7) as He. destruct (ensure_min L s bf 7) as [ |s1 n|s1 n v].
    + apply fine_intro; [repeat split; try assumption; now rewrite Est|reflexivity|discriminate].
    + destruct He as [d ->]. apply fine_intro; [hungered; now rewrite Est|reflexivity|quiet].
    + destruct He as [d ->]. cbn zeta. destruct (negb _); [discriminate Hr|]. apply fine_intro; [hungered; exact I|reflexivity|quiet].
  - pose proof (ensure_min_ibuf s bf 9) as He. destruct (ensure_min L s bf 9) as [ |s1 n|s1 n v].
    + apply fine_intro; [repeat split; try assumption; now rewrite Est|reflexivity|discriminate].
    + destruct He as [d ->]. apply fine_intro; [hungered; now rewrite Est|reflexivity|quiet].
    + destruct He as [d ->]. revert Hr. sdcbn. destruct (sd_current L s) as [f|] eqn:Ef.
      2:{ intros _. apply fine_intro; [unfold hungry; sdcbn; rewrite Ef, Est; auto|reflexivity|discriminate]. }
      cbn zeta. destruct (_ && _); [intros _; apply fine_intro; [unfold hungry; sdcbn; rewrite Est; auto|reflexivity|discriminate]|].
      destruct (negb (N.land (at_ v 8) 128 =? 0)).
      * destruct (f_palette _); discriminate.
      * intros _. apply fine_intro; [unfold hungry; sdcbn; auto|reflexivity|quiet].
  - destruct lft as [|lft]; [|contradiction]. cbn [Nat.ltb Nat.leb]. apply fine_intro; [unfold hungry; sdcbn; auto|reflexivity|].
    intros n d [= <- <-] p [= <-]. exact Hg.
  - destruct (_ && _); [apply fine_intro; [unfold hungry; sdcbn; auto|reflexivity|quiet]|].
    destruct (block_from_u8 t) as [[ | | ]|].
    + unfold add_frame. apply fine_intro; [|destruct (sd_current L s); reflexivity|quiet].
      destruct (sd_current L s) as [f|] eqn:Ef; unfold hungry; sdcbn; [rewrite Ef; auto|]. repeat split; auto. left. reflexivity.
    + destruct (extension_from_u8 b); (apply fine_intro; [unfold hungry; sdcbn; try rewrite Est; cbn [length]; repeat split; auto; lia|reflexivity|quiet]).
    + apply fine_intro; [unfold hungry; sdcbn; auto|reflexivity|quiet].
    + destruct (o_allow_unknown_blocks (sd_opts L s)); (apply fine_intro; [unfold hungry; sdcbn; try rewrite Est; auto|reflexivity|quiet]).
  - destruct (b =? _); (apply fine_intro; [unfold hungry; sdcbn; auto|reflexivity|quiet]).
  - apply fine_intro; [unfold hungry; sdcbn; rewrite Hs; cbn [app length]; repeat split; auto; lia|reflexivity|quiet].
  - destruct (0 <? lft)%nat.
    + cbn [andb] in Hr. cbn zeta. destruct (check_size _ _); [discriminate Hr|].
      apply fine_intro; [unfold hungry; rewrite Est; auto|reflexivity|discriminate].
    + destruct (b =? 0).
      * cbn zeta. sdcbn.
        assert (Hfin : forall st n d, (forall p, d <> DGlobalPalette p) -> (st = ApplicationExtension \/ st = BlockEnd) ->
          fine s ob (set_state L (set_ext L s (sd_ext_id L s) (sd_ext_data L s) true) st, ob, Ok (n, d))).
        { intros st n d Hd Hst. apply fine_intro; [unfold hungry; sdcbn; destruct Hst as [-> | ->]; auto|reflexivity|].
          intros ? ? [= <- <-] p E. destruct (Hd p E). }
        destruct (extension_from_u8 (sd_ext_id L s)) as [[ | | | ]|]; try (apply Hfin; [discriminate|auto]).
        unfold read_control_extension. sdcbn. destruct (negb _) eqn:E5; [apply fine_intro; [unfold hungry; sdcbn; rewrite Est; auto|reflexivity|discriminate]|].
        exfalso. apply negb_false_iff, Nat.eqb_eq in E5. lia.
      * apply fine_intro; [unfold hungry; sdcbn; auto|reflexivity|quiet].
  - destruct (negb _); [apply fine_intro; [unfold hungry; rewrite Est; auto|reflexivity|discriminate]|].
    destruct (is_netscape _); (apply fine_intro; [unfold hungry; sdcbn; auto|reflexivity|quiet]).
  - destruct lft as [|lft]; [|contradiction]. cbn [Nat.ltb Nat.leb]. apply fine_intro; [unfold hungry; sdcbn; auto|reflexivity|quiet].
  - destruct (negb _).
    + destruct (lr_reset L (sd_lzw L s) m) as [r x]. destruct x as [u|e| | ];
        (apply fine_intro; [unfold hungry; sdcbn; try rewrite Est; auto|reflexivity|quiet]).
    + destruct (check_code_size m); (apply fine_intro; [unfold hungry; sdcbn; try rewrite Est; auto|reflexivity|quiet]).
  - destruct (o_skip_frame_decoding (sd_opts L s)) eqn:Esk; [apply fine_intro; [unfold hungry; rewrite Est; auto|reflexivity|discriminate]|].
    assert (Hv : forall ob', same_vec s ob ob') by (intros ob' v _ E; congruence).
    assert (Hd : forall r1 st ob1 x, (exists k, st = DecodeSubBlock k) \/ st = FrameDecoded ->
      (forall n d, x = Ok (n, d) -> no_colors d) -> fine s ob (set_state L (set_lzw L s r1) st, ob1, x)).
    { intros r1 st ob1 x Hst Hx1. split; [unfold hungry; sdcbn; destruct Hst as [[k ->]| ->]; auto|]. split; [reflexivity|]. split; [apply Hv|exact Hx1]. }
    assert (Hq : forall r1 ob1 x, (forall n d, x = Ok (n, d) -> no_colors d) -> fine s ob (set_lzw L s r1, ob1, x)).
    { intros r1 ob1 x Hx1. split; [unfold hungry; sdcbn; rewrite Est; auto|]. split; [reflexivity|]. split; [apply Hv|exact Hx1]. }
    destruct (0 <? lft)%nat.
    + cbn zeta. destruct (_ || _); [apply fine_intro; [unfold hungry; sdcbn; auto|reflexivity|quiet]|].
      destruct (lr_decode_bytes _ _ _ _) as [[r1 ob1] x]. destruct x as [[c0 w]|e| | ]; try (apply Hq; quiet).
      destruct (_ <? _)%nat; [apply Hq; quiet|]. apply Hd; [eauto|]. intros n d [= <- <-]. destruct (w =? 0)%nat; intros p; discriminate.
    + destruct (negb _); [apply fine_intro; [unfold hungry; sdcbn; auto|reflexivity|quiet]|].
      destruct (lr_decode_bytes _ _ _ _) as [[r1 ob1] x]. destruct x as [[c0 w]|e| | ]; try (apply Hq; quiet).
      destruct (w =? 0)%nat; (apply Hd; [eauto|quiet]).
  - destruct (o_skip_frame_decoding (sd_opts L s)) eqn:Esk; cbn [negb]; [|apply fine_intro; [unfold hungry; rewrite Est; auto|reflexivity|discriminate]].
    destruct (0 <? lft)%nat.
    + cbn zeta. destruct ob as [o1|v|]; cbn [obuf_append].
      * cbn [andb] in Hr. destruct (lft <? _)%nat; (split; [unfold hungry; sdcbn; try rewrite Est; auto|]; split; [reflexivity|]; split; [intros v; discriminate|quiet]).
      * cbn [andb] in Hr. destruct (check_size _ _); [discriminate Hr|].
        apply fine_intro; [unfold hungry; rewrite Est; auto|reflexivity|discriminate].
      * destruct (lft <? _)%nat; (split; [unfold hungry; sdcbn; try rewrite Est; auto|]; split; [reflexivity|]; split; [intros v; discriminate|quiet]).
    + destruct (negb _); (apply fine_intro; [unfold hungry; sdcbn; auto|reflexivity|quiet]).
  - destruct (b =? 0); (apply fine_intro; [unfold hungry; sdcbn; try rewrite Est; auto|reflexivity|quiet]).
  - apply fine_intro; [unfold hungry; sdcbn; auto|reflexivity|quiet].
Qed.

(** After a reservation that fails. *)
Lemma hungry_refused s buf ob s' : hungry s -> reserving L s buf ob = Some s' -> hungry s' /\ sd_opts L s' = sd_opts L s.
Proof.
  intros (Hg & Hx & Hc & Hs) H. unfold reserving in H.
  destruct (sd_state L s) as [ | | | lft | t | | | lft | | lft | m | lft | lft | | ] eqn:Est; try discriminate H.
  - pose proof (ensure_min_ibuf s buf 7) as He. destruct (ensure_min L s buf 7) as [ |s1 n|s1 n v]; try discriminate H.
    destruct He as [d ->]. destruct (negb _); [|discriminate H]. injection H as <-. split; [hungered; now rewrite Est|reflexivity].
  - pose proof (ensure_min_ibuf s buf 9) as He. destruct (ensure_min L s buf 9) as [ |s1 n|s1 n v]; try discriminate H.
    destruct He as [d ->]. revert H. sdcbn. destruct (sd_current L s) as [f|] eqn:Ef; [|discriminate]. cbn zeta.
    destruct (_ && _); [discriminate|]. destruct (negb (N.land (at_ v 8) 128 =? 0)); [|discriminate].
    destruct Hc as [Hc|Hc]; cbn [f_palette set_geometry]; rewrite Hc; intros [= <-]; (split; [|reflexivity]);
      unfold hungry; sdcbn; rewrite Est; repeat split; auto; right; reflexivity.
  - destruct (_ && _); [|discriminate H]. injection H as <-. split; [unfold hungry; rewrite Est; auto|reflexivity].
  - destruct ob as [o1|v|]; try discriminate H. destruct (_ && _); [|discriminate H]. injection H as <-.
    split; [unfold hungry; rewrite Est; auto|reflexivity].
Qed.

Lemma update_loop_hungry fuel : forall mem s buf ob total mem' s' ob' r, hungry s ->
  update_loop_o L fuel (false :: mem) s buf ob total = (mem', (s', ob', r)) ->
  hungry s' /\ sd_opts L s' = sd_opts L s /\ same_vec s ob ob' /\ forall n d, r = Ok (n, d) -> no_colors d.
Proof.
  induction fuel as [|fuel IH]; intros mem s buf ob total mem' s' ob' r Hs H; cbn [update_loop_o] in H.
  { destruct buf; injection H as _ <- <- <-; (split; [exact Hs|]; split; [reflexivity|]; split; [apply same_vec_refl|quiet]). }
  destruct buf as [|b buf]; [injection H as _ <- <- <-; split; [exact Hs|]; split; [reflexivity|]; split; [apply same_vec_refl|quiet]|].
  unfold next_state_o in H.
  destruct (reserving L s (b :: buf) ob) as [s1|] eqn:Er.
  { cbn [reserve] in H. injection H as _ <- <- <-. destruct (hungry_refused _ _ _ _ Hs Er) as [A B].
    split; [exact A|]. split; [exact B|]. split; [apply same_vec_refl|discriminate]. }
  pose proof (hungry_step s (b :: buf) ob Hs Er) as Hf. destruct (next_state L s (b :: buf) ob) as [[s1 ob1] x]. destruct Hf as (F1 & F2 & F3 & F4).
  destruct x as [[n d]|e| | ]; try (injection H as _ <- <- <-; split; [exact F1|]; split; [exact F2|]; split; [exact F3|discriminate]).
  destruct d; try (injection H as _ <- <- <-; split; [exact F1|]; split; [exact F2|]; split; [exact F3|]; intros ? ? [= <- <-]; exact (F4 _ _ eq_refl)).
  apply IH in H; [|exact F1]. destruct H as (I1 & I2 & I3 & I4). split; [exact I1|]. split; [congruence|]. split; [|exact I4].
  intros v E Hk. apply I3; [exact (F3 v E Hk)|congruence].
Qed.

Lemma starved_hungry o s evs : starved L o s evs -> hungry s /\ sd_opts L s = o /\ Forall no_colors evs.
Proof.
  induction 1 as [|mem mem' s buf ob s' ob' n d evs Hs IH Hu|mem mem' s buf ob s' ob' e evs Hs IH Hu].
  - split; [|split; [reflexivity|constructor]]. unfold hungry. cbn. repeat split; auto; lia.
  - destruct IH as (I1 & I2 & I3). apply update_loop_hungry in Hu; [|exact I1]. destruct Hu as (U1 & U2 & _ & U4).
    split; [exact U1|]. split; [congruence|]. apply Forall_app. split; [exact I3|]. constructor; [exact (U4 _ _ eq_refl)|constructor].
  - destruct IH as (I1 & I2 & I3). apply update_loop_hungry in Hu; [|exact I1]. destruct Hu as (U1 & U2 & _ & _).
    split; [exact U1|]. split; [congruence|exact I3].
Qed.
Theorem starved_stores_nothing o s evs : starved L o s evs ->
  (length (snd (fst (last_ext L s))) <= 1)%nat /\
  (forall p, In (DGlobalPalette p) evs -> p = []) /\
  (forall f p, sd_current L s = Some f -> f_palette f = Some p -> p = []) /\
  (forall mem buf v mem' s' ob' x, o_skip_frame_decoding o = true ->
     update_o L (false :: mem) s buf (OVec v) = (mem', (s', ob', x)) -> ob' = OVec v).
Proof.
  intros H. destruct (starved_hungry _ _ _ H) as ((Hg & Hx & Hc & Hs) & Ho & He). split; [exact Hx|]. split; [|split].
  - intros p Hp. rewrite Forall_forall in He. exact (He _ Hp p eq_refl).
  - intros f p E1 E2. rewrite E1 in Hc. destruct Hc as [Hc|Hc]; congruence.
  - intros mem buf v mem' s' ob' x Hk Hu. apply update_loop_hungry in Hu; [|repeat split; assumption].
    destruct Hu as (_ & _ & U3 & _). apply (U3 v eq_refl). congruence.
Qed.
End Need.
