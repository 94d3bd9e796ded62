(** What happens to the frame under construction has no influence on anything else. *)
From Verif Require Import Base Common Lzw Encoder Stream SpecMut.

Section Mut.
Variable L : lzw_codec.

Lemma alike_inv (s s' : sd L) : alike s s' ->
  s' = set_current L s (sd_current L s') (sd_pal_cap L s') /\ (sd_current L s = None <-> sd_current L s' = None).
Proof.
  intros []. split; [|assumption]. destruct s, s'. unfold set_current, last_ext in *. cbn in *.
  injection al_ext as -> -> ->. congruence.
Qed.
Lemma alike_set (s : sd L) f c : (sd_current L s = None <-> f = None) -> alike s (set_current L s f c).
Proof. intros H. destruct s. constructor; try reflexivity. exact H. Qed.
Lemma alike_both (s : sd L) f c f' c' : (f = None <-> f' = None) -> alike (set_current L s f c) (set_current L s f' c').
Proof. intros H. destruct s. constructor; try reflexivity. exact H. Qed.
Lemma alike_refl (s : sd L) : alike s s.
Proof. constructor; reflexivity. Qed.

Lemma p_state (s : sd L) f c : sd_state L (set_current L s f c) = sd_state L s. Proof. destruct s; reflexivity. Qed.
Lemma p_ibuf (s : sd L) f c : sd_ibuf L (set_current L s f c) = sd_ibuf L s. Proof. destruct s; reflexivity. Qed.
Lemma p_lzw (s : sd L) f c : sd_lzw L (set_current L s f c) = sd_lzw L s. Proof. destruct s; reflexivity. Qed.
Lemma p_opts (s : sd L) f c : sd_opts L (set_current L s f c) = sd_opts L s. Proof. destruct s; reflexivity. Qed.
Lemma p_version (s : sd L) f c : sd_version L (set_current L s f c) = sd_version L s. Proof. destruct s; reflexivity. Qed.
Lemma p_width (s : sd L) f c : sd_width L (set_current L s f c) = sd_width L s. Proof. destruct s; reflexivity. Qed.
Lemma p_height (s : sd L) f c : sd_height L (set_current L s f c) = sd_height L s. Proof. destruct s; reflexivity. Qed.
Lemma p_gct (s : sd L) f c : sd_gct L (set_current L s f c) = sd_gct L s. Proof. destruct s; reflexivity. Qed.
Lemma p_gct_cap (s : sd L) f c : sd_gct_cap L (set_current L s f c) = sd_gct_cap L s. Proof. destruct s; reflexivity. Qed.
Lemma p_ext_id (s : sd L) f c : sd_ext_id L (set_current L s f c) = sd_ext_id L s. Proof. destruct s; reflexivity. Qed.
Lemma p_ext_data (s : sd L) f c : sd_ext_data L (set_current L s f c) = sd_ext_data L s. Proof. destruct s; reflexivity. Qed.
Lemma p_ext_end (s : sd L) f c : sd_ext_end L (set_current L s f c) = sd_ext_end L s. Proof. destruct s; reflexivity. Qed.
Lemma p_header_end (s : sd L) f c : sd_header_end L (set_current L s f c) = sd_header_end L s. Proof. destruct s; reflexivity. Qed.
Lemma p_current (s : sd L) f c : sd_current L (set_current L s f c) = f. Proof. destruct s; reflexivity. Qed.
Lemma p_pal_cap (s : sd L) f c : sd_pal_cap L (set_current L s f c) = c. Proof. destruct s; reflexivity. Qed.
Lemma c_state (s : sd L) f c x : set_state L (set_current L s f c) x = set_current L (set_state L s x) f c. Proof. destruct s; reflexivity. Qed.
Lemma c_ibuf (s : sd L) f c x : set_ibuf L (set_current L s f c) x = set_current L (set_ibuf L s x) f c. Proof. destruct s; reflexivity. Qed.
Lemma c_lzw (s : sd L) f c x : set_lzw L (set_current L s f c) x = set_current L (set_lzw L s x) f c. Proof. destruct s; reflexivity. Qed.
Lemma c_version (s : sd L) f c x : set_version L (set_current L s f c) x = set_current L (set_version L s x) f c. Proof. destruct s; reflexivity. Qed.
Lemma c_screen (s : sd L) f c x y : set_screen L (set_current L s f c) x y = set_current L (set_screen L s x y) f c. Proof. destruct s; reflexivity. Qed.
Lemma c_gct (s : sd L) f c x y : set_gct L (set_current L s f c) x y = set_current L (set_gct L s x y) f c. Proof. destruct s; reflexivity. Qed.
Lemma c_ext (s : sd L) f c x y z : set_ext L (set_current L s f c) x y z = set_current L (set_ext L s x y z) f c. Proof. destruct s; reflexivity. Qed.
Lemma c_header (s : sd L) f c x : set_header_end L (set_current L s f c) x = set_current L (set_header_end L s x) f c. Proof. destruct s; reflexivity. Qed.
Lemma c_current (s : sd L) f c f' c' : set_current L (set_current L s f c) f' c' = set_current L s f' c'. Proof. destruct s; reflexivity. Qed.
Lemma q_state (s : sd L) x : sd_current L (set_state L s x) = sd_current L s. Proof. destruct s; reflexivity. Qed.
Lemma q_ibuf (s : sd L) x : sd_current L (set_ibuf L s x) = sd_current L s. Proof. destruct s; reflexivity. Qed.
Lemma q_lzw (s : sd L) x : sd_current L (set_lzw L s x) = sd_current L s. Proof. destruct s; reflexivity. Qed.
Lemma q_version (s : sd L) x : sd_current L (set_version L s x) = sd_current L s. Proof. destruct s; reflexivity. Qed.
Lemma q_screen (s : sd L) x y : sd_current L (set_screen L s x y) = sd_current L s. Proof. destruct s; reflexivity. Qed.
Lemma q_gct (s : sd L) x y : sd_current L (set_gct L s x y) = sd_current L s. Proof. destruct s; reflexivity. Qed.
Lemma q_ext (s : sd L) x y z : sd_current L (set_ext L s x y z) = sd_current L s. Proof. destruct s; reflexivity. Qed.
Lemma q_header_end (s : sd L) x : sd_current L (set_header_end L s x) = sd_current L s. Proof. destruct s; reflexivity. Qed.

Lemma ensure_alike s f c buf n :
  ensure_min L (set_current L s f c) buf n =
  match ensure_min L s buf n with
  | GotPanic _ => GotPanic L
  | GotMore _ s1 k => GotMore L (set_current L s1 f c) k
  | GotAll _ s1 k d => GotAll L (set_current L s1 f c) k d
  end.
Proof.
  unfold ensure_min. rewrite p_ibuf.
  repeat match goal with |- context [if ?b then _ else _] => destruct b end; rewrite ?c_ibuf; reflexivity.
Qed.
Lemma ensure_cur s buf n : match ensure_min L s buf n with
  | GotPanic _ => True
  | GotMore _ s1 _ | GotAll _ s1 _ _ => sd_current L s1 = sd_current L s
  end.
Proof.
  unfold ensure_min.
  repeat match goal with |- context [if ?b then _ else _] => destruct b end; try exact I; rewrite ?q_ibuf; reflexivity.
Qed.

Definition same_step (x y : sd L * obuf * dres (nat * decoded)) : Prop :=
  alike (fst (fst x)) (fst (fst y)) /\ snd (fst x) = snd (fst y) /\ snd x = snd y.


Ltac mv := repeat progress rewrite ?p_state, ?p_ibuf, ?p_lzw, ?p_opts, ?p_version, ?p_width, ?p_height, ?p_gct, ?p_gct_cap, ?p_ext_id, ?p_ext_data, ?p_ext_end, ?p_header_end, ?p_current, ?p_pal_cap, ?c_state, ?c_ibuf, ?c_lzw, ?c_version, ?c_screen, ?c_gct, ?c_ext, ?c_header, ?c_current.
Ltac leaf := split; [cbn [fst snd]; mv; apply alike_set; repeat progress rewrite ?q_state, ?q_ibuf, ?q_lzw, ?q_version, ?q_screen, ?q_gct, ?q_ext, ?q_header_end; try assumption|split; reflexivity].

Lemma next_alike s f c buf ob : (sd_current L s = None <-> f = None) ->
  same_step (next_state L s buf ob) (next_state L (set_current L s f c) buf ob).
Proof.
  intros Hf. unfold next_state, goto. destruct buf as [|b buf'];
    [split; [apply alike_set; exact Hf|split; reflexivity]|].
  set (buf := b :: buf'). clearbody buf. rewrite p_state. destruct (sd_state L s).
  - rewrite ensure_alike. pose proof (ensure_cur s buf 6) as Hc. destruct (ensure_min L s buf 6) as [|s1 n|s1 n d]; try leaf.
    + rewrite Hc. exact Hf.
    + destruct (list_eqb d GIF87a); [leaf|destruct (list_eqb d GIF89a); leaf]. all: rewrite Hc; exact Hf.
  - rewrite ensure_alike. pose proof (ensure_cur s buf 7) as Hc. destruct (ensure_min L s buf 7) as [|s1 n|s1 n d]; try leaf.
    + rewrite Hc. exact Hf.
    + destruct (negb (N.land (at_ d 4) 0x80 =? 0)%N); leaf. all: rewrite Hc; exact Hf.
  - rewrite ensure_alike. pose proof (ensure_cur s buf 9) as Hc. destruct (ensure_min L s buf 9) as [|s1 n|s1 n h]; try leaf.
    + rewrite Hc. exact Hf.
    + rewrite p_current, Hc. destruct (sd_current L s) as [f0|] eqn:E0.
      * destruct f as [f1|]; [|exfalso; destruct Hf as [_ Hf]; discriminate (Hf eq_refl)].
        mv. destruct (_ && _)%bool; [|destruct (negb _)].
        -- split; [cbn [fst snd]|split; reflexivity]. apply alike_both. split; discriminate.
        -- cbn [f_palette set_geometry].
           set (x := match f_palette f0 with Some p => (p, sd_pal_cap L s1) | None => ([], 0%nat) end).
           set (y := match f_palette f1 with Some p => (p, c) | None => ([], 0%nat) end).
           clearbody x y. destruct x as [p1 c1], y as [p2 c2].
           split; [cbn [fst snd]; mv|split; reflexivity].
           apply alike_both. split; discriminate.
        -- split; [cbn [fst snd]; mv|split; reflexivity]. apply alike_both. split; discriminate.
      * destruct f as [f1|]; [exfalso; destruct Hf as [Hf _]; discriminate (Hf eq_refl)|].
        leaf. rewrite Hc. tauto.
  - mv. destruct (0 <? lft)%nat; [destruct (_ <=? _)%nat|]; leaf.
  - mv. destruct (_ && _)%bool; [leaf|]. destruct (block_from_u8 _) as [[| |]|].
    + unfold add_frame. mv. destruct (sd_current L s) as [f0|] eqn:E0; destruct f as [f1|]; try solve [exfalso; destruct Hf as [H1 H2]; (discriminate (H1 eq_refl) || discriminate (H2 eq_refl))].
      * leaf. rewrite E0. exact Hf.
      * split; [cbn [fst snd]; mv|split; reflexivity]. apply alike_both. tauto.
    + destruct (extension_from_u8 _); leaf.
    + leaf.
    + destruct (o_allow_unknown_blocks _); leaf.
  - destruct (_ =? _)%N; leaf.
  - mv. leaf.
  - mv. destruct (0 <? lft)%nat; [destruct (check_size _ _); leaf|]. destruct (b =? 0)%N; [|leaf].
    rewrite ?c_ext, ?p_ext_id. destruct (extension_from_u8 _) as [[| | |]|]; try leaf.
    unfold read_control_extension. mv. destruct (negb _); [leaf|].
    split; [cbn [fst snd]; mv|split; cbn [fst snd]; mv; reflexivity].
    apply alike_both. split; discriminate.
  - mv. destruct (negb _); [leaf|]. destruct (is_netscape _); leaf.
  - mv. destruct (0 <? lft)%nat; [|leaf].
    destruct (sd_current L s) as [f0|] eqn:E0; destruct f as [f1|]; try solve [exfalso; destruct Hf as [H1 H2]; (discriminate (H1 eq_refl) || discriminate (H2 eq_refl))].
    + split; [cbn [fst snd]; mv|split; reflexivity].
      destruct (f_palette f0) as [p0|]; [destruct (_ <=? _)%nat|]; (destruct (f_palette f1) as [p1|]; [destruct (_ <=? _)%nat|]); mv;
        first [apply alike_both; split; discriminate
              |apply alike_set; repeat progress rewrite ?q_state; rewrite E0; split; discriminate].
    + leaf. rewrite E0. tauto.
  - mv. destruct (negb _).
    + destruct (lr_reset L _ _) as [r x]. destruct x; leaf.
    + destruct (check_code_size _); leaf.
  - mv. destruct (o_skip_frame_decoding _); [leaf|]. destruct (0 <? lft)%nat; [|destruct (negb _); [leaf|]].
    + destruct (_ || _)%bool; [leaf|]. destruct (lr_decode_bytes L _ _ _) as [[r1 ob1] x]. destruct x as [[k n]|e| |]; try leaf.
      destruct (_ <? _)%nat; leaf.
    + destruct (lr_decode_bytes L _ _ _) as [[r1 ob1] x]. destruct x as [[k n]|e| |]; try leaf.
      destruct (_ =? _)%nat; leaf.
  - mv. destruct (negb _); [leaf|]. destruct (0 <? lft)%nat; [|destruct (negb _); leaf].
    destruct (obuf_append _ _ _) as [ob1 x]. destruct x as [[k n]|e| |]; try leaf.
    destruct (_ <? _)%nat; leaf.
  - mv. destruct (negb _); split; cbn [fst snd]; mv; try (split; reflexivity); rewrite ?c_state; apply alike_both; tauto.
  - leaf.
Qed.

Lemma next_alike' s s' buf ob : alike s s' -> same_step (next_state L s buf ob) (next_state L s' buf ob).
Proof. intros H. apply alike_inv in H. destruct H as [-> Hf]. apply next_alike. exact Hf. Qed.

(** The end of an image's data leaves no frame behind. *)
Lemma next_data_end s buf ob s1 ob1 n : next_state L s buf ob = (s1, ob1, Ok (n, DDataEnd)) ->
  sd_current L s1 = None /\ sd_pal_cap L s1 = 0%nat.
Proof.
  unfold next_state, goto. destruct buf as [|b buf']; [discriminate|]. set (buf := b :: buf'). clearbody buf.
  destruct (sd_state L s); intros H.
  all: try discriminate H.
  all: try solve [repeat match type of H with
    | context [match ?x with _ => _ end] => destruct x; try discriminate H
    end].
  destruct (negb (b =? 0)%N); [discriminate H|]. injection H as <- _ _. rewrite q_state. split; [apply p_current|]. destruct s; reflexivity.
Qed.

Lemma update_loop_alike fuel : forall s s' buf ob total, alike s s' ->
  let x := update_loop L fuel s buf ob total in let y := update_loop L fuel s' buf ob total in
  same_step x y /\ (forall n, snd x = Ok (n, DDataEnd) -> fst (fst x) = fst (fst y)).
Proof.
  induction fuel as [|fuel IH]; intros s s' buf ob total H; cbn [update_loop].
  - destruct buf; (split; [split; [exact H|split; reflexivity]|cbn; discriminate]).
  - destruct buf as [|b buf]; [split; [split; [exact H|split; reflexivity]|cbn; discriminate]|].
    pose proof (next_alike' s s' (b :: buf) ob H) as HN.
    pose proof (next_data_end s (b :: buf) ob) as HE. pose proof (next_data_end s' (b :: buf) ob) as HE'.
    destruct (next_state L s (b :: buf) ob) as [[s1 ob1] r], (next_state L s' (b :: buf) ob) as [[s1' ob1'] r'].
    destruct HN as (Ha & Ho & Hr). cbn [fst snd] in Ha, Ho, Hr. subst ob1' r'.
    destruct r as [[n d]|e| |]; try (split; [split; [exact Ha|split; reflexivity]|cbn; discriminate]).
    destruct d; try (split; [split; [exact Ha|split; reflexivity]|cbn; discriminate]).
    + apply IH. exact Ha.
    + split; [split; [exact Ha|split; reflexivity]|]. cbn [fst snd]. intros _ _.
      destruct (HE _ _ _ eq_refl) as [E1 E2]. destruct (HE' _ _ _ eq_refl) as [E3 E4].
      apply alike_inv in Ha. destruct Ha as [-> _]. rewrite E3, E4. clear - E1 E2. destruct s1. cbn in *. subst. reflexivity.
Qed.
Lemma update_alike s s' buf ob s1 ob1 r : alike s s' -> update L s buf ob = (s1, ob1, r) ->
  exists s1', update L s' buf ob = (s1', ob1, r) /\ alike s1 s1' /\ (forall n, r = Ok (n, DDataEnd) -> s1' = s1).
Proof.
  intros H E. unfold update in *. pose proof (update_loop_alike (update_fuel buf) s s' buf ob (length buf) H) as [Hs Hd].
  rewrite E in Hs, Hd. destruct (update_loop L (update_fuel buf) s' buf ob (length buf)) as [[s1' ob1'] r'].
  destruct Hs as (Ha & Ho & Hr). cbn [fst snd] in *. subst ob1' r'. exists s1'. split; [reflexivity|]. split; [exact Ha|].
  intros n ->. symmetry. exact (Hd n eq_refl).
Qed.

(** Runs. *)
Lemma alike_sym (s s' : sd L) : alike s s' -> alike s' s.
Proof. intros []. constructor; try congruence. symmetry. assumption. Qed.
Lemma alike_trans (s s' s'' : sd L) : alike s s' -> alike s' s'' -> alike s s''.
Proof. intros [] []. constructor; try congruence. etransitivity; eassumption. Qed.

Theorem run_hands_off ops : forall s s' s1 rs, alike s s' -> run_mops L s ops = Some (s1, rs) ->
  exists s2, run_mops L s' (hands_off ops) = Some (s2, rs) /\ alike s1 s2.
Proof.
  induction ops as [|o ops IH]; intros s s' s1 rs H E; cbn [run_mops] in E.
  - injection E as <- <-. exists s'. split; [reflexivity|exact H].
  - destruct o as [buf ob|g c]; cbn [hands_off is_feed filter].
    + destruct (update L s buf ob) as [[sa oa] ra] eqn:Eu.
      destruct (update_alike s s' buf ob sa oa ra H Eu) as (sb & Eb & Ha & _).
      cbn [run_mops]. rewrite Eb.
      destruct (run_mops L sa ops) as [[sx rx]|] eqn:Er; [|discriminate]. injection E as <- <-.
      destruct (IH sa sb sx rx Ha Er) as (s2 & E2 & Ha2). unfold hands_off in E2. rewrite E2. exists s2. split; [reflexivity|exact Ha2].
    + destruct (sd_current L s) as [f|] eqn:Ec; [|discriminate].
      apply (IH (set_current L s (Some (g f)) c) s' s1 rs); [|exact E]. eapply alike_trans; [|exact H]. apply alike_sym. apply alike_set.
      rewrite Ec. split; discriminate.
Qed.
(** Nothing of the changes outlives the image: after [DataEnd] the decoder is the same. *)
Lemma run_app s ops o : run_mops L s (ops ++ [o]) =
  match run_mops L s ops with
  | Some (s1, rs) => match run_mops L s1 [o] with Some (s2, rs2) => Some (s2, rs ++ rs2) | None => None end
  | None => None
  end.
Proof.
  assert (HF : forall s buf ob l, run_mops L s (MFeed buf ob :: l) = let '(s1, ob1, r) := update L s buf ob in
    match run_mops L s1 l with Some (s2, rs) => Some (s2, (ob1, r) :: rs) | None => None end) by reflexivity.
  assert (HC : forall s g c l, run_mops L s (MChange g c :: l) =
    match sd_current L s with Some f => run_mops L (set_current L s (Some (g f)) c) l | None => None end) by reflexivity.
  revert s. induction ops as [|x ops IH]; intros s; cbn [app].
  - change (run_mops L s []) with (Some (s, @nil (obuf * dres (nat * decoded)))). cbv iota beta.
    destruct (run_mops L s [o]) as [[s2 rs2]|]; reflexivity.
  - destruct x as [buf ob|g c].
    + rewrite !HF. destruct (update L s buf ob) as [[sa oa] ra]. rewrite IH. destruct (run_mops L sa ops) as [[s1 rs]|]; [|reflexivity].
      destruct (run_mops L s1 [o]) as [[s2 rs2]|]; reflexivity.
    + rewrite !HC. destruct (sd_current L s); [apply IH|reflexivity].
Qed.
Theorem run_forgets ops buf ob s s1 rs ob1 n :
  run_mops L s (ops ++ [MFeed buf ob]) = Some (s1, rs ++ [(ob1, Ok (n, DDataEnd))]) ->
  run_mops L s (hands_off (ops ++ [MFeed buf ob])) = Some (s1, rs ++ [(ob1, Ok (n, DDataEnd))]).
Proof.
  unfold hands_off. rewrite filter_app. cbn [filter is_feed]. rewrite !run_app.
  destruct (run_mops L s ops) as [[sa ra]|] eqn:E; [|discriminate].
  destruct (run_hands_off ops s s sa ra (alike_refl s) E) as (sb & Eb & Ha). unfold hands_off in Eb. rewrite Eb.
  cbn [run_mops]. destruct (update L sa buf ob) as [[sx ox] rx] eqn:Eu.
  destruct (update_alike sa sb buf ob sx ox rx Ha Eu) as (sy & Ey & _ & Hd). rewrite Ey. cbn [app].
  intros H. injection H as -> Hr. apply app_inj_tail in Hr. destruct Hr as [-> Hx]. injection Hx as -> ->.
  rewrite (Hd n eq_refl). reflexivity.
Qed.
Theorem run_events s ops s1 rs : run_mops L s ops = Some (s1, rs) ->
  exists s2, run_mops L s (hands_off ops) = Some (s2, rs) /\ alike s1 s2.
Proof. apply run_hands_off, alike_refl. Qed.

(** Which callers run into the panic is decided by the decoder of the caller who keeps their hands off. *)
Lemma hands_off_runs ops : forall s, exists s1 rs, run_mops L s (hands_off ops) = Some (s1, rs).
Proof.
  induction ops as [|o ops IH]; intros s; [exists s, []; reflexivity|].
  destruct o as [buf ob|g c]; cbn [hands_off filter is_feed]; [|apply IH].
  cbn [run_mops]. destruct (update L s buf ob) as [[sa oa] ra]. destruct (IH sa) as (s1 & rs & E).
  unfold hands_off in E. rewrite E. eauto.
Qed.
Lemma run_app2 ops1 : forall s ops2, run_mops L s (ops1 ++ ops2) =
  match run_mops L s ops1 with
  | Some (s1, rs) => match run_mops L s1 ops2 with Some (s2, rs2) => Some (s2, rs ++ rs2) | None => None end
  | None => None
  end.
Proof.
  induction ops1 as [|o ops1 IH]; intros s ops2.
  - cbn [app]. change (run_mops L s []) with (Some (s, @nil (obuf * dres (nat * decoded)))). cbv iota beta.
    destruct (run_mops L s ops2) as [[s2 rs2]|]; reflexivity.
  - rewrite <- app_comm_cons. destruct o as [buf ob|g c]; cbn [run_mops].
    + destruct (update L s buf ob) as [[sa oa] ra]. rewrite IH. destruct (run_mops L sa ops1) as [[s1 rs]|]; [|reflexivity].
      destruct (run_mops L s1 ops2) as [[s2 rs2]|]; reflexivity.
    + destruct (sd_current L s); [apply IH|reflexivity].
Qed.
Theorem run_panics s ops : run_mops L s ops = None <->
  exists ops1 g cap ops2 s1 rs, ops = ops1 ++ MChange g cap :: ops2 /\
    run_mops L s (hands_off ops1) = Some (s1, rs) /\ sd_current L s1 = None.
Proof.
  split.
  - revert s. induction ops as [|o ops IH] using rev_ind; intros s H; [discriminate H|].
    rewrite run_app2 in H. destruct (run_mops L s ops) as [[sa ra]|] eqn:E.
    + destruct o as [buf ob|g c].
      { cbn [run_mops] in H. destruct (update L sa buf ob) as [[sb ob1] rb]. discriminate H. }
      destruct (run_hands_off ops s s sa ra (alike_refl s) E) as (sb & Eb & Ha).
      exists ops, g, c, [], sb, ra. split; [reflexivity|]. split; [exact Eb|].
      apply (al_frame _ _ Ha). cbn [run_mops] in H. destruct (sd_current L sa); [discriminate H|reflexivity].
    + destruct (IH s E) as (ops1 & g & cap & ops2 & s1 & rs & -> & K1 & K2).
      exists ops1, g, cap, (ops2 ++ [o]), s1, rs. rewrite <- app_assoc, <- app_comm_cons. auto.
  - intros (ops1 & g & cap & ops2 & s1 & rs & -> & K1 & K2). rewrite run_app2.
    destruct (run_mops L s ops1) as [[sa ra]|] eqn:E; [|reflexivity].
    destruct (run_hands_off ops1 s s sa ra (alike_refl s) E) as (sb & Eb & Ha). rewrite K1 in Eb. injection Eb as <- <-.
    cbn [run_mops]. rewrite (proj2 (al_frame _ _ Ha) K2). reflexivity.
Qed.
End Mut.
