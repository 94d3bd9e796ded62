(** Sessions with a caller who uses the writer, and encoders whose [Drop] panics. *)
From Verif Require Import Base Common Lzw Encoder EncoderExt Stream Reader SpecGif SpecEnc EncLin EncSpec EncSession SpecUser
  SpecRound DocAll.
Open Scope N_scope.

(** ** Access to the writer *)
Theorem user_plays L dbg ops : forall e w gp e' rs, e_w e = Some w -> e_global_palette e = gp -> Forall uop_rng ops ->
  run_user L dbg e ops = (e', rs) ->
  exists w', get_ref e' = Ok w' /\ e_w e' = Some w' /\ e_global_palette e' = gp /\ e_width e' = e_width e /\ e_height e' = e_height e /\
    plays L dbg gp w ops w' rs.
Proof.
  induction ops as [|o ops IH]; intros e w gp e' rs Hw Hg Hr H; cbn [run_user] in H.
  { injection H as <- <-. exists w. unfold get_ref. rewrite Hw. repeat split; try assumption. constructor. }
  apply Forall_cons_iff in Hr. destruct Hr as [Ro Rops]. destruct o as [c|g].
  - destruct (run_op L dbg e c) as [e1 r] eqn:E1. destruct (run_user L dbg e1 ops) as [e2 rs2] eqn:E2. injection H as <- <-.
    destruct (op_lin L dbg c gp Ro e w Hw Hg _ _ E1) as (w1 & V1 & V2 & V3 & V4 & V5).
    destruct (IH _ _ _ _ _ V1 V5 Rops E2) as (w2 & U0 & U1 & U2 & U3 & U4 & U5).
    exists w2. repeat split; try assumption; try congruence. econstructor; eassumption.
  - unfold get_mut in H. rewrite Hw in H. destruct (run_user L dbg _ ops) as [e2 rs2] eqn:E2 in H. injection H as <- <-.
    destruct (IH (mk_enc (Some (g w)) (e_global_palette e) (e_width e) (e_height e) (e_buffer e)) (g w) gp _ _ eq_refl Hg Rops E2) as (w2 & U0 & U1 & U2 & U3 & U4 & U5).
    exists w2. repeat split; try assumption. constructor. exact U5.
Qed.

(** Writing blocks on a writer that accepts them. *)
Lemma write_all_quiet bs w : Forall harmless (w_plan w) ->
  w_out (fst (write_all bs w)) = w_out w ++ bs /\ Forall harmless (w_plan (fst (write_all bs w))).
Proof.
  intros Hh. destruct (write_all bs w) as [w' x] eqn:E. cbn [fst]. apply write_all_lin in E.
  destruct E as [used F1 F2 F3 F4|used ac k pre suf F1 F2 F3 F4 F5 F6 F7].
  - split; [exact F1|]. rewrite F3 in Hh. apply Forall_app in Hh. tauto.
  - exfalso. rewrite F5 in Hh. apply Forall_app in Hh. destruct Hh as [_ Hh]. inversion Hh; subst. eapply fault_not_harmless; eauto.
Qed.

Definition eop_rng (x : eop) : Prop := match x with ECall o => op_rng o | EBlocks _ => True end.
Lemma as_user_rng ops : Forall eop_rng ops -> Forall uop_rng (map as_user ops).
Proof. intros H. apply Forall_map. eapply Forall_impl; [|exact H]. intros [o|bs]; cbn; tauto. Qed.

Lemma plays_blocks L dbg gp ops : forall w w' rs, Forall harmless (w_plan w) ->
  plays L dbg gp w (map as_user ops) w' rs -> Forall (fun r => r = Ok tt) rs ->
  w_out w' = w_out w ++ ser_blocks (flat_map (eop_blocks L) ops) /\ Forall harmless (w_plan w').
Proof.
  induction ops as [|x ops IH]; intros w w' rs Hh H Hrs; cbn [map] in H.
  { inversion H; subst. split; [|exact Hh]. cbn. now rewrite app_nil_r. }
  cbn [flat_map]. unfold ser_blocks in *. rewrite map_app, concat_app, app_assoc. destruct x as [o|bs]; cbn [as_user eop_blocks] in *.
  - inversion H as [|? ? w1 y ? ? rs' Hw Hp|]; subst. apply Forall_cons_iff in Hrs. destruct Hrs as [-> Hrs].
    destruct Hw as [used F1 F2 F3 F4|used ac k pre suf F1 F2 F3 F4 F5 F6 F7]; [|discriminate F4].
    assert (Hh1 : Forall harmless (w_plan w1)) by (rewrite F3 in Hh; apply Forall_app in Hh; tauto).
    destruct (IH _ _ _ Hh1 Hp Hrs) as [G1 G2]. split; [|exact G2]. rewrite G1, F1. do 2 f_equal.
    unfold op_bytes. rewrite <- F2. reflexivity.
  - inversion H as [| |? ? ? ? rs' Hp]; subst. apply Forall_cons_iff in Hrs. destruct Hrs as [_ Hrs].
    destruct (write_all_quiet (concat (map ser_blk bs)) w Hh) as [K1 K2].
    destruct (IH _ _ _ K2 Hp Hrs) as [G1 G2]. split; [|exact G2]. rewrite G1, K1. reflexivity.
Qed.

Theorem user_file L dbg w sw sh pal ops e1 e2 rs e3 w3 : u16_ok sw -> u16_ok sh -> Forall eop_rng ops ->
  Forall harmless (w_plan w) ->
  encoder_new w sw sh pal = (e1, Ok tt) -> run_user L dbg e1 (map as_user ops) = (e2, rs) ->
  Forall (fun r => r = Ok tt) rs -> into_inner e2 = (e3, Ok w3) ->
  w_out w3 = w_out w ++ ser_gif (user_gif L sw sh pal ops) [].
Proof.
  intros Rw Rh Ro Hh H1 H2 Hrs H3.
  destruct (encoder_new_spec _ _ _ _ _ _ Rw Rh H1) as (w1 & N1 & N2 & N3).
  destruct (Nat.le_gt_cases (colors pal) 256) as [Hc|Hc]; [|destruct (N3 Hc) as [N4 _]; discriminate N4].
  destruct (N2 Hc) as [(_ & M1 & _ & _ & M2 & used & M3 & _)|(M1 & _)]; [|now apply ok_not_writer_error in M1].
  assert (Hh1 : Forall harmless (w_plan w1)) by (rewrite M3 in Hh; apply Forall_app in Hh; tauto).
  destruct (user_plays L dbg _ e1 w1 _ _ _ N1 M1 (as_user_rng _ Ro) H2) as (w2 & _ & U1 & _ & _ & _ & U2).
  destruct (plays_blocks L dbg _ ops _ _ _ Hh1 U2 Hrs) as [K1 K2].
  destruct (into_inner_spec _ _ _ _ U1 H3) as [(w' & I1 & I2 & I3 & _)|(w' & I1 & _)]; [|now apply ok_not_writer_error in I1].
  injection I1 as <-. rewrite I3, K1, M2. unfold ser_gif, user_gif. cbn [g_blocks].
  rewrite <- !app_assoc. reflexivity.
Qed.

Theorem user_read L (S : lzw_spec L) umax : 2 ^ 32 - 1 <= umax ->
  forall o w sw sh pal dbg ops e1 e2 rs e3 w3 tl src outs n, u16_ok sw -> u16_ok sh -> Forall eop_rng ops ->
  Forall harmless (w_plan w) ->
  encoder_new w sw sh pal = (e1, Ok tt) -> run_user L dbg e1 (map as_user ops) = (e2, rs) ->
  Forall (fun r => r = Ok tt) rs -> into_inner e2 = (e3, Ok w3) -> w_out w = [] ->
  gif_ok o (user_gif L sw sh pal ops) -> delivers src (w_out w3 ++ tl) ->
  o_skip_frame_decoding o = false -> o_check_for_end_code o = false ->
  Forall2 (holds L S umax o) (gif_images (user_gif L sw sh pal ops)) outs -> (length outs < n)%nat ->
  exists d d', read_info L src o = Ok d /\
    read_all L umax n d = (d', all_seen o (user_gif L sw sh pal ops) (gif_images (user_gif L sw sh pal ops)) outs, Ok false) /\
    rd_rest L (dc_rd L d') = tl.
Proof.
  intros Humax o w sw sh pal dbg ops e1 e2 rs e3 w3 tl src outs n Rw Rh Ro Hh H1 H2 Hrs H3 Hw Hg Hd N1 N2 Ho Hn.
  rewrite (user_file L dbg w sw sh pal ops e1 e2 rs e3 w3 Rw Rh Ro Hh H1 H2 Hrs H3), Hw in Hd. cbn [app] in Hd.
  apply (file_frames L S umax Humax o (user_gif L sw sh pal ops) tl src outs n Hg); try assumption.
  replace (ser_gif _ tl) with (ser_gif (user_gif L sw sh pal ops) [] ++ tl); [exact Hd|].
  unfold ser_gif. rewrite <- !app_assoc. reflexivity.
Qed.

(** ** [Drop] without [raii_no_panic] *)
Theorem strict_same_state e : fst (encoder_drop_strict e) = encoder_drop e.
Proof.
  unfold encoder_drop_strict, encoder_drop. destruct (e_w e); [|reflexivity].
  destruct (write_trailer e) as [e1 [a|er| |]]; reflexivity.
Qed.
Lemma returning_state {A} e (r : eres A) : fst (returning e r) = encoder_drop e.
Proof.
  unfold returning. rewrite <- (strict_same_state e). destruct (encoder_drop_strict e) as [e1 [a|er| |]]; reflexivity.
Qed.

(** The result of [drop]: the trailer is written, or the panic. *)
Lemma strict_drop_result e w : e_w e = Some w ->
  exists w', e_w (encoder_drop e) = Some w' /\
    ((encoder_drop_strict e = (encoder_drop e, Ok tt) /\ w_out w' = w_out w ++ [0x3B] /\
      exists used, w_plan w = used ++ w_plan w' /\ Forall harmless used) \/
     (encoder_drop_strict e = (encoder_drop e, Panic) /\ w_out w' = w_out w /\
      exists used a k, w_plan w = used ++ a :: w_plan w' /\ Forall harmless used /\ fault a = Some k)).
Proof.
  intros Hw. unfold encoder_drop_strict, encoder_drop. rewrite Hw. destruct (write_trailer e) as [e1 r] eqn:E. cbn [fst].
  destruct (trailer_lin (e_global_palette e) e w Hw eq_refl _ _ E) as (w1 & V1 & V2 & V3 & V4 & V5).
  exists w1. split; [exact V1|].
  destruct V4 as [used F1 F2 F3 F4|used ac k pre suf F1 F2 F3 F4 F5 F6 F7]; subst r.
  - left. eauto.
  - right. split; [reflexivity|]. split; [|eauto 10].
    destruct pre as [|p pre]; [rewrite F3; apply app_nil_r|].
    exfalso. injection F1 as _ F1. symmetry in F1. apply app_eq_nil in F1. destruct F1. congruence.
Qed.
Lemma returning_result {A} e w (r : eres A) : e_w e = Some w ->
  exists w', e_w (encoder_drop e) = Some w' /\
    ((returning e r = (encoder_drop e, r) /\ w_out w' = w_out w ++ [0x3B]) \/
     (returning e r = (encoder_drop e, Panic) /\ w_out w' = w_out w /\ ~ Forall harmless (w_plan w))).
Proof.
  intros Hw. destruct (strict_drop_result e w Hw) as (w' & H1 & H2). exists w'. split; [exact H1|]. unfold returning.
  destruct H2 as [(E & H2 & _)|(E & H2 & used & a & k & H3 & H4 & H5)]; rewrite E; [left; auto|right].
  split; [reflexivity|]. split; [exact H2|]. rewrite H3. intros Hh. apply Forall_app in Hh. destruct Hh as [_ Hh].
  inversion Hh; subst. eapply fault_not_harmless; eauto.
Qed.

(** [into_inner]: the same encoder is left behind; a success stays one; an error of the writer is returned if the
    second attempt, in [drop], gets the trailer through, else there is a panic. *)
Theorem strict_into_inner e w : e_w e = Some w ->
  fst (into_inner_strict e) = fst (into_inner e) /\
  match snd (into_inner e) with
  | Ok v => snd (into_inner_strict e) = Ok v
  | x => exists w', e_w (fst (into_inner e)) = Some w' /\
    ((w_out w' = w_out w ++ [0x3B] /\ snd (into_inner_strict e) = x) \/
     (w_out w' = w_out w /\ snd (into_inner_strict e) = Panic))
  end.
Proof.
  intros Hw. unfold into_inner, into_inner_strict. destruct (write_trailer e) as [e1 r] eqn:E.
  destruct (trailer_lin (e_global_palette e) e w Hw eq_refl _ _ E) as (w1 & V1 & V2 & V3 & V4 & V5).
  destruct V4 as [used F1 F2 F3 F4|used ac k pre suf F1 F2 F3 F4 F5 F6 F7]; subst r.
  - rewrite V1. cbn [fst snd]. rewrite returning_state. split; reflexivity.
  - cbn [fst snd]. rewrite returning_state. split; [reflexivity|].
    assert (pre = []) as ->.
    { destruct pre as [|p pre]; [reflexivity|]. injection F1 as _ F1. symmetry in F1. apply app_eq_nil in F1. destruct F1. congruence. }
    rewrite app_nil_r in F3. destruct (returning_result e1 w1 (@Err eerr writer (EIo k)) V1) as (w' & R1 & R2). exists w'.
    split; [exact R1|]. rewrite <- F3. destruct R2 as [(R2 & R3)|(R2 & R3 & _)]; rewrite R2; cbn [snd]; auto.
Qed.
(** What [write_global_palette] leaves behind when it fails. *)
Lemma new_fails w width height pal e r : u16_ok width -> u16_ok height ->
  write_global_palette (mk_enc (Some w) false width height []) pal = (e, r) -> r <> Ok tt ->
  exists w' bs rest, e_w e = Some w' /\ w_out w' = w_out w ++ bs /\ rest <> [] /\ bs ++ rest = head_bytes width height pal.
Proof.
  intros Rw Rh H Hr. unfold write_global_palette in H. rewrite check_color_table_spec in H. unfold table_check in H.
  destruct (Nat.ltb_spec 256 (colors pal)) as [Hc|Hc].
  - injection H as <- <-. exists w, [], (head_bytes width height pal). split; [reflexivity|]. split; [now rewrite app_nil_r|].
    split; [discriminate|reflexivity].
  - rewrite usable_spec in H. destruct (size_field_fits _ Hc) as [_ Hk]. destruct (size_field_lor _ Hk) as (_ & _ & K3).
    rewrite K3 in H. set (k := size_field (colors pal)) in *. cbn [e_w e_width e_height e_buffer] in H.
    set (e0 := mk_enc (Some w) (usable pal) width height []) in *.
    destruct (write_screen_desc e0 (128 + 16 * k + k)) as [e1 r1] eqn:E1.
    destruct (screen_desc_lin width height (128 + 16 * k + k) Rw Rh (usable pal) e0 w eq_refl eq_refl eq_refl eq_refl _ _ E1)
      as (w1 & V1 & V2 & V3 & V4 & V5).
    set (B1 := signature true ++ word width ++ word height ++ [128 + 16 * k + k; 0; 0]) in *.
    assert (EB : head_bytes width height pal = B1 ++ padded pal).
    { unfold head_bytes, ser_head, B1. cbn [g_89a g_w g_h g_flags g_bg g_aspect g_gct]. fold k. rewrite <- !app_assoc. reflexivity. }
    destruct V4 as [used F1 F2 F3 F4|used ac kk pre suf F1 F2 F3 F4 F5 F6 F7]; subst r1.
    + destruct (with_writer e1 (write_color_table (firstn (3 * colors pal) pal) (2 ^ (k + 1) - N.of_nat (colors pal)))) as [e2 r2] eqn:E2.
      destruct (with_writer_elin _ _ _ (usable pal) (color_table_lin pal) e1 w1 V1 V5 _ _ E2) as (w2 & U1 & U2 & U3 & U4 & U5).
      injection H as <- <-. destruct U4 as [used2 G1 G2 G3 G4|used2 ac kk pre suf G1 G2 G3 G4 G5 G6 G7]; subst r2; [congruence|].
      exists w2, (B1 ++ pre), suf. split; [exact U1|]. split; [rewrite G3, F1; now rewrite app_assoc|]. split; [exact G2|].
      rewrite EB, G1. now rewrite app_assoc.
    + injection H as <- <-. exists w1, pre, (suf ++ padded pal). split; [exact V1|]. split; [exact F3|].
      split; [destruct suf; [congruence|discriminate]|]. rewrite EB, F1. now rewrite app_assoc.
Qed.
Theorem strict_new w width height pal : u16_ok width -> u16_ok height ->
  fst (encoder_new_strict w width height pal) = fst (encoder_new w width height pal) /\
  match snd (encoder_new w width height pal) with
  | Ok v => snd (encoder_new_strict w width height pal) = Ok v
  | x => exists w' bs rest, e_w (fst (encoder_new w width height pal)) = Some w' /\
    rest <> [] /\ bs ++ rest = head_bytes width height pal /\
    ((w_out w' = w_out w ++ bs ++ [0x3B] /\ snd (encoder_new_strict w width height pal) = x) \/
     (w_out w' = w_out w ++ bs /\ snd (encoder_new_strict w width height pal) = Panic))
  end.
Proof.
  intros Rw Rh. unfold encoder_new, encoder_new_strict.
  destruct (write_global_palette (mk_enc (Some w) false width height []) pal) as [e r] eqn:E.
  assert (K : r <> Ok tt -> exists w' bs rest, e_w (encoder_drop e) = Some w' /\
    rest <> [] /\ bs ++ rest = head_bytes width height pal /\
    ((w_out w' = w_out w ++ bs ++ [0x3B] /\ snd (returning e r) = r) \/ (w_out w' = w_out w ++ bs /\ snd (returning e r) = Panic))).
  { intros Hr. destruct (new_fails _ _ _ _ _ _ Rw Rh E Hr) as (w1 & bs & rest & N1 & N2 & N3 & N4).
    destruct (returning_result e w1 r N1) as (w' & R1 & R2). exists w', bs, rest. split; [exact R1|]. split; [exact N3|].
    split; [exact N4|]. rewrite app_assoc, <- N2. destruct R2 as [(R2 & R3)|(R2 & R3 & _)]; rewrite R2; cbn [snd]; auto. }
  destruct r as [[]|er| |]; cbn [fst snd]; rewrite ?returning_state; (split; [reflexivity|]);
    [reflexivity|apply K; discriminate ..].
Qed.

(** Without faults of the writer there is no difference. *)
Theorem strict_harmless w width height pal e1 x1 e v : u16_ok width -> u16_ok height -> Forall harmless (w_plan w) ->
  encoder_new w width height pal = (e1, x1) -> e_w e = Some v -> Forall harmless (w_plan v) ->
  encoder_new_strict w width height pal = (e1, x1) /\
  into_inner_strict e = into_inner e /\ encoder_drop_strict e = (encoder_drop e, Ok tt).
Proof.
  intros Rw Rh Hh H1 Hv Hhv. split; [|split].
  - unfold encoder_new, encoder_new_strict in *. destruct (write_global_palette (mk_enc (Some w) false width height []) pal) as [e0 r] eqn:E.
    assert (Hd : r <> Ok tt -> returning e0 r = (encoder_drop e0, r)).
    { intros Hr. unfold write_global_palette in E. rewrite check_color_table_spec in E. unfold table_check in E.
      destruct (Nat.ltb_spec 256 (colors pal)) as [Hc|Hc].
      - injection E as <- <-. destruct (returning_result (mk_enc (Some w) false width height []) w (@Err eerr unit (EFormat TooManyColors)) eq_refl) as (w' & R1 & R2).
        destruct R2 as [(R2 & _)|(_ & _ & R2)]; [exact R2|contradiction].
      - exfalso. apply Hr. assert (Hx : snd (encoder_new w width height pal) = Ok tt).
        { destruct (encoder_new w width height pal) as [ee xx] eqn:En. destruct (encoder_new_spec _ _ _ _ _ _ Rw Rh En) as (w1 & _ & N2 & _).
          destruct (N2 Hc) as [(-> & _)|(_ & M & _)]; [reflexivity|contradiction]. }
        unfold encoder_new in Hx. unfold write_global_palette in Hx. rewrite check_color_table_spec in Hx. unfold table_check in Hx.
        destruct (Nat.ltb_spec 256 (colors pal)); [lia|]. rewrite E in Hx. destruct r as [[]|er| |]; cbn [snd] in Hx; congruence. }
    destruct r as [[]|er| |]; rewrite <- H1; [reflexivity|apply Hd; discriminate ..].
  - destruct (strict_into_inner e v Hv) as [S1 S2]. destruct (into_inner e) as [e2 x2] eqn:E2. cbn [fst snd] in *.
    destruct (into_inner_spec _ _ _ _ Hv E2) as [(w' & -> & _)|(w' & _ & _ & I & _)]; [|contradiction].
    destruct (into_inner_strict e); cbn [fst snd] in *; congruence.
  - destruct (strict_drop_result e v Hv) as (w' & _ & [(E & _)|(_ & _ & used & a & k & H3 & _ & H5)]); [exact E|].
    exfalso. rewrite H3 in Hhv. apply Forall_app in Hhv. destruct Hhv as [_ Hhv]. inversion Hhv; subst. eapply fault_not_harmless; eauto.
Qed.

(** A writer that fails twice in a row: [into_inner] reports the error with [raii_no_panic] and panics without. *)
Theorem strict_persistent e w a1 a2 p k1 k2 : e_w e = Some w -> w_plan w = a1 :: a2 :: p ->
  fault a1 = Some k1 -> fault a2 = Some k2 ->
  snd (into_inner e) = Err (EIo k1) /\ snd (into_inner_strict e) = Panic.
Proof.
  intros Hw Hp F1 F2. unfold into_inner, into_inner_strict, returning, encoder_drop_strict, encoder_drop, write_trailer, with_writer, write_u8, write_all.
  rewrite Hw, Hp.
  destruct a1 as [[|n1]| |n1]; cbn [fault] in F1; try discriminate F1; injection F1 as <-; cbn [write_all_plan e_w w_plan w_out fst snd];
  destruct a2 as [[|n2]| |n2]; cbn [fault] in F2; try discriminate F2; injection F2 as <-; cbn; auto.
Qed.
