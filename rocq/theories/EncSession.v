(** Whole encoder sessions: bytes, results, faults of the writer, trailer. *)
From Verif Require Import Base Common Lzw Encoder Stream SpecGif SpecEnc EncLin EncSpec.
Open Scope N_scope.

(** A user who goes on after failed calls and remembers all results. *)
Fixpoint run_each (L : lzw_codec) (dbg : bool) (e : encoder) (ops : list enc_op) : encoder * list (eres unit) :=
  match ops with
  | [] => (e, [])
  | o :: ops' =>
    let '(e1, r) := run_op L dbg e o in
    let '(e2, rs) := run_each L dbg e1 ops' in (e2, r :: rs)
  end.

(** Errors that only the writer can cause. *)
Definition writer_error {A} (r : eres A) : Prop := r = Err (EIo WriteZero) \/ exists k, r = Err (EIo (OtherIo k)).

Lemma fault_error {A} a k : fault a = Some k -> @writer_error A (Err (EIo k)).
Proof.
  destruct a as [[|n]| |n]; cbn [fault]; intros [= <-]; [now left|right; eauto].
Qed.
Lemma fault_not_harmless a k : fault a = Some k -> ~ harmless a.
Proof. destruct a as [[|n]| |n]; cbn [fault harmless]; intros E; try discriminate E; intros H; [lia|exact H]. Qed.

(** The calls succeed or fail as specified and write the specified bytes, unless the writer reports
    a fault; then everything before is as specified, the call returns the writer's error, and the
    bytes so far are a proper prefix. *)
Definition first_fault L dbg (e : encoder) (w : writer) (gp : bool) (ops : list enc_op) (rs : list (eres unit)) : Prop :=
  exists ops1 o ops2 e1 w1 r suf, ops = ops1 ++ o :: ops2 /\
    run_each L dbg e (ops1 ++ [o]) = (e1, map (op_result dbg gp) ops1 ++ [r]) /\
    firstn (S (length ops1)) rs = map (op_result dbg gp) ops1 ++ [r] /\
    writer_error r /\ e_w e1 = Some w1 /\ suf <> [] /\
    w_out w ++ concat (map (op_bytes L dbg gp) (ops1 ++ [o])) = w_out w1 ++ suf.

Lemma run_each_lin L dbg ops : forall e w gp e' rs, e_w e = Some w -> e_global_palette e = gp -> Forall op_rng ops ->
  run_each L dbg e ops = (e', rs) ->
  exists w', e_w e' = Some w' /\ e_global_palette e' = gp /\ e_width e' = e_width e /\ e_height e' = e_height e /\
  ((rs = map (op_result dbg gp) ops /\ w_out w' = w_out w ++ concat (map (op_bytes L dbg gp) ops) /\
    exists used, w_plan w = used ++ w_plan w' /\ Forall harmless used) \/
   (~ Forall harmless (w_plan w) /\ first_fault L dbg e w gp ops rs)).
Proof.
  induction ops as [|o ops IH]; intros e w gp e' rs Hw Hg Hr H; cbn [run_each] in H.
  { injection H as <- <-. exists w. split; [exact Hw|]. split; [exact Hg|]. split; [reflexivity|]. split; [reflexivity|].
    left. split; [reflexivity|]. split; [cbn; now rewrite app_nil_r|]. exists []. auto. }
  destruct (run_op L dbg e o) as [e1 r] eqn:E1. destruct (run_each L dbg e1 ops) as [e2 rs2] eqn:E2.
  injection H as <- <-. inversion Hr as [|? ? Ro Rops]; subst.
  destruct (op_lin L dbg o (e_global_palette e) Ro e w Hw eq_refl _ _ E1) as (w1 & V1 & V2 & V3 & V4 & V5).
  destruct (IH _ _ _ _ _ V1 V5 Rops E2) as (w2 & U1 & U2 & U3 & U4 & U5).
  exists w2. split; [exact U1|]. split; [congruence|]. split; [congruence|]. split; [congruence|].
  destruct V4 as [used F1 F2 F3 F4|used ac k pre suf F1 F2 F3 F4 F5 F6 F7].
  - subst r. destruct U5 as [(K1 & K2 & used2 & K3 & K4)|(K1 & K2)].
    + left. split; [cbn [map]; now rewrite K1|]. split; [cbn [map concat]; rewrite K2, F1; now rewrite app_assoc|].
      exists (used ++ used2). split; [rewrite F3, K3; now rewrite app_assoc|apply Forall_app; auto].
    + right. split. { rewrite F3. intros Hh. apply Forall_app in Hh. tauto. }
      destruct K2 as (ops1 & o1 & ops2 & e3 & w3 & r3 & suf & Q1 & Q2 & Q3 & Q4 & Q5 & Q6 & Q7).
      exists (o :: ops1), o1, ops2, e3, w3, r3, suf. split; [now rewrite Q1|]. split.
      { cbn [app run_each]. rewrite E1, Q2. reflexivity. }
      split.
      { cbn [length map app]. transitivity (op_result dbg (e_global_palette e) o :: firstn (S (length ops1)) rs2); [reflexivity|]. now rewrite Q3. } split; [exact Q4|]. split; [exact Q5|]. split; [exact Q6|].
      cbn [app map concat]. rewrite <- Q7, F1. now rewrite <- app_assoc.
  - right. split. { rewrite F5. intros Hh. apply Forall_app in Hh. destruct Hh as [_ Hh]. inversion Hh; subst.
      eapply fault_not_harmless; eauto. }
    exists [], o, ops, e1, w1, r, suf. split; [reflexivity|]. split; [cbn [app run_each map]; now rewrite E1|].
    split; [reflexivity|]. split; [rewrite F4; eapply fault_error; eauto|]. split; [exact V1|]. split; [exact F2|].
    cbn [app map concat]. rewrite app_nil_r, F3, <- app_assoc. congruence.
Qed.

(** *** The trailer *)
Lemma trailer_lin gp : elin write_trailer gp [0x3B] (Ok tt).
Proof. apply with_writer_elin. apply write_u8_lin. Qed.

(** What [into_inner] does: on success the writer has got one trailer byte and the encoder, empty,
    writes nothing when dropped. On failure the trailer was not written by [into_inner]; dropping
    the encoder tries once more. *)
Lemma into_inner_spec e w e' x : e_w e = Some w -> into_inner e = (e', x) ->
  (exists w', x = Ok w' /\ e_w e' = None /\ w_out w' = w_out w ++ [0x3B] /\
     exists used, w_plan w = used ++ w_plan w' /\ Forall harmless used) \/
  (exists w', writer_error x /\ e_w e' = Some w' /\ ~ Forall harmless (w_plan w) /\
     (w_out w' = w_out w \/ w_out w' = w_out w ++ [0x3B])).
Proof.
  intros Hw H. unfold into_inner in H. destruct (write_trailer e) as [e1 r] eqn:E.
  destruct (trailer_lin (e_global_palette e) e w Hw eq_refl _ _ E) as (w1 & V1 & V2 & V3 & V4 & V5).
  destruct V4 as [used F1 F2 F3 F4|used ac k pre suf F1 F2 F3 F4 F5 F6 F7]; subst r.
  - rewrite V1 in H. injection H as <- <-. left. exists w1. split; [reflexivity|]. split; [reflexivity|].
    split; [exact F1|]. exists used. auto.
  - injection H as <- <-. right.
    assert (pre = []) as ->.
    { destruct pre as [|p pre]; [reflexivity|]. injection F1 as _ F1. symmetry in F1. apply app_eq_nil in F1. destruct F1. congruence. }
    rewrite app_nil_r in F3. unfold encoder_drop. rewrite V1. destruct (write_trailer e1) as [e2 r2] eqn:E2. cbn [fst].
    destruct (trailer_lin (e_global_palette e1) e1 w1 V1 eq_refl _ _ E2) as (w2 & U1 & U2 & U3 & U4 & U5).
    exists w2. split; [eapply fault_error; eauto|]. split; [exact U1|]. split.
    { rewrite F5. intros Hh. apply Forall_app in Hh. destruct Hh as [_ Hh]. inversion Hh; subst.
      eapply fault_not_harmless; eauto. }
    destruct U4 as [used2 G1 G2 G3 G4|used2 ac2 k2 pre2 suf2 G1 G2 G3 G4 G5 G6 G7].
    + right. congruence.
    + left. destruct pre2 as [|p pre2]; [rewrite G3, F3; apply app_nil_r|].
      exfalso. injection G1 as _ G1. symmetry in G1. apply app_eq_nil in G1. destruct G1. congruence.
Qed.

Lemma drop_spec e w : e_w e = Some w ->
  exists w', e_w (encoder_drop e) = Some w' /\
    ((w_out w' = w_out w ++ [0x3B] /\ exists used, w_plan w = used ++ w_plan w' /\ Forall harmless used) \/
     (w_out w' = w_out w /\ ~ Forall harmless (w_plan w))).
Proof.
  intros Hw. unfold encoder_drop. rewrite Hw. destruct (write_trailer e) as [e1 r] eqn:E. cbn [fst].
  destruct (trailer_lin (e_global_palette e) e w Hw eq_refl _ _ E) as (w1 & V1 & V2 & V3 & V4 & V5).
  exists w1. split; [exact V1|].
  destruct V4 as [used F1 F2 F3 F4|used ac k pre suf F1 F2 F3 F4 F5 F6 F7]; subst r.
  - left. split; [exact F1|]. eauto.
  - right. split.
    + destruct pre as [|p pre]; [rewrite F3; apply app_nil_r|].
      exfalso. injection F1 as _ F1. symmetry in F1. apply app_eq_nil in F1. destruct F1. congruence.
    + rewrite F5. intros Hh. apply Forall_app in Hh. destruct Hh as [_ Hh]. inversion Hh; subst.
      eapply fault_not_harmless; eauto.
Qed.

(** *** [Encoder::new] *)
Definition head_bytes (width height : N) (pal : list N) : list N :=
  ser_head (mk_gif true width height (128 + 16 * size_field (colors pal) + size_field (colors pal)) 0 0 (padded pal) []).
Lemma head_bytes_gif L width height pal ops : ser_head (enc_gif L width height pal ops) = head_bytes width height pal.
Proof. reflexivity. Qed.

Lemma screen_desc_lin width height flags : u16_ok width -> u16_ok height ->
  forall gp e w, e_w e = Some w -> e_global_palette e = gp -> e_width e = width -> e_height e = height ->
  forall e' x, write_screen_desc e flags = (e', x) ->
  exists w', e_w e' = Some w' /\ e_width e' = width /\ e_height e' = height /\
    wrote w w' (signature true ++ word width ++ word height ++ [flags; 0; 0]) (Ok tt) x /\ e_global_palette e' = gp.
Proof.
  intros Rw Rh gp e w Hw Hg <- <- e' x H. unfold write_screen_desc in H. rewrite !le16_word in H by assumption.
  refine (with_writer_elin _ _ _ gp _ e w Hw Hg e' x H).
  eapply wlin_eq; [apply tmp_lin; reflexivity|reflexivity].
Qed.

(** Whether frames may rely on the global palette. *)
Definition usable (pal : list N) : bool := (0 <? colors pal)%nat.

Lemma usable_spec pal : negb (is_nil (firstn (3 * colors pal) pal)) = usable pal.
Proof.
  unfold usable, colors. destruct (Nat.ltb_spec 0 (length pal / 3)) as [H|H].
  - destruct pal as [|x pal]; [cbn in H; lia|]. destruct (3 * (length (x :: pal) / 3))%nat eqn:E; [lia|]. reflexivity.
  - replace (length pal / 3)%nat with O by lia. reflexivity.
Qed.

Lemma encoder_new_spec w width height pal e x : u16_ok width -> u16_ok height ->
  encoder_new w width height pal = (e, x) ->
  exists w', e_w e = Some w' /\
  ((colors pal <= 256)%nat ->
     (x = Ok tt /\ e_global_palette e = usable pal /\ e_width e = width /\ e_height e = height /\
      w_out w' = w_out w ++ head_bytes width height pal /\
      exists used, w_plan w = used ++ w_plan w' /\ Forall harmless used) \/
     (writer_error x /\ ~ Forall harmless (w_plan w) /\
      exists pre suf, head_bytes width height pal = pre ++ suf /\ suf <> [] /\
       (w_out w' = w_out w ++ pre \/ w_out w' = w_out w ++ pre ++ [0x3B]))) /\
  ((256 < colors pal)%nat -> x = Err (EFormat TooManyColors) /\
     (Forall harmless (w_plan w) -> w_out w' = w_out w ++ [0x3B])).
Proof.
  intros Rw Rh H. unfold encoder_new, write_global_palette in H. rewrite check_color_table_spec in H. unfold table_check in H.
  destruct (Nat.ltb_spec 256 (colors pal)) as [Hc|Hc].
  - injection H as <- <-. set (e0 := mk_enc (Some w) false width height []).
    destruct (drop_spec e0 w eq_refl) as (w' & D1 & D2). exists w'. split; [exact D1|]. split; [intros; lia|].
    intros _. split; [reflexivity|]. intros Hh. destruct D2 as [[D2 _]|[_ D2]]; [exact D2|contradiction].
  - rewrite usable_spec in H. destruct (size_field_fits _ Hc) as [_ Hk]. destruct (size_field_lor _ Hk) as (_ & _ & K3).
    rewrite K3 in H. set (k := size_field (colors pal)) in *. cbn [e_w e_width e_height e_buffer] in H.
    set (e0 := mk_enc (Some w) (usable pal) width height []) in *.
    destruct (write_screen_desc e0 (128 + 16 * k + k)) as [e1 r1] eqn:E1.
    destruct (screen_desc_lin width height (128 + 16 * k + k) Rw Rh (usable pal) e0 w eq_refl eq_refl eq_refl eq_refl _ _ E1)
      as (w1 & V1 & V2 & V3 & V4 & V5).
    set (B1 := signature true ++ word width ++ word height ++ [128 + 16 * k + k; 0; 0]) in *.
    assert (EB : head_bytes width height pal = B1 ++ padded pal).
    { unfold head_bytes, ser_head, B1. cbn [g_89a g_w g_h g_flags g_bg g_aspect g_gct]. fold k. rewrite <- !app_assoc. reflexivity. }
    assert (Fail : forall e2 w2 x2 pre suf, e_w e2 = Some w2 -> w_out w2 = w_out w ++ pre ->
      head_bytes width height pal = pre ++ suf -> suf <> [] -> writer_error x2 -> ~ Forall harmless (w_plan w) ->
      (encoder_drop e2, x2) = (e, x) -> exists w', e_w e = Some w' /\
        ((colors pal <= 256)%nat ->
           (x = Ok tt /\ e_global_palette e = usable pal /\ e_width e = width /\ e_height e = height /\
            w_out w' = w_out w ++ head_bytes width height pal /\
            exists used, w_plan w = used ++ w_plan w' /\ Forall harmless used) \/
           (writer_error x /\ ~ Forall harmless (w_plan w) /\
            exists pre suf, head_bytes width height pal = pre ++ suf /\ suf <> [] /\
             (w_out w' = w_out w ++ pre \/ w_out w' = w_out w ++ pre ++ [0x3B]))) /\
        ((256 < colors pal)%nat -> x = Err (EFormat TooManyColors) /\
           (Forall harmless (w_plan w) -> w_out w' = w_out w ++ [0x3B]))).
    { intros e2 w2 x2 pre suf G1 G2 G3 G4 G5 G6 [= <- <-]. destruct (drop_spec e2 w2 G1) as (w' & D1 & D2).
      exists w'. split; [exact D1|]. split; [|intros; lia]. intros _. right. split; [exact G5|]. split; [exact G6|].
      exists pre, suf. split; [exact G3|]. split; [exact G4|].
      destruct D2 as [[D2 _]|[D2 _]]; [right|left]; rewrite D2, G2; [now rewrite <- app_assoc|reflexivity]. }
    destruct V4 as [used F1 F2 F3 F4|used ac kk pre suf F1 F2 F3 F4 F5 F6 F7]; subst r1.
    + destruct (with_writer e1 (write_color_table (firstn (3 * colors pal) pal) (2 ^ (k + 1) - N.of_nat (colors pal)))) as [e2 r2] eqn:E2.
      destruct (with_writer_elin _ _ _ (usable pal) (color_table_lin pal) e1 w1 V1 V5 _ _ E2) as (w2 & U1 & U2 & U3 & U4 & U5).
      destruct U4 as [used2 G1 G2 G3 G4|used2 ac kk pre suf G1 G2 G3 G4 G5 G6 G7]; subst r2.
      * injection H as <- <-. exists w2. split; [exact U1|]. split; [|intros; lia]. intros _. left.
        split; [reflexivity|]. split; [exact U5|]. split; [congruence|]. split; [congruence|].
        split; [rewrite G1, F1, EB; now rewrite app_assoc|].
        exists (used ++ used2). split; [rewrite F3, G3; now rewrite app_assoc|apply Forall_app; auto].
      * apply (Fail e2 w2 (Err (EIo kk)) (B1 ++ pre) suf U1); auto.
        -- rewrite G3, F1. now rewrite app_assoc.
        -- rewrite EB, G1. now rewrite app_assoc.
        -- eapply fault_error; eauto.
        -- rewrite F3, G5. intros Hh. apply Forall_app in Hh. destruct Hh as [_ Hh]. apply Forall_app in Hh. destruct Hh as [_ Hh].
           inversion Hh; subst. eapply fault_not_harmless; eauto.
    + apply (Fail e1 w1 (Err (EIo kk)) pre (suf ++ padded pal) V1); auto.
      * rewrite EB, F1. now rewrite app_assoc.
      * destruct suf; [congruence|discriminate].
      * eapply fault_error; eauto.
      * rewrite F5. intros Hh. apply Forall_app in Hh. destruct Hh as [_ Hh].
        inversion Hh; subst. eapply fault_not_harmless; eauto.
Qed.

(** *** Whole sessions *)
Lemma run_ops_each L dbg ops : forall e e', run_ops L dbg e ops = (e', Ok tt) ->
  run_each L dbg e ops = (e', map (fun _ => Ok tt) ops).
Proof.
  induction ops as [|o ops IH]; intros e e' H; cbn [run_ops run_each] in *; [injection H as <-; reflexivity|].
  destruct (run_op L dbg e o) as [e1 [[]|er| |]]; try discriminate H. now rewrite (IH _ _ H).
Qed.
Lemma ok_not_writer_error {A} (a : A) : ~ writer_error (Ok a).
Proof. intros [H|[k H]]; discriminate H. Qed.

(** Everything was accepted: the output is the file the calls stand for, byte for byte, whatever
    the writer did on the way. *)
Theorem session_ok L dbg w width height pal ops e1 e2 e3 w3 : u16_ok width -> u16_ok height -> Forall op_rng ops ->
  encoder_new w width height pal = (e1, Ok tt) -> run_ops L dbg e1 ops = (e2, Ok tt) -> into_inner e2 = (e3, Ok w3) ->
  w_out w3 = w_out w ++ ser_gif (enc_gif L width height pal ops) [] /\ e_w e3 = None /\
  (colors pal <= 256)%nat /\ Forall (fun o => op_result dbg (usable pal) o = Ok tt) ops.
Proof.
  intros Rw Rh Ro H1 H2 H3.
  destruct (encoder_new_spec _ _ _ _ _ _ Rw Rh H1) as (w1 & N1 & N2 & N3).
  destruct (Nat.le_gt_cases (colors pal) 256) as [Hc|Hc]; [|destruct (N3 Hc) as [N4 _]; discriminate N4].
  destruct (N2 Hc) as [(_ & M1 & _ & _ & M2 & _)|(M1 & _)]; [|now apply ok_not_writer_error in M1].
  destruct (run_each_lin L dbg ops e1 w1 (usable pal) _ _ N1 M1 Ro (run_ops_each _ _ _ _ _ H2)) as (w2 & U1 & U2 & _ & _ & U3).
  destruct U3 as [(K1 & K2 & _)|(_ & K)].
  - destruct (into_inner_spec _ _ _ _ U1 H3) as [(w' & I1 & I2 & I3 & _)|(w' & I1 & _)]; [|now apply ok_not_writer_error in I1].
    injection I1 as <-.
    assert (Hok : Forall (fun o => op_result dbg (usable pal) o = Ok tt) ops).
    { clear - K1. induction ops as [|o ops IH]; [constructor|]. cbn [map] in K1. injection K1 as K1 K2. constructor; auto. }
    split; [|auto]. rewrite I3, K2, M2. unfold ser_gif. rewrite head_bytes_gif. rewrite <- !app_assoc. do 2 f_equal. f_equal.
    clear - Hok. cbn [enc_gif g_blocks]. induction Hok as [|o ops Ho Hok IH]; [reflexivity|].
    cbn [map concat flat_map]. unfold ser_blocks in *. rewrite map_app, concat_app, IH. f_equal.
    unfold op_bytes. now rewrite Ho.
  - exfalso. destruct K as (ops1 & o1 & ops2 & e4 & w4 & r4 & suf & Q1 & Q2 & Q3 & Q4 & _). subst ops.
    rewrite map_app in Q3. cbn [map] in Q3.
    assert (Q5 : nth_error (map (op_result dbg (usable pal)) ops1 ++ [r4]) (length ops1) = Some r4).
    { rewrite nth_error_app2; rewrite map_length; [|lia]. now rewrite Nat.sub_diag. }
    rewrite <- Q3 in Q5. rewrite firstn_app, map_length in Q5. rewrite firstn_all2 in Q5 by (rewrite map_length; lia).
    replace (S (length ops1) - length ops1)%nat with 1%nat in Q5 by lia. cbn [firstn] in Q5.
    rewrite nth_error_app2 in Q5 by (rewrite map_length; lia). rewrite map_length, Nat.sub_diag in Q5. injection Q5 as <-.
    now apply ok_not_writer_error in Q4.
Qed.

(** Conversely, acceptable calls on a writer without faults all succeed. *)
Theorem session_runs L dbg w width height pal ops : u16_ok width -> u16_ok height -> Forall op_rng ops ->
  Forall harmless (w_plan w) -> (colors pal <= 256)%nat -> Forall (fun o => op_result dbg (usable pal) o = Ok tt) ops ->
  exists e1 e2 e3 w3,
    encoder_new w width height pal = (e1, Ok tt) /\ run_ops L dbg e1 ops = (e2, Ok tt) /\ into_inner e2 = (e3, Ok w3).
Proof.
  intros Rw Rh Ro Hh Hc Hok. destruct (encoder_new w width height pal) as [e1 x1] eqn:E1.
  destruct (encoder_new_spec _ _ _ _ _ _ Rw Rh E1) as (w1 & N1 & N2 & _).
  destruct (N2 Hc) as [(-> & M1 & _ & _ & M2 & used & M3 & _)|(_ & M1 & _)]; [|contradiction].
  assert (Hh1 : Forall harmless (w_plan w1)) by (rewrite M3 in Hh; apply Forall_app in Hh; tauto).
  assert (Hrun : exists e2 w2, run_ops L dbg e1 ops = (e2, Ok tt) /\ e_w e2 = Some w2 /\ Forall harmless (w_plan w2)).
  { clear - Ro Hok Hh1 N1 M1. revert e1 w1 N1 M1 Hh1. induction ops as [|o ops IH]; intros e1 w1 N1 M1 Hh1.
    - exists e1, w1. auto.
    - inversion Ro as [|? ? R1 R2]; subst. inversion Hok as [|? ? O1 O2]; subst. cbn [run_ops].
      destruct (run_op L dbg e1 o) as [e2 r] eqn:E.
      destruct (op_lin L dbg o (usable pal) R1 e1 w1 N1 M1 _ _ E) as (w2 & V1 & V2 & V3 & V4 & V5).
      destruct V4 as [used F1 F2 F3 F4|used ac k pre suf F1 F2 F3 F4 F5 F6 F7].
      + rewrite O1 in F2. subst r. apply (IH R2 O2 e2 w2 V1 V5). rewrite F3 in Hh1. apply Forall_app in Hh1. tauto.
      + exfalso. rewrite F5 in Hh1. apply Forall_app in Hh1. destruct Hh1 as [_ Hh1]. inversion Hh1; subst.
        eapply fault_not_harmless; eauto. }
  destruct Hrun as (e2 & w2 & R1 & R2 & R3). destruct (into_inner e2) as [e3 x3] eqn:E3.
  destruct (into_inner_spec _ _ _ _ R2 E3) as [(w' & -> & _)|(w' & _ & _ & I & _)]; [|contradiction].
  exists e1, e2, e3, w'. auto.
Qed.

(** *** Pre-encoding (C13) *)
Lemma header_no_buffer e f b : write_frame_header e (set_buffer f b) = write_frame_header e f.
Proof. reflexivity. Qed.

Lemma min_code_size_range data : bytes_ok data -> 2 <= min_code_size data <= 8.
Proof. intros H. rewrite min_code_size_spec by exact H. apply code_bits_range. Qed.

Theorem pre_encoded_equivalent L dbg e f e1 r1 e2 r2 : bytes_ok (f_buffer f) ->
  f_width f * f_height f <= len (f_buffer f) ->
  (dbg = false \/ f_width f * f_height f <> 0 \/ f_buffer f = []) ->
  run_op L dbg e (OWriteFrame f) = (e1, r1) ->
  run_op L dbg e (OWritePre (make_lzw_pre_encoded L f)) = (e2, r2) ->
  r1 = r2 /\ e_w e1 = e_w e2 /\ e_global_palette e1 = e_global_palette e2.
Proof.
  intros Hb Hl Hd H1 H2. cbn [run_op] in *. unfold write_frame in H1. unfold write_lzw_pre_encoded_frame, make_lzw_pre_encoded in H2.
  rewrite header_no_buffer in H2. cbn [f_buffer set_buffer] in H2.
  assert (El : len (f_buffer f) <? f_width f * f_height f = false) by (apply N.ltb_ge; exact Hl). rewrite El in H1.
  replace (dbg && negb _) with false in H1.
  2:{ destruct Hd as [->|[Hd| ->]]; [reflexivity| |cbn [is_nil]; rewrite orb_true_r, andb_false_r; reflexivity].
      destruct (N.ltb_spec 0 (f_width f)), (N.ltb_spec 0 (f_height f)); cbn [andb orb negb]; rewrite ?andb_false_r; try reflexivity; nia. }
  rewrite lzw_encode_nil in H2 by exact Hb. pose proof (code_bits_range (f_buffer f)) as Hm.
  set (m := code_bits (f_buffer f)) in *. 
  replace ((11 <? m) || (m <? 2)) with false in H2.
  2:{ symmetry. apply orb_false_iff. split; apply N.ltb_ge; lia. }
  destruct (write_frame_header e f) as [e0 r0]. destruct r0 as [a|er| |].
  - unfold write_image_block in H1. rewrite lzw_encode_nil in H1 by exact Hb. fold m in H1. cbn [e_w e_buffer] in H1.
    unfold with_writer in *. cbn [e_w e_global_palette e_width e_height e_buffer] in H1. destruct (e_w e0) as [w0|] eqn:Ew.
    + destruct (write_encoded_image_block (m :: lz_encode L m (f_buffer f)) w0) as [w1 r]. injection H1 as <- <-. injection H2 as <- <-. auto.
    + injection H1 as <- <-. injection H2 as <- <-. cbn [e_w e_global_palette]. auto.
  - injection H1 as <- <-. injection H2 as <- <-. auto.
  - injection H1 as <- <-. injection H2 as <- <-. auto.
  - injection H1 as <- <-. injection H2 as <- <-. auto.
Qed.
