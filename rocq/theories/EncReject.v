(** Sessions in which some frames are rejected (C10): what they leave behind, and that the file is still
    read as the frames that were accepted. *)
From Verif Require Import Base Common Lzw Encoder Stream Converter Reader SpecGif SpecPixels SpecEnc SpecRound
  EncLin EncSpec EncSession DocAll RoundTrip RoundProps.
Open Scope N_scope.

(** ** Specification *)

(** The calls that were accepted. *)
Definition accepted (ops : list enc_op) (rs : list (eres unit)) : list enc_op :=
  map fst (filter (fun p => match snd p with Ok _ => true | _ => false end) (combine ops rs)).
(** What is left of a call: a frame without a usable palette leaves its control extension. *)
Definition leftover (f : frame) : enc_op :=
  OExt (EControl (control_flags (f_dispose f) (f_needs_user_input f) (f_transparent f)) (f_delay f)
          (match f_transparent f with Some t => t | None => 0 end)).
Definition leaves (o : enc_op) (r : eres unit) : list enc_op :=
  match r, frame_of o with
  | Ok _, _ => [o]
  | Err (EFormat TooManyColors), Some f | Err (EFormat MissingColorPalette), Some f => [leftover f]
  | _, _ => []
  end.
Fixpoint remains (ops : list enc_op) (rs : list (eres unit)) : list enc_op :=
  match ops, rs with
  | o :: ops', r :: rs' => leaves o r ++ remains ops' rs'
  | _, _ => []
  end.

(** ** One call *)
Lemma control_flags_byte d ui t : byte_ok (control_flags d ui t).
Proof. unfold byte_ok, control_flags. destruct d, ui, t; cbn; lia. Qed.
Lemma leaves_rng o r : op_rng o -> Forall op_rng (leaves o r).
Proof.
  intros Ho. assert (Hl : forall f, frame_of o = Some f -> Forall op_rng [leftover f]).
  { intros f Hf. constructor; [|constructor]. assert (R : frame_rng f) by (destruct o; cbn in Hf; try discriminate Hf; injection Hf as <-; exact Ho).
    destruct R as (R1 & _ & _ & _ & _ & R2 & _). split; [apply control_flags_byte|]. split; [exact R1|].
    destruct (f_transparent f) as [t|]; [now apply R2|reflexivity]. }
  unfold leaves. destruct r as [[]|e| | ]; [constructor; [exact Ho|constructor]| |constructor|constructor].
  destruct e as [ef|k]; [|constructor]. destruct (frame_of o) as [f|]; destruct ef; try (constructor; fail); now apply Hl.
Qed.
Lemma leaves_ok L dbg gp o : let r := op_result dbg gp o in
  Forall (fun o' => op_result dbg gp o' = Ok tt) (leaves o r) /\
  op_bytes L dbg gp o = ser_blocks (flat_map (op_blocks L) (leaves o r)).
Proof.
  cbv zeta. unfold op_bytes, leaves. destruct (op_result dbg gp o) as [[]|e| | ] eqn:E.
  - split; [constructor; [exact E|constructor]|]. cbn [flat_map]. rewrite ?app_nil_r. reflexivity.
  - assert (Hs : forall f, Forall (fun o' => op_result dbg gp o' = Ok tt) [leftover f] /\
      ser_blk (control_of f) = ser_blocks (flat_map (op_blocks L) [leftover f])).
    { intros f. split; [repeat constructor|]. unfold ser_blocks, leftover, control_of. cbn [flat_map op_blocks app map concat]. rewrite app_nil_r. reflexivity. }
    destruct e as [ef|k]; [|split; [constructor|reflexivity]].
    destruct ef, o; cbn [frame_of]; try apply Hs; split; try constructor; reflexivity.
  - split; [constructor|reflexivity].
  - split; [constructor|reflexivity].
Qed.

(** A rejected frame on a writer without faults. *)
Theorem rejected_frame_leaves L dbg e w o f e' r : frame_rng f -> frame_of o = Some f ->
  e_w e = Some w -> Forall harmless (w_plan w) -> run_op L dbg e o = (e', r) -> r <> Ok tt ->
  exists w', e_w e' = Some w' /\
    ((r = Err (EFormat TooManyColors) \/ r = Err (EFormat MissingColorPalette)) /\
       w_out w' = w_out w ++ ser_blk (control_of f) \/
     (r <> Err (EFormat TooManyColors) /\ r <> Err (EFormat MissingColorPalette)) /\ w_out w' = w_out w).
Proof.
  intros Rf Ho Hw Hh H Hr.
  assert (Ro : op_rng o) by (destruct o; cbn in Ho; try discriminate Ho; injection Ho as ->; exact Rf).
  destruct (op_lin L dbg o (e_global_palette e) Ro e w Hw eq_refl _ _ H) as (w' & V1 & _ & _ & V4 & _).
  exists w'. split; [exact V1|].
  destruct V4 as [used F1 F2 F3 F4|used ac k pre suf F1 F2 F3 F4 F5 F6 F7].
  - rewrite F1, F2. unfold op_bytes. subst r. destruct (op_result dbg (e_global_palette e) o) as [[]|er| | ]; [congruence| | |].
    + destruct er as [ef|k]; [|right; split; [split; discriminate|apply app_nil_r]].
      destruct ef; try (right; split; [split; discriminate|apply app_nil_r]); left;
        (split; [auto|]); destruct o; cbn in Ho; try discriminate Ho; injection Ho as ->; reflexivity.
    + right. split; [split; discriminate|apply app_nil_r].
    + right. split; [split; discriminate|apply app_nil_r].
  - exfalso. rewrite F5 in Hh. apply Forall_app in Hh. destruct Hh as [_ Hh]. inversion Hh; subst. eapply fault_not_harmless; eauto.
Qed.

(** ** Sessions *)
Lemma remains_spec L dbg gp ops : Forall op_rng ops ->
  let rs := map (op_result dbg gp) ops in
  Forall op_rng (remains ops rs) /\ Forall (fun o => op_result dbg gp o = Ok tt) (remains ops rs) /\
  concat (map (op_bytes L dbg gp) ops) = ser_blocks (flat_map (op_blocks L) (remains ops rs)).
Proof.
  cbv zeta. induction 1 as [|o ops Ho _ (I1 & I2 & I3)]; [split; [constructor|split; [constructor|reflexivity]]|].
  cbn [map remains concat]. destruct (leaves_ok L dbg gp o) as [A1 A2]. rewrite I3.
  split; [apply Forall_app; split; [now apply leaves_rng|exact I1]|].
  split; [apply Forall_app; auto|]. rewrite flat_map_app. unfold ser_blocks in *. rewrite map_app, concat_app, A2. reflexivity.
Qed.
Lemma accepted_remains {L} (S : lzw_spec L) ops : forall rs frames, written S (accepted ops rs) frames -> written S (remains ops rs) frames.
Proof.
  unfold accepted. induction ops as [|o ops IH]; intros rs frames H; [exact H|]. destruct rs as [|r rs]; [exact H|].
  cbn [combine filter map remains] in *. unfold leaves. destruct r as [[]|e| | ]; cbn [snd fst map app] in *.
  - inversion H as [|? f px ? l0 Hf Hc Hl|? ? ? Hf Hl]; subst; [eapply written_frame|eapply written_other]; eauto.
  - destruct e as [ef|k]; [|now apply IH].
    destruct ef, (frame_of o); cbn [app]; try (now apply IH); apply written_other; try reflexivity; now apply IH.
  - now apply IH.
  - now apply IH.
Qed.
Lemma accepted_in ops : forall rs o, In o (accepted ops rs) -> In o (remains ops rs).
Proof.
  unfold accepted. induction ops as [|o ops IH]; intros rs o' H; [exact H|]. destruct rs as [|r rs]; [exact H|].
  cbn [combine filter remains] in *. apply in_or_app. destruct r as [[]|e| | ]; cbn [snd fst map] in *.
  - destruct H as [H|H]; [left; subst; left; reflexivity|right; now apply IH].
  - right. now apply IH.
  - right. now apply IH.
  - right. now apply IH.
Qed.
Lemma remains_readable o ops : fits (o_limit o) 5 -> forall rs,
  Forall (call_readable o) (accepted ops rs) -> Forall (call_readable o) (remains ops rs).
Proof.
  intros H5. unfold accepted. induction ops as [|c ops IH]; intros rs H; [constructor|]. destruct rs as [|r rs]; [constructor|].
  cbn [combine filter remains] in *. apply Forall_app. unfold leaves. destruct r as [[]|e| | ]; cbn [snd fst map] in *.
  - inversion H; subst. split; [constructor; [assumption|constructor]|now apply IH].
  - split; [|now apply IH]. destruct e as [ef|k]; [|constructor]. destruct ef, (frame_of c); constructor; try exact H5; constructor.
  - split; [constructor|now apply IH].
  - split; [constructor|now apply IH].
Qed.

(** A session without I/O errors writes what remains of it, as if only that had been requested. *)
Theorem session_rejecting L dbg w width height pal ops e1 e2 rs e3 w3 v :
  u16_ok width -> u16_ok height -> Forall op_rng ops ->
  encoder_new w width height pal = (e1, Ok tt) -> run_each L dbg e1 ops = (e2, rs) -> Forall (fun r => ~ writer_error r) rs ->
  into_inner e2 = (e3, Ok w3) -> Forall harmless (w_plan v) -> w_out v = w_out w ->
  exists f1 f2 f3 v3, encoder_new v width height pal = (f1, Ok tt) /\ run_ops L dbg f1 (remains ops rs) = (f2, Ok tt) /\
    into_inner f2 = (f3, Ok v3) /\ w_out v3 = w_out w3.
Proof.
  intros Rw Rh Ro H1 H2 Hne H3 Hv Hvw.
  destruct (encoder_new_spec _ _ _ _ _ _ Rw Rh H1) as (w1 & N1 & N2 & N3).
  destruct (Nat.le_gt_cases (colors pal) 256) as [Hc|Hc]; [|destruct (N3 Hc) as [N4 _]; discriminate N4].
  destruct (N2 Hc) as [(_ & M1 & _ & _ & M2 & _)|(M1 & _)]; [|now apply ok_not_writer_error in M1].
  destruct (run_each_lin L dbg ops e1 w1 (usable pal) _ _ N1 M1 Ro H2) as (w2 & U1 & U2 & _ & _ & U3).
  destruct U3 as [(K1 & K2 & _)|(_ & K)].
  - destruct (into_inner_spec _ _ _ _ U1 H3) as [(w' & I1 & I2 & I3 & _)|(w' & I1 & _)]; [|now apply ok_not_writer_error in I1].
    injection I1 as <-. subst rs. destruct (remains_spec L dbg (usable pal) ops Ro) as (A1 & A2 & A3).
    destruct (session_runs L dbg v width height pal _ Rw Rh A1 Hv Hc A2) as (f1 & f2 & f3 & v3 & B1 & B2 & B3).
    destruct (session_ok L dbg v width height pal _ _ _ _ _ Rw Rh A1 B1 B2 B3) as (B4 & _).
    exists f1, f2, f3, v3. split; [exact B1|]. split; [exact B2|]. split; [exact B3|].
    rewrite B4, I3, K2, M2, A3, Hvw. unfold ser_gif. rewrite head_bytes_gif. cbn [enc_gif g_blocks]. rewrite <- !app_assoc. reflexivity.
  - exfalso. destruct K as (ops1 & o1 & ops2 & e4 & w4 & r4 & suf & Q1 & Q2 & Q3 & Q4 & _).
    assert (Q5 : In r4 rs).
    { rewrite <- (firstn_skipn (S (length ops1)) rs). apply in_or_app. left. rewrite Q3. apply in_or_app. right. now left. }
    eapply Forall_forall in Hne; [|exact Q5]. contradiction.
Qed.

(** Reading back gives the accepted frames. *)
Theorem round_trip_rejecting L (S : lzw_spec L) umax : 2 ^ 32 - 1 <= umax ->
  forall o w sw sh pal dbg ops e1 e2 rs e3 w3 frames tl src n,
  u16_ok sw -> u16_ok sh -> bytes_ok pal -> Forall op_rng ops ->
  encoder_new w sw sh pal = (e1, Ok tt) -> run_each L dbg e1 ops = (e2, rs) -> Forall (fun r => ~ writer_error r) rs ->
  into_inner e2 = (e3, Ok w3) -> w_out w = [] -> delivers src (w_out w3 ++ tl) ->
  Forall (call_readable o) (accepted ops rs) -> fits (o_limit o) 5 -> written S (accepted ops rs) frames ->
  Exists writes_block (accepted ops rs) ->
  Forall (fun p => frame_readable o umax sw sh (fst p) (snd p)) frames ->
  o_skip_frame_decoding o = false -> o_check_for_end_code o = false -> (length frames < n)%nat ->
  exists d d', read_info L src o = Ok d /\
    read_all L umax n d = (d', map (fun p => wanted (o_color o) pal (fst p) (snd p)) frames, Ok false).
Proof.
  intros Humax o w sw sh pal dbg ops e1 e2 rs e3 w3 frames tl src n Rw Rh Rp Ro H1 H2 Hne H3 Hw Hsrc Hr H5 Hwr Hex Hfr Hs Hc Hn.
  destruct (session_rejecting L dbg w sw sh pal ops e1 e2 rs e3 w3 (mk_writer [] []) Rw Rh Ro H1 H2 Hne H3 (Forall_nil _) (eq_sym Hw))
    as (f1 & f2 & f3 & v3 & B1 & B2 & B3 & B4).
  assert (Rr : Forall op_rng (remains ops rs)).
  { clear - Ro. revert rs. induction Ro as [|c ops Hc Ro IH]; intros rs; [constructor|]. destruct rs as [|r rs]; [constructor|].
    cbn [remains]. apply Forall_app. split; [now apply leaves_rng|apply IH]. }
  apply (round_trip_frames L S umax Humax o (mk_writer [] []) sw sh pal dbg (remains ops rs) f1 f2 f3 v3 frames tl src n
    Rw Rh Rp Rr B1 B2 B3 eq_refl); try assumption.
  - rewrite B4. exact Hsrc.
  - now apply remains_readable.
  - now apply accepted_remains.
  - apply Exists_exists in Hex. destruct Hex as (c & Hc1 & Hc2). apply Exists_exists. exists c. split; [now apply accepted_in|exact Hc2].
Qed.
