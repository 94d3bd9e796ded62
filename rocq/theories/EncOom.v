(** The encoder with memory that may run out: model of the three places where src/encoder.rs and src/common.rs use
    [try_reserve], and what it means for the file. [ok] says whether the reservation succeeds. *)
From Verif Require Import Base Common Lzw Encoder Stream Converter Reader DecoderSafe SpecGif SpecEnc EncLin EncSpec EncSession
  DocAll Damage SpecRound RoundTrip SpecDamage SpecEncOom.
Open Scope N_scope.

(** src/encoder.rs 214-222 [write_image_block]; 215: the buffer is cleared before. *)
Definition write_image_block_o (L : lzw_codec) (ok : bool) (e : encoder) (data : list N) : encoder * eres unit :=
  if ok then write_image_block L e data
  else (mk_enc (e_w e) (e_global_palette e) (e_width e) (e_height e) [], Err (EIo OutOfMemory)).

(** src/encoder.rs 169-176 [write_frame]. *)
Definition write_frame_o (L : lzw_codec) (dbg ok : bool) (e : encoder) (f : frame) : encoder * eres unit :=
  if len (f_buffer f) <? f_width f * f_height f then (e, Err (EIo InvalidInput))
  else if dbg && negb (((0 <? f_width f) && (0 <? f_height f)) || is_nil (f_buffer f)) then (e, Panic)
  else
    let '(e1, r) := write_frame_header e f in
    match r with
    | Ok _ => write_image_block_o L ok e1 (f_buffer f)
    | _ => (e1, r)
    end.

(** src/encoder.rs 405-410 [make_lzw_pre_encoded] and src/common.rs 338-346 [from_rgb_speed]: [expect("OOM")]. [None] is a
    panic. *)
Definition make_lzw_pre_encoded_o (L : lzw_codec) (ok : bool) (f : frame) : option frame :=
  if ok then Some (make_lzw_pre_encoded L f) else None.
Definition from_rgb_speed_o (q : neuquant) (ok : bool) (w h : N) (pixels : list N) (speed : Z) : option frame :=
  if negb (w * h * 3 =? len pixels) then None
  else if ok then from_rgb_speed q w h pixels speed else None.

(** Calls of the encoder one after the other; the caller goes on after errors. *)
Definition run_op_o (L : lzw_codec) (dbg ok : bool) (e : encoder) (o : enc_op) : encoder * eres unit :=
  match o with OWriteFrame f => write_frame_o L dbg ok e f | _ => run_op L dbg e o end.
Fixpoint run_each_o (L : lzw_codec) (dbg : bool) (e : encoder) (ops : list (enc_op * bool)) : encoder * list (eres unit) :=
  match ops with
  | [] => (e, [])
  | (o, ok) :: ops' =>
    let '(e1, r) := run_op_o L dbg ok e o in
    let '(e2, rs) := run_each_o L dbg e1 ops' in (e2, r :: rs)
  end.

Lemma write_frame_spared L dbg e f : write_frame_o L dbg true e f = write_frame L dbg e f.
Proof. reflexivity. Qed.
Theorem run_op_spared L dbg e o : run_op_o L dbg true e o = run_op L dbg e o.
Proof. destruct o; reflexivity. Qed.

Lemma header_is f : header_bytes f = 0x2C :: descriptor (image_of f 0 []) ++ im_lct (image_of f 0 []).
Proof. unfold header_bytes, descriptor, image_of. cbn [im_left im_top im_w im_h im_flags im_lct]. now rewrite <- !app_assoc. Qed.

Theorem oom_lin L dbg ok o gp : op_rng o -> elin (fun e => run_op_o L dbg ok e o) gp (mem_bytes L dbg gp ok o) (mem_result dbg gp ok o).
Proof.
  intros R. destruct ok.
  { apply elin_ext with (op1 := fun e => run_op L dbg e o); [intros; apply run_op_spared|].
    replace (mem_bytes L dbg gp true o) with (op_bytes L dbg gp o) by (destruct o; reflexivity).
    replace (mem_result dbg gp true o) with (op_result dbg gp o) by (destruct o; reflexivity). now apply op_lin. }
  destruct o as [r|f|f|l data|x]; try exact (op_lin L dbg _ gp R).
  cbn [run_op_o]. unfold mem_bytes, mem_result, write_frame_o.
  assert (Ed : negb ((0 <? f_width f) && (0 <? f_height f) || is_nil (f_buffer f)) =
      (f_width f * f_height f =? 0) && negb (is_nil (f_buffer f))).
  { rewrite negb_orb. f_equal. destruct (N.ltb_spec 0 (f_width f)), (N.ltb_spec 0 (f_height f)),
      (N.eqb_spec (f_width f * f_height f) 0); cbn [andb negb]; try reflexivity; nia. }
  unfold op_bytes, op_result. destruct (len (f_buffer f) <? f_width f * f_height f); [apply elin_ret|].
  rewrite Ed, <- andb_assoc. destruct (dbg && _); [apply elin_ret|].
  pose proof (frame_header_lin f gp R) as H1. unfold header_result in H1. rewrite <- header_is.
  apply elin_ext with (op1 := fun e => let '(e1, x) := write_frame_header e f in
        match x with Ok a => write_image_block_o L false e1 (f_buffer f) | Err er => (e1, Err er) | Panic => (e1, Panic) | Hang => (e1, Hang) end).
  { intros e w _ _. destruct (write_frame_header e f) as [e1 x]. destruct x; reflexivity. }
  destruct (palette_error gp f) as [er|] eqn:Ep.
  - rewrite app_nil_r in H1. eapply elin_bytes;
      [apply elin_bind_err with (op2 := fun _ e1 => write_image_block_o L false e1 (f_buffer f)); exact H1|].
    unfold palette_error in Ep. destruct (f_palette f) as [p|]; [destruct (256 <? colors p)%nat|destruct gp]; try discriminate Ep; injection Ep as <-; reflexivity.
  - rewrite <- (app_nil_r (ser_blk (control_of f) ++ header_bytes f)).
    apply elin_bind with (a := tt) (op2 := fun _ e1 => write_image_block_o L false e1 (f_buffer f)); [exact H1|].
    intros e w Hw Hg e' x [= <- <-]. exists w. split; [exact Hw|]. split; [reflexivity|]. split; [reflexivity|]. split; [|exact Hg].
    apply wrote_all with (used := []); auto. now rewrite app_nil_r.
Qed.

(** ** Whole sessions *)
Lemma each_oom L dbg ops : forall e w gp e' rs, e_w e = Some w -> e_global_palette e = gp -> Forall op_rng (map fst ops) ->
  Forall harmless (w_plan w) -> run_each_o L dbg e ops = (e', rs) ->
  rs = map (fun '(o, ok) => mem_result dbg gp ok o) ops /\
  exists w', e_w e' = Some w' /\ w_out w' = w_out w ++ concat (map (fun '(o, ok) => mem_bytes L dbg gp ok o) ops) /\ Forall harmless (w_plan w').
Proof.
  induction ops as [|[o ok] ops IH]; intros e w gp e' rs Hw Hg Hr Hh H; cbn [run_each_o] in H.
  { injection H as <- <-. split; [reflexivity|]. exists w. cbn. now rewrite app_nil_r. }
  destruct (run_op_o L dbg ok e o) as [e1 r] eqn:E1. destruct (run_each_o L dbg e1 ops) as [e2 rs2] eqn:E2. injection H as <- <-.
  cbn [map fst] in Hr. apply Forall_cons_iff in Hr. destruct Hr as [Ro Rs].
  destruct (oom_lin L dbg ok o gp Ro e w Hw Hg _ _ E1) as (w1 & V1 & _ & _ & V4 & V5).
  destruct V4 as [used F1 F2 F3 F4|used ac k pre suf F1 F2 F3 F4 F5 F6 F7].
  - assert (Hh1 : Forall harmless (w_plan w1)) by (rewrite F3 in Hh; apply Forall_app in Hh; tauto).
    destruct (IH _ _ _ _ _ V1 V5 Rs Hh1 E2) as (I1 & w2 & I2 & I3 & I4). cbn [map concat]. split; [congruence|].
    exists w2. split; [exact I2|]. split; [|exact I4]. rewrite I3, F1. now rewrite <- app_assoc.
  - exfalso. rewrite F5 in Hh. apply Forall_app in Hh. destruct Hh as [_ Hh]. inversion Hh; subst. eapply fault_not_harmless; eauto.
Qed.

Theorem oom_session L dbg w width height pal ops e1 e2 rs e3 w3 : u16_ok width -> u16_ok height -> Forall op_rng (map fst ops) ->
  Forall harmless (w_plan w) -> encoder_new w width height pal = (e1, Ok tt) ->
  run_each_o L dbg e1 ops = (e2, rs) -> into_inner e2 = (e3, Ok w3) ->
  rs = map (fun '(o, ok) => mem_result dbg (usable pal) ok o) ops /\
  w_out w3 = w_out w ++ ser_head (enc_gif L width height pal []) ++
    concat (map (fun '(o, ok) => mem_bytes L dbg (usable pal) ok o) ops) ++ [0x3B].
Proof.
  intros Rw Rh Ro Hh H1 H2 H3.
  destruct (encoder_new_spec _ _ _ _ _ _ Rw Rh H1) as (w1 & N1 & N2 & N3).
  destruct (Nat.le_gt_cases (colors pal) 256) as [Hc|Hc]; [|destruct (N3 Hc) as [N4 _]; discriminate N4].
  destruct (N2 Hc) as [(_ & M1 & _ & _ & M2 & used & M3 & _)|(M1 & _)]; [|now apply ok_not_writer_error in M1].
  assert (Hh1 : Forall harmless (w_plan w1)) by (rewrite M3 in Hh; apply Forall_app in Hh; tauto).
  destruct (each_oom L dbg ops e1 w1 (usable pal) _ _ N1 M1 Ro Hh1 H2) as (K0 & w2 & K1 & K2 & K3).
  split; [exact K0|].
  destruct (into_inner_spec _ _ _ _ K1 H3) as [(w' & I1 & I2 & I3 & _)|(w' & I1 & _)]; [|now apply ok_not_writer_error in I1].
  injection I1 as <-. rewrite I3, K2, M2, head_bytes_gif. now rewrite <- !app_assoc.
Qed.

(** The frames written before memory ran out are read back, whatever the caller did afterwards. *)
Theorem oom_frames L (S : lzw_spec L) umax : 2 ^ 32 - 1 <= umax ->
  forall o dbg w width height pal ops f rest e1 e2 rs e3 w3 tl src outs n,
  u16_ok width -> u16_ok height -> Forall op_rng ops -> frame_rng f -> Forall op_rng (map fst rest) -> Forall harmless (w_plan w) ->
  encoder_new w width height pal = (e1, Ok tt) -> w_out w = [] ->
  run_each_o L dbg e1 (map (fun o => (o, true)) ops ++ (OWriteFrame f, false) :: rest) = (e2, rs) ->
  Forall (fun r => r = Ok tt) (firstn (length ops) rs) -> into_inner e2 = (e3, Ok w3) ->
  part_ok o (enc_gif L width height pal ops) -> delivers src (w_out w3 ++ tl) ->
  o_skip_frame_decoding o = false -> o_check_for_end_code o = false ->
  let g := enc_gif L width height pal ops in
  Forall2 (holds L S umax o) (gif_images g) outs -> (0 < n <= length outs)%nat ->
  exists d d', read_info L src o = Ok d /\ read_all L umax n d = (d', firstn n (all_seen o g (gif_images g) outs), Ok true).
Proof.
  intros Humax o dbg w width height pal ops f rest e1 e2 rs e3 w3 tl src outs n Rw Rh Ro Rf Rr Hh H1 Hw H2 Hok H3 Hg Hd N1 N2 g Ho Hn.
  assert (Rall : Forall op_rng (map fst (map (fun o => (o, true)) ops ++ (OWriteFrame f, false) :: rest))).
  { rewrite map_app, map_map. cbn [map fst]. rewrite map_id. apply Forall_app. split; [exact Ro|]. constructor; [exact Rf|exact Rr]. }
  destruct (oom_session L dbg w width height pal _ e1 e2 rs e3 w3 Rw Rh Rall Hh H1 H2 H3) as [E1 E2].
  rewrite Hw in E2. cbn [app] in E2. rewrite map_app, map_map in E1, E2. cbn [map] in E1, E2.
  rewrite E1, firstn_app, map_length, Nat.sub_diag in Hok. cbn [firstn] in Hok. rewrite app_nil_r in Hok.
  rewrite firstn_all2 in Hok by (rewrite map_length; lia).
  assert (Eb : concat (map (fun o => mem_bytes L dbg (usable pal) true o) ops) = ser_blocks (g_blocks g)).
  { unfold g. cbn [enc_gif g_blocks]. clear - Hok. induction ops as [|c ops IH]; [reflexivity|].
    cbn [map concat flat_map] in *. apply Forall_cons_iff in Hok. destruct Hok as [H1 H2]. unfold ser_blocks in *.
    rewrite map_app, concat_app, <- (IH H2). f_equal.
    replace (mem_bytes L dbg (usable pal) true c) with (op_bytes L dbg (usable pal) c) by (destruct c; reflexivity).
    replace (mem_result dbg (usable pal) true c) with (op_result dbg (usable pal) c) in H1 by (destruct c; reflexivity).
    unfold op_bytes. now rewrite H1. }
  rewrite concat_app, Eb in E2.
  set (tz := concat (mem_bytes L dbg (usable pal) false (OWriteFrame f) ::
    map (fun '(o0, ok) => mem_bytes L dbg (usable pal) ok o0) rest) ++ [0x3B] ++ tl) in *.
  assert (Es : delivers src (ser_cut g tz)).
  { replace (ser_cut g tz) with (w_out w3 ++ tl); [exact Hd|]. rewrite E2. unfold ser_cut, tz, g. rewrite !head_bytes_gif.
    rewrite <- !app_assoc. reflexivity. }
  exact (intact_frames L S umax Humax o g tz Hg src Es outs n N1 N2 Ho Hn).
Qed.

Theorem oom_round_trip L (S : lzw_spec L) umax : 2 ^ 32 - 1 <= umax ->
  forall o dbg w sw sh pal ops f rest e1 e2 rs e3 w3 frames tl src,
  u16_ok sw -> u16_ok sh -> bytes_ok pal -> Forall op_rng ops -> frame_rng f -> Forall op_rng (map fst rest) ->
  Forall harmless (w_plan w) -> encoder_new w sw sh pal = (e1, Ok tt) -> w_out w = [] ->
  run_each_o L dbg e1 (map (fun o => (o, true)) ops ++ (OWriteFrame f, false) :: rest) = (e2, rs) ->
  Forall (fun r => r = Ok tt) (firstn (length ops) rs) -> into_inner e2 = (e3, Ok w3) -> delivers src (w_out w3 ++ tl) ->
  Forall (call_readable o) ops -> written S ops frames ->
  Forall (fun p => frame_readable o umax sw sh (fst p) (snd p)) frames -> frames <> [] ->
  o_skip_frame_decoding o = false -> o_check_for_end_code o = false ->
  exists d d', read_info L src o = Ok d /\
    read_all L umax (length frames) d = (d', map (fun p => wanted (o_color o) pal (fst p) (snd p)) frames, Ok true).
Proof.
  intros Humax o dbg w sw sh pal ops f rest e1 e2 rs e3 w3 frames tl src Rw Rh Rp Ro Rf Rr Hh H1 Hw H2 Hok H3 Hd Hread Hwr Hfr Hne N1 N2.
  assert (Rall : Forall op_rng (map fst (map (fun o => (o, true)) ops ++ (OWriteFrame f, false) :: rest))).
  { rewrite map_app, map_map. cbn [map fst]. rewrite map_id. apply Forall_app. split; [exact Ro|]. constructor; [exact Rf|exact Rr]. }
  destruct (oom_session L dbg w sw sh pal _ e1 e2 rs e3 w3 Rw Rh Rall Hh H1 H2 H3) as [E1 _].
  assert (Hall : Forall (fun o => op_result dbg (usable pal) o = Ok tt) ops).
  { pose proof Hok as Hk. rewrite E1, map_app, map_map, firstn_app, map_length, Nat.sub_diag in Hk. cbn [firstn] in Hk. rewrite app_nil_r in Hk.
    rewrite firstn_all2 in Hk by (rewrite map_length; lia). rewrite Forall_map in Hk. eapply Forall_impl; [|exact Hk]. intros c Hc. destruct c; exact Hc. }
  assert (Hc : (colors pal <= 256)%nat).
  { destruct (encoder_new_spec _ _ _ _ _ _ Rw Rh H1) as (w1 & _ & _ & N3).
    destruct (Nat.le_gt_cases (colors pal) 256) as [Hc|Hc]; [exact Hc|]. destruct (N3 Hc) as [N4 _]. discriminate N4. }
  pose proof (enc_gif_ok L S umax Humax o sw sh pal dbg ops Rw Rh Rp Ro Hc Hall Hread frames Hwr Hfr (some_blocks L ops (frames_block L S ops frames Hwr Hne))) as Hg.
  destruct (enc_images L S umax Humax o sw sh pal dbg ops Ro Hc Hall frames Hwr Hfr) as [Ho Hs].
  destruct (oom_frames L S umax Humax o dbg w sw sh pal ops f rest e1 e2 rs e3 w3 tl src (map snd frames) (length frames) Rw Rh Ro Rf Rr Hh H1 Hw H2 Hok H3
    (gif_part_ok _ _ Hg) Hd N1 N2 Ho) as (d & d' & E & Er).
  { rewrite map_length. destruct frames; [congruence|cbn [length]; lia]. }
  exists d, d'. split; [exact E|]. rewrite Er, Hs. f_equal. f_equal. apply firstn_all2. rewrite map_length. lia.
Qed.
Theorem oom_call L dbg ok o e w e' x : op_rng o -> e_w e = Some w -> run_op_o L dbg ok e o = (e', x) ->
  exists w', e_w e' = Some w' /\ wrote w w' (mem_bytes L dbg (e_global_palette e) ok o) (mem_result dbg (e_global_palette e) ok o) x.
Proof.
  intros R Hw H. destruct (oom_lin L dbg ok o _ R e w Hw eq_refl _ _ H) as (w' & V1 & _ & _ & V2 & _). eauto.
Qed.
