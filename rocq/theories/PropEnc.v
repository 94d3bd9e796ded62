(** Properties C01-C13: the encoder, and reading back what it wrote. Each theorem is proved elsewhere
    and only restated here; beside it a concrete case that meets its hypotheses. *)
From Verif Require Import Base Common Lzw Encoder Stream Converter Reader LzwRef LzwRefSpec DecoderSafe CanonReader
  SpecGif SpecPixels SpecEnc SpecRound DocAll EncLin EncSpec EncSession EncFaults EncProps RoundTrip RoundProps EncReject Validate Refuted.
Open Scope N_scope.

(** ** The example session: a loop count, a comment, an interlaced frame with its own palette and a
    frame that uses the global palette, on a writer that accepts a few bytes at a time. *)
Definition ex_f1 : frame :=
  mk_frame 7 DBackground (Some 2) true 1 0 2 3 true (Some [10; 11; 12; 13; 14; 15; 16; 17; 18]) [0; 1; 2; 0; 1; 2].
Definition ex_f2 : frame := mk_frame 0 DKeep None false 0 0 2 1 false None [1; 0].
Definition ex_ops : list enc_op :=
  [OSetRepeat (RFinite 5); ORawExt 0xFE [[72; 105]]; OWriteFrame ex_f1; OWritePre (make_lzw_pre_encoded lzw_ref ex_f2)].
Definition ex_pal : list N := [1; 2; 3; 4; 5; 6].
Definition ex_w : writer := mk_writer [] [WAccept 3; WIntr; WAccept 1; WAccept 200].
Definition ex_e1 : encoder := fst (encoder_new ex_w 4 4 ex_pal).
Definition ex_e2 : encoder := fst (run_ops lzw_ref true ex_e1 ex_ops).
Definition ex_file : list N := match snd (into_inner ex_e2) with Ok w => w_out w | _ => [] end.
Definition ex_frames : list (frame * list N) := [(ex_f1, f_buffer ex_f1); (make_lzw_pre_encoded lzw_ref ex_f2, f_buffer ex_f2)].

Ltac crush_rng := repeat (split || constructor); try (intros ? [= <-]); repeat constructor; try (unfold byte_ok, u16_ok; cbn; lia).

Lemma ex_rng : Forall op_rng ex_ops.
Proof.
  assert (H2 : f_buffer (make_lzw_pre_encoded lzw_ref ex_f2) = [2; 12; 10]) by (vm_compute; reflexivity).
  constructor; [vm_compute; reflexivity|]. constructor; [crush_rng|].
  constructor; [cbn [op_rng]; unfold frame_rng, ex_f1; cbn [f_delay f_left f_top f_width f_height f_transparent f_palette f_buffer]; crush_rng|].
  constructor; [|constructor]. cbn [op_rng]. unfold frame_rng. rewrite H2. unfold make_lzw_pre_encoded, ex_f2.
  cbn [set_buffer f_delay f_left f_top f_width f_height f_transparent f_palette].
  split; [reflexivity|]. split; [reflexivity|]. split; [reflexivity|]. split; [reflexivity|]. split; [reflexivity|].
  split; [intros ? [=]|]. split; [intros ? [=]|]. crush_rng.
Qed.
Lemma ex_runs : exists e3 w3, encoder_new ex_w 4 4 ex_pal = (ex_e1, Ok tt) /\
  run_ops lzw_ref true ex_e1 ex_ops = (ex_e2, Ok tt) /\ into_inner ex_e2 = (e3, Ok w3) /\ w_out w3 = ex_file.
Proof.
  exists (fst (into_inner ex_e2)), (mk_writer ex_file []). split; [vm_compute; reflexivity|]. split; [vm_compute; reflexivity|].
  split; [vm_compute; reflexivity|reflexivity].
Qed.
Lemma ex_written : written lzw_ref_spec ex_ops ex_frames.
Proof.
  apply written_other; [reflexivity|]. apply written_other; [reflexivity|].
  apply written_frame; [reflexivity|apply carries_frame|]. apply written_frame; [reflexivity| |constructor].
  apply carries_pre with (m := 2) (data := lz_encode lzw_ref 2 [1; 0]); [vm_compute; reflexivity|].
  apply (lz_encode_pending lzw_ref lzw_ref_spec); [lia|]. repeat constructor.
Qed.
Lemma ex_readable : Forall (call_readable rgba_opts) ex_ops /\
  Forall (fun p => frame_readable rgba_opts umax64 4 4 (fst p) (snd p)) ex_frames.
Proof.
  split.
  - constructor; [right; vm_compute; discriminate|]. constructor.
    { split; [right; right; left; reflexivity|]. split; [discriminate|]. split; [discriminate|vm_compute; discriminate]. }
    constructor; [exact I|]. constructor; [|constructor]. exists 2, 12, [10]. vm_compute. reflexivity.
  - constructor; [|constructor; [|constructor]]; (split; [vm_compute; discriminate|]; split; [discriminate|]; split;
      [vm_compute; split; [reflexivity|discriminate]|]; split; vm_compute; discriminate).
Qed.
Lemma ex_block : Exists writes_block ex_ops.
Proof. apply Exists_cons_hd. exact I. Qed.
Lemma ex_delivers : delivers (bytewise (ex_file ++ [65; 66])) (ex_file ++ [65; 66]).
Proof.
  split; [|split; vm_compute; [repeat constructor; discriminate|reflexivity]].
  unfold src_ok. vm_compute. repeat constructor.
Qed.

(** ** C01 *)
Theorem C01_round_trip : forall L (S : lzw_spec L) umax, 2 ^ 32 - 1 <= umax ->
  forall o w sw sh pal dbg ops e1 e2 e3 w3 frames tl src n,
  u16_ok sw -> u16_ok sh -> bytes_ok pal -> Forall op_rng ops ->
  encoder_new w sw sh pal = (e1, Ok tt) -> run_ops L dbg e1 ops = (e2, Ok tt) -> into_inner e2 = (e3, Ok w3) ->
  w_out w = [] -> delivers src (w_out w3 ++ tl) ->
  Forall (call_readable o) ops -> written S ops frames -> Exists writes_block ops ->
  Forall (fun p => frame_readable o umax sw sh (fst p) (snd p)) frames ->
  o_skip_frame_decoding o = false -> o_check_for_end_code o = false -> (length frames < n)%nat ->
  exists d d', read_info L src o = Ok d /\
    read_all L umax n d = (d', map (fun p => wanted (o_color o) pal (fst p) (snd p)) frames, Ok false).
Proof. exact round_trip_frames. Qed.
Print Assumptions C01_round_trip.
Example C01_case : exists d d', read_info lzw_ref (bytewise (ex_file ++ [65; 66])) rgba_opts = Ok d /\
  read_all lzw_ref umax64 3 d = (d', map (fun p => wanted CRgba ex_pal (fst p) (snd p)) ex_frames, Ok false).
Proof.
  destruct ex_runs as (e3 & w3 & H1 & H2 & H3 & H4).
  assert (Hd : delivers (bytewise (ex_file ++ [65; 66])) (w_out w3 ++ [65; 66])) by (rewrite H4; exact ex_delivers).
  assert (Hu : 2 ^ 32 - 1 <= umax64) by (vm_compute; discriminate).
  assert (Hp : bytes_ok ex_pal) by crush_rng.
  assert (Hn : (length ex_frames < 3)%nat) by (cbn [length ex_frames]; lia).
  exact (C01_round_trip lzw_ref lzw_ref_spec umax64 Hu rgba_opts ex_w 4 4 ex_pal true ex_ops ex_e1 ex_e2 e3 w3 ex_frames
     [65; 66] _ 3 eq_refl eq_refl Hp ex_rng H1 H2 H3 eq_refl Hd (proj1 ex_readable) ex_written ex_block (proj2 ex_readable) eq_refl eq_refl Hn).
Qed.

(** ** C02, C03 *)
Theorem C02_screen_data : forall L (S : lzw_spec L) umax, 2 ^ 32 - 1 <= umax ->
  forall o w sw sh pal dbg ops e1 e2 e3 w3 frames tl src,
  u16_ok sw -> u16_ok sh -> bytes_ok pal -> Forall op_rng ops ->
  encoder_new w sw sh pal = (e1, Ok tt) -> run_ops L dbg e1 ops = (e2, Ok tt) -> into_inner e2 = (e3, Ok w3) ->
  w_out w = [] -> delivers src (w_out w3 ++ tl) ->
  Forall (call_readable o) ops -> written S ops frames -> Exists writes_block ops ->
  Forall (fun p => frame_readable o umax sw sh (fst p) (snd p)) frames ->
  exists d, read_info L src o = Ok d /\
    dec_width L d = sw /\ dec_height L d = sh /\ dec_global_palette L d = Some (padded pal).
Proof. exact round_trip_screen. Qed.
Print Assumptions C02_screen_data.
Theorem C03_loop_count : forall L (S : lzw_spec L) umax, 2 ^ 32 - 1 <= umax ->
  forall o w sw sh pal dbg ops e1 e2 e3 w3 frames tl src,
  u16_ok sw -> u16_ok sh -> bytes_ok pal -> Forall op_rng ops ->
  encoder_new w sw sh pal = (e1, Ok tt) -> run_ops L dbg e1 ops = (e2, Ok tt) -> into_inner e2 = (e3, Ok w3) ->
  w_out w = [] -> delivers src (w_out w3 ++ tl) ->
  Forall (call_readable o) ops -> written S ops frames -> Exists writes_block ops ->
  Forall (fun p => frame_readable o umax sw sh (fst p) (snd p)) frames -> Forall no_app_ext ops ->
  exists d, read_info L src o = Ok d /\ dec_repeat L d = last_repeat (RFinite 0) ops.
Proof. exact round_trip_repeat. Qed.
Print Assumptions C03_loop_count.
Example C02_C03_case : exists d, read_info lzw_ref (bytewise (ex_file ++ [65; 66])) rgba_opts = Ok d /\
  dec_width lzw_ref d = 4 /\ dec_height lzw_ref d = 4 /\ dec_global_palette lzw_ref d = Some ex_pal /\ dec_repeat lzw_ref d = RFinite 5.
Proof.
  destruct ex_runs as (e3 & w3 & H1 & H2 & H3 & H4).
  assert (Hd : delivers (bytewise (ex_file ++ [65; 66])) (w_out w3 ++ [65; 66])) by (rewrite H4; exact ex_delivers).
  assert (Hu : 2 ^ 32 - 1 <= umax64) by (vm_compute; discriminate).
  assert (Hp : bytes_ok ex_pal) by crush_rng.
  destruct (C02_screen_data lzw_ref lzw_ref_spec umax64 Hu rgba_opts ex_w 4 4 ex_pal true ex_ops ex_e1 ex_e2 e3 w3 ex_frames
     [65; 66] _ eq_refl eq_refl Hp ex_rng H1 H2 H3 eq_refl Hd (proj1 ex_readable) ex_written ex_block (proj2 ex_readable)) as (d & E & A & B & C).
  destruct (C03_loop_count lzw_ref lzw_ref_spec umax64 Hu rgba_opts ex_w 4 4 ex_pal true ex_ops ex_e1 ex_e2 e3 w3 ex_frames
     [65; 66] _ eq_refl eq_refl Hp ex_rng H1 H2 H3 eq_refl Hd (proj1 ex_readable) ex_written ex_block (proj2 ex_readable)) as (d' & E' & D).
  { repeat constructor; discriminate. }
  exists d. rewrite E in E'. injection E' as <-. rewrite D. auto.
Qed.

(** ** C04 *)
Theorem C04_table_rule : forall p, bytes_ok p ->
  (check_color_table p = Err (EFormat TooManyColors) <-> (256 < length p / 3)%nat) /\
  ((length p / 3 <= 256)%nat -> exists t padding k, check_color_table p = Ok (t, padding, k) /\
     t = firstn (3 * (length p / 3)) p /\
     N.of_nat (length p / 3) + padding = 2 ^ (k + 1) /\ k <= 7 /\
     forall k', N.of_nat (length p / 3) <= 2 ^ (k' + 1) -> k <= k').
Proof. exact table_rule. Qed.
Theorem C04_table_bytes : forall p t padding k w w', w_plan w = [] -> check_color_table p = Ok (t, padding, k) ->
  write_color_table t padding w = (w', Ok tt) -> w_out w' = w_out w ++ t ++ repeat 0 (3 * N.to_nat padding).
Proof. exact table_bytes. Qed.
Print Assumptions C04_table_rule.
Print Assumptions C04_table_bytes.
Example C04_case : check_color_table [1; 2; 3; 4; 5; 6; 7; 8; 9; 99] = Ok ([1; 2; 3; 4; 5; 6; 7; 8; 9], 1, 1) /\
  w_out (fst (write_color_table [1; 2; 3; 4; 5; 6; 7; 8; 9] 1 fresh)) = [1; 2; 3; 4; 5; 6; 7; 8; 9; 0; 0; 0].
Proof. split; reflexivity. Qed.

(** ** C05 (the decoding side is the meaning [ctl_of] of the control bytes, which C19 and C26 show
    to be what the decoder reports) *)
Theorem C05_control_bytes : forall L dbg e w delay d ui t e', u16_ok delay -> (forall x, t = Some x -> byte_ok x) ->
  e_w e = Some w -> w_plan w = [] ->
  run_op L dbg e (OExt (new_control_ext delay d ui t)) = (e', Ok tt) ->
  exists w' p, e_w e' = Some w' /\ w_out w' = w_out w ++ [0x21; 0xF9; 4] ++ p ++ [0] /\ length p = 4%nat /\ bytes_ok p /\
    ctl_of p = mk_ctl delay d t ui.
Proof. exact control_bytes. Qed.
Print Assumptions C05_control_bytes.
Theorem C05_read_control : forall L (s : sd L) p delay d ui t, sd_ext_data L s = 4 :: p -> bytes_ok p -> length p = 4%nat ->
  ctl_of p = mk_ctl delay d t ui ->
  exists s' f, read_control_extension L s = (s', Ok tt) /\ sd_current L s' = Some f /\
    f_delay f = delay /\ f_dispose f = d /\ f_transparent f = t /\ f_needs_user_input f = ui.
Proof. exact read_control. Qed.
Print Assumptions C05_read_control.
Example C05_case : ctl_of [13; 0x34; 0x12; 200] = mk_ctl 0x1234 DPrevious (Some 200) false /\
  out_of (fst (write_extension (mk_enc (Some fresh) true 1 1 []) (new_control_ext 0x1234 DPrevious false (Some 200))))
  = [0x21; 0xF9; 4; 13; 0x34; 0x12; 200; 0].
Proof. split; reflexivity. Qed.

(** ** C06 *)
Theorem C06_image_framing : forall m data w w', w_plan w = [] ->
  write_encoded_image_block (m :: data) w = (w', Ok tt) ->
  exists fr subs, w_out w' = w_out w ++ m :: fr /\ concat subs = data /\ Forall (fun b => (0 < length b <= 255)%nat) subs /\
    forall tl fuel, (length fr <= fuel)%nat -> unframe fuel (fr ++ tl) = Some (subs, tl).
Proof. exact image_block_framing. Qed.
Theorem C06_extension_framing : forall e w l data e', e_w e = Some w -> w_plan w = [] ->
  write_raw_extension e l data = (e', Ok tt) ->
  exists w' fr subs, e_w e' = Some w' /\ w_out w' = w_out w ++ 0x21 :: l :: fr /\ concat subs = concat data /\
    Forall (fun b => (0 < length b <= 255)%nat) subs /\
    forall tl fuel, (length fr <= fuel)%nat -> unframe fuel (fr ++ tl) = Some (subs, tl).
Proof. exact raw_ext_framing. Qed.
Print Assumptions C06_image_framing.
Print Assumptions C06_extension_framing.
Example C06_case : let data := repeat 7 255 ++ repeat 8 255 ++ [9] in
  w_out (fst (write_encoded_image_block (2 :: data) fresh))
  = 2 :: (255 :: repeat 7 255) ++ (255 :: repeat 8 255) ++ [1; 9; 0].
Proof. vm_compute. reflexivity. Qed.

(** ** C07: whatever the writer does *)
Theorem C07_faults_prefix : forall L dbg e w ops e' rs e0 rs0, e_w e = Some w -> Forall op_rng ops ->
  run_each L dbg e ops = (e', rs) -> run_each L dbg (faultless e) ops = (e0, rs0) ->
  exists w' w0, e_w e' = Some w' /\ e_w e0 = Some w0 /\
  ((rs = rs0 /\ w_out w' = w_out w0) \/
   exists k r e1 w1 suf, nth_error rs k = Some r /\ writer_error r /\ firstn k rs = firstn k rs0 /\
     e1 = fst (run_each L dbg e (firstn (S k) ops)) /\ e_w e1 = Some w1 /\ w_out w0 = w_out w1 ++ suf /\ suf <> []).
Proof. exact faults_prefix. Qed.
Theorem C07_all_ok_bytes : forall L dbg w width height pal ops e1 e2 e3 w3, u16_ok width -> u16_ok height -> Forall op_rng ops ->
  encoder_new w width height pal = (e1, Ok tt) -> run_ops L dbg e1 ops = (e2, Ok tt) -> into_inner e2 = (e3, Ok w3) ->
  exists f1 f2 f3 w4, encoder_new (sound w) width height pal = (f1, Ok tt) /\ run_ops L dbg f1 ops = (f2, Ok tt) /\
    into_inner f2 = (f3, Ok w4) /\ w_out w3 = w_out w4.
Proof. exact all_ok_bytes. Qed.
Theorem C07_into_inner_faults : forall e w e' x, e_w e = Some w -> into_inner e = (e', x) -> writer_error x ->
  exists w', e_w e' = Some w' /\ (w_out w' = w_out w \/ w_out w' = w_out w ++ [0x3B]).
Proof. exact into_inner_faults. Qed.
(** The exception: a fault inside [Encoder::new]. *)
Theorem C07_new_faults_refuted :
  exists w, snd (encoder_new w 300 200 [1; 2; 3]) = Err (EIo (OtherIo 5)) /\
    out_of (fst (encoder_new w 300 200 [1; 2; 3]))
    <> firstn (length (out_of (fst (encoder_new w 300 200 [1; 2; 3]))))
         (out_of (fst (encoder_new fresh 300 200 [1; 2; 3]))).
Proof. exact new_fault_prefix_refuted. Qed.
Print Assumptions C07_faults_prefix.
Print Assumptions C07_all_ok_bytes.
Print Assumptions C07_into_inner_faults.
Print Assumptions C07_new_faults_refuted.
Example C07_case_fault :
  let e := mk_enc (Some (mk_writer [] [WAccept 5; WIntr; WFail 3])) true 4 4 [] in
  let '(e', rs) := run_each lzw_ref true e ex_ops in
  rs = [Err (EIo (OtherIo 3)); Ok tt; Ok tt; Ok tt].
Proof. vm_compute. reflexivity. Qed.

(** ** C08 *)
Theorem C08_into_inner_trailer : forall e w e' w', e_w e = Some w -> into_inner e = (e', Ok w') ->
  w_out w' = w_out w ++ [0x3B] /\ e_w e' = None /\ encoder_drop e' = e'.
Proof. exact into_inner_trailer. Qed.
Theorem C08_drop_trailer : forall e w, e_w e = Some w ->
  exists w', e_w (encoder_drop e) = Some w' /\
   (Forall harmless (w_plan w) -> w_out w' = w_out w ++ [0x3B]) /\ (w_out w' = w_out w \/ w_out w' = w_out w ++ [0x3B]).
Proof. exact drop_trailer. Qed.
Theorem C08_session_bytes : forall L dbg w width height pal ops e1 e2 e3 w3, u16_ok width -> u16_ok height -> Forall op_rng ops ->
  encoder_new w width height pal = (e1, Ok tt) -> run_ops L dbg e1 ops = (e2, Ok tt) -> into_inner e2 = (e3, Ok w3) ->
  w_out w3 = w_out w ++ ser_gif (enc_gif L width height pal ops) [] /\ e_w e3 = None.
Proof. exact session_bytes. Qed.
Print Assumptions C08_into_inner_trailer.
Print Assumptions C08_drop_trailer.
Print Assumptions C08_session_bytes.
Example C08_case : last ex_file 0 = 0x3B /\ ex_file = ser_gif (enc_gif lzw_ref 4 4 ex_pal ex_ops) [].
Proof. split; vm_compute; reflexivity. Qed.

(** ** C09 *)
Theorem C09_write_frame_accepts : forall L dbg e w f e' r, frame_rng f -> e_w e = Some w -> Forall harmless (w_plan w) ->
  (dbg = false \/ 0 < f_width f * f_height f) ->
  run_op L dbg e (OWriteFrame f) = (e', r) ->
  let bad_size := len (f_buffer f) < f_width f * f_height f in
  let bad_palette := match f_palette f with
                     | Some p => (256 < length p / 3)%nat
                     | None => e_global_palette e = false
                     end in
  (r = Ok tt <-> ~ bad_size /\ ~ bad_palette) /\
  (bad_size -> r = Err (EIo InvalidInput) /\ e_w e' = Some w) /\ (r = Ok tt \/ exists er, r = Err er).
Proof. exact write_frame_accepts. Qed.
(** [e_global_palette] is set by [Encoder::new] iff the palette has a colour, and kept. *)
Theorem C09_global_palette : forall L dbg w width height pal ops e1 e2 rs, u16_ok width -> u16_ok height -> Forall op_rng ops ->
  encoder_new w width height pal = (e1, Ok tt) -> run_each L dbg e1 ops = (e2, rs) ->
  (e_global_palette e2 = true <-> (3 <= length pal)%nat).
Proof. exact global_palette_kept. Qed.
Print Assumptions C09_write_frame_accepts.
Print Assumptions C09_global_palette.
Example C09_case : snd (write_frame lzw_ref true ex_e1 ex_f1) = Ok tt /\
  snd (write_frame lzw_ref true ex_e1 (set_buffer ex_f1 [0; 1])) = Err (EIo InvalidInput) /\
  snd (write_frame lzw_ref true ex_e1 (set_palette ex_f1 (Some big_palette))) = Err (EFormat TooManyColors).
Proof. repeat split; vm_compute; reflexivity. Qed.

(** ** C10, C11 (false), and what is true instead *)
Theorem C10_refused_frame_unchanged_refuted : forall L dbg,
  exists e f, snd (write_frame L dbg e f) = Err (EFormat MissingColorPalette) /\
    out_of (fst (write_frame L dbg e f)) <> out_of e.
Proof. exact refused_frame_unchanged_refuted. Qed.
Theorem C11_failed_new_untouched_refuted :
  exists pal, snd (encoder_new fresh 1 1 pal) = Err (EFormat TooManyColors) /\
    out_of (fst (encoder_new fresh 1 1 pal)) = [0x3B].
Proof. exact failed_new_untouched_refuted. Qed.
(** What is true instead: it always writes that byte, and nothing else. *)
Theorem C11_failed_new_trailer : forall w width height pal e x, u16_ok width -> u16_ok height -> (256 < length pal / 3)%nat ->
  Forall harmless (w_plan w) -> encoder_new w width height pal = (e, x) ->
  x = Err (EFormat TooManyColors) /\ out_of e = w_out w ++ [0x3B].
Proof. exact failed_new_trailer. Qed.
Print Assumptions C10_refused_frame_unchanged_refuted.
Print Assumptions C11_failed_new_untouched_refuted.
Print Assumptions C11_failed_new_trailer.

(** What is true instead of C10: only a palette error leaves something, the control extension. *)
Theorem C10_rejected_frame : forall L dbg e w o f e' r, frame_rng f -> frame_of o = Some f ->
  e_w e = Some w -> Forall harmless (w_plan w) -> run_op L dbg e o = (e', r) -> r <> Ok tt ->
  exists w', e_w e' = Some w' /\
    ((r = Err (EFormat TooManyColors) \/ r = Err (EFormat MissingColorPalette)) /\
       w_out w' = w_out w ++ ser_blk (control_of f) \/
     (r <> Err (EFormat TooManyColors) /\ r <> Err (EFormat MissingColorPalette)) /\ w_out w' = w_out w).
Proof. exact rejected_frame_leaves. Qed.
Print Assumptions C10_rejected_frame.
Example C10_case : let e := fst (encoder_new fresh 4 4 []) in
  snd (run_op lzw_ref true e (OWriteFrame ex_f2)) = Err (EFormat MissingColorPalette) /\
  out_of (fst (run_op lzw_ref true e (OWriteFrame ex_f2))) = out_of e ++ [0x21; 0xF9; 4; 4; 0; 0; 0; 0] /\
  snd (run_op lzw_ref true e (OWriteFrame (set_buffer ex_f1 [0]))) = Err (EIo InvalidInput) /\
  out_of (fst (run_op lzw_ref true e (OWriteFrame (set_buffer ex_f1 [0])))) = out_of e.
Proof. repeat split; vm_compute; reflexivity. Qed.

(** ** C47 *)
Theorem C47_same_file : forall L dbg w width height pal ops e1 e2 rs e3 w3 v,
  u16_ok width -> u16_ok height -> Forall op_rng ops ->
  encoder_new w width height pal = (e1, Ok tt) -> run_each L dbg e1 ops = (e2, rs) -> Forall (fun r => ~ writer_error r) rs ->
  into_inner e2 = (e3, Ok w3) -> Forall harmless (w_plan v) -> w_out v = w_out w ->
  exists f1 f2 f3 v3, encoder_new v width height pal = (f1, Ok tt) /\ run_ops L dbg f1 (remains ops rs) = (f2, Ok tt) /\
    into_inner f2 = (f3, Ok v3) /\ w_out v3 = w_out w3.
Proof. exact session_rejecting. Qed.
Theorem C47_round_trip : forall L (S : lzw_spec L) umax, 2 ^ 32 - 1 <= umax ->
  forall o w sw sh pal dbg ops e1 e2 rs e3 w3 frames tl src n,
  u16_ok sw -> u16_ok sh -> bytes_ok pal -> Forall op_rng ops ->
  encoder_new w sw sh pal = (e1, Ok tt) -> run_each L dbg e1 ops = (e2, rs) -> Forall (fun r => ~ writer_error r) rs ->
  into_inner e2 = (e3, Ok w3) -> w_out w = [] -> delivers src (w_out w3 ++ tl) ->
  Forall (call_readable o) (accepted ops rs) -> fits (o_limit o) 5 -> written S (accepted ops rs) frames ->
  Exists writes_block (accepted ops rs) ->
  Forall (fun p => frame_readable o umax sw sh (fst p) (snd p)) frames ->
  o_skip_frame_decoding o = false -> o_check_for_end_code o = false -> (length frames < n)%nat ->
  exists d d', read_info L src o = Ok d /\
    read_all L umax n d = (d', map (fun p => wanted (o_color o) pal (fst p) (snd p)) frames, Ok false).
Proof. exact round_trip_rejecting. Qed.
Print Assumptions C47_same_file.
Print Assumptions C47_round_trip.
(** No global palette: of three frames the first is refused for that, the second for its short buffer;
    the refused first one had a delay and a transparent colour, which the third does not get. *)
Definition ex_bad : frame := mk_frame 9 DPrevious (Some 1) true 0 0 1 1 false None [0].
Definition ex_rej : list enc_op := [OWriteFrame ex_bad; OWriteFrame (set_buffer ex_f1 [0]); OWriteFrame ex_f1].
Definition rej_e1 : encoder := fst (encoder_new ex_w 4 4 []).
Definition rej_e2 : encoder := fst (run_each lzw_ref true rej_e1 ex_rej).
Definition rej_rs : list (eres unit) := [Err (EFormat MissingColorPalette); Err (EIo InvalidInput); Ok tt].
Definition rej_file : list N := match snd (into_inner rej_e2) with Ok w => w_out w | _ => [] end.
Example C47_case : exists d d', read_info lzw_ref (bytewise (rej_file ++ [65])) rgba_opts = Ok d /\
  read_all lzw_ref umax64 2 d = (d', [wanted CRgba [] ex_f1 (f_buffer ex_f1)], Ok false).
Proof.
  assert (Hu : 2 ^ 32 - 1 <= umax64) by (vm_compute; discriminate).
  assert (Hr : Forall op_rng ex_rej).
  { repeat (constructor; [cbn [op_rng]; unfold frame_rng, ex_bad, ex_f1;
      cbn [set_buffer f_delay f_left f_top f_width f_height f_transparent f_palette f_buffer]; crush_rng|]). constructor. }
  assert (H1 : encoder_new ex_w 4 4 [] = (rej_e1, Ok tt)) by (vm_compute; reflexivity).
  assert (H2 : run_each lzw_ref true rej_e1 ex_rej = (rej_e2, rej_rs)) by (vm_compute; reflexivity).
  assert (H3 : into_inner rej_e2 = (fst (into_inner rej_e2), Ok (mk_writer rej_file []))) by (vm_compute; reflexivity).
  assert (Hw : Forall (fun r => ~ writer_error r) rej_rs).
  { repeat (constructor; [intros [H|[k H]]; discriminate H|]). constructor. }
  assert (Hd : delivers (bytewise (rej_file ++ [65])) (w_out (mk_writer rej_file []) ++ [65])).
  { split; [|split; vm_compute; [repeat constructor; discriminate|reflexivity]]. unfold src_ok. vm_compute. repeat constructor. }
  assert (Hc : Forall (call_readable rgba_opts) (accepted ex_rej rej_rs)) by (repeat constructor).
  assert (H5 : fits (o_limit rgba_opts) 5) by (vm_compute; discriminate).
  assert (Hf : written lzw_ref_spec (accepted ex_rej rej_rs) [(ex_f1, f_buffer ex_f1)]).
  { apply written_frame; [reflexivity|apply carries_frame|constructor]. }
  assert (Hb : Exists writes_block (accepted ex_rej rej_rs)) by (apply Exists_cons_hd; exact I).
  assert (Hx : Forall (fun p => frame_readable rgba_opts umax64 4 4 (fst p) (snd p)) [(ex_f1, f_buffer ex_f1)]).
  { constructor; [|constructor]. exact (Forall_inv (proj2 ex_readable)). }
  assert (Hn : (length [(ex_f1, f_buffer ex_f1)] < 2)%nat) by (cbn [length]; lia).
  exact (C47_round_trip lzw_ref lzw_ref_spec umax64 Hu rgba_opts ex_w 4 4 [] true ex_rej rej_e1 rej_e2 rej_rs _ _
    [(ex_f1, f_buffer ex_f1)] [65] _ 2 eq_refl eq_refl (Forall_nil _) Hr H1 H2 Hw H3 eq_refl Hd
    Hc H5 Hf Hb Hx eq_refl eq_refl Hn).
Qed.

(** ** C12 *)
Theorem C12_code_size : forall data, bytes_ok data ->
  2 <= min_code_size data <= 8 /\ Forall (fun b => b < 2 ^ min_code_size data) data /\
  forall m, 2 <= m -> Forall (fun b => b < 2 ^ m) data -> min_code_size data <= m.
Proof. exact code_size_rule. Qed.
Print Assumptions C12_code_size.
Example C12_case : map min_code_size [[]; [1; 3]; [4]; [0; 15; 2]; [16]; [127; 3]; [128]; [200; 255]] = [2; 2; 3; 4; 5; 7; 8; 8].
Proof. reflexivity. Qed.

(** ** C13 *)
Theorem C13_pre_encoded : forall L dbg e f e1 r1 e2 r2, bytes_ok (f_buffer f) ->
  f_width f * f_height f <= len (f_buffer f) ->
  (dbg = false \/ f_width f * f_height f <> 0 \/ f_buffer f = []) ->
  run_op L dbg e (OWriteFrame f) = (e1, r1) ->
  run_op L dbg e (OWritePre (make_lzw_pre_encoded L f)) = (e2, r2) ->
  r1 = r2 /\ e_w e1 = e_w e2 /\ e_global_palette e1 = e_global_palette e2.
Proof. exact pre_encoded_equivalent. Qed.
Theorem C13_history : forall L dbg o e1 e2 w1 w2 e1' e2' r1 r2, op_rng o ->
  e_w e1 = Some w1 -> e_w e2 = Some w2 -> e_global_palette e1 = e_global_palette e2 ->
  Forall harmless (w_plan w1) -> Forall harmless (w_plan w2) ->
  run_op L dbg e1 o = (e1', r1) -> run_op L dbg e2 o = (e2', r2) ->
  r1 = r2 /\ exists w1' w2' bs, e_w e1' = Some w1' /\ e_w e2' = Some w2' /\ w_out w1' = w_out w1 ++ bs /\ w_out w2' = w_out w2 ++ bs.
Proof. exact frame_bytes_history. Qed.
Print Assumptions C13_pre_encoded.
Print Assumptions C13_history.
Example C13_case : out_of (fst (write_frame lzw_ref true ex_e1 ex_f1))
  = out_of (fst (write_lzw_pre_encoded_frame ex_e1 (make_lzw_pre_encoded lzw_ref ex_f1))) /\
  snd (write_frame lzw_ref true ex_e1 ex_f1) = Ok tt.
Proof. split; vm_compute; reflexivity. Qed.
