(** Consequences of the session and round-trip theorems. *)
From Verif Require Import Base Common Lzw Encoder Stream Converter Reader DecoderSafe CanonReader SpecGif SpecPixels
  SpecEnc SpecRound DocRead DocAll EncLin EncSpec EncSession DocTrace RoundTrip Refuted.
Open Scope N_scope.

Section RP.
Variable L : lzw_codec.
Variable S : lzw_spec L.
Variable umax : N.
Hypothesis Humax : 2 ^ 32 - 1 <= umax.

Lemma round_trip_frames o w sw sh pal dbg ops e1 e2 e3 w3 frames tl src n :
  u16_ok sw -> u16_ok sh -> bytes_ok pal -> Forall op_rng ops ->
  encoder_new w sw sh pal = (e1, Ok tt) -> run_ops L dbg e1 ops = (e2, Ok tt) -> into_inner e2 = (e3, Ok w3) ->
  w_out w = [] -> delivers src (w_out w3 ++ tl) ->
  Forall (call_readable o) ops -> written S ops frames -> Exists writes_block ops ->
  Forall (fun p => frame_readable o umax sw sh (fst p) (snd p)) frames ->
  o_skip_frame_decoding o = false -> o_check_for_end_code o = false -> (length frames < n)%nat ->
  exists d d', read_info L src o = Ok d /\
    read_all L umax n d = (d', map (fun p => wanted (o_color o) pal (fst p) (snd p)) frames, Ok false).
Proof.
  intros. edestruct (round_trip L S umax Humax o w sw sh pal dbg ops e1 e2 e3 w3 frames tl src n) as (d & d' & H20 & _ & _ & _ & _ & H21 & _); eauto.
Qed.

(** The whole-session theorem without its part on pixels. *)
Lemma session_info o w sw sh pal dbg ops e1 e2 e3 w3 frames tl src :
  u16_ok sw -> u16_ok sh -> bytes_ok pal -> Forall op_rng ops ->
  encoder_new w sw sh pal = (e1, Ok tt) -> run_ops L dbg e1 ops = (e2, Ok tt) -> into_inner e2 = (e3, Ok w3) ->
  w_out w = [] -> delivers src (w_out w3 ++ tl) ->
  Forall (call_readable o) ops -> written S ops frames -> Exists writes_block ops ->
  Forall (fun p => frame_readable o umax sw sh (fst p) (snd p)) frames ->
  exists d, read_info L src o = Ok d /\
    dec_width L d = sw /\ dec_height L d = sh /\ dec_global_palette L d = Some (padded pal) /\
    (Forall no_app_ext ops -> dec_repeat L d = last_repeat (RFinite 0) ops).
Proof.
  intros Rw Rh Rp Ro H1 H2 H3 Hw0 Hsrc Hread Hwr Hne Hfr.
  destruct (session_ok L dbg w sw sh pal ops e1 e2 e3 w3 Rw Rh Ro H1 H2 H3) as (Hout & _ & Hc & Hok).
  rewrite Hw0 in Hout. cbn [app] in Hout.
  assert (Etl : w_out w3 ++ tl = ser_gif (enc_gif L sw sh pal ops) tl).
  { rewrite Hout. unfold ser_gif. rewrite <- !app_assoc. reflexivity. }
  rewrite Etl in Hsrc.
  pose proof (enc_gif_ok L S umax Humax o sw sh pal dbg ops Rw Rh Rp Ro Hc Hok Hread frames Hwr Hfr (some_blocks L ops Hne)) as Hg.
  destruct (file_info L S umax Humax o _ tl src Hg Hsrc) as (d & E & I1 & I2 & I3 & I4 & I5).
  exists d. split; [exact E|]. split; [exact I1|]. split; [exact I2|]. split.
  { rewrite I3. unfold gif_palette. rewrite (g_table L umax Humax sw sh pal ops Hc). reflexivity. }
  intros Hna. rewrite I5. unfold gif_repeat. cbn [enc_gif g_blocks]. now apply (enc_loops L umax Humax).
Qed.
Lemma round_trip_screen o w sw sh pal dbg ops e1 e2 e3 w3 frames tl src :
  u16_ok sw -> u16_ok sh -> bytes_ok pal -> Forall op_rng ops ->
  encoder_new w sw sh pal = (e1, Ok tt) -> run_ops L dbg e1 ops = (e2, Ok tt) -> into_inner e2 = (e3, Ok w3) ->
  w_out w = [] -> delivers src (w_out w3 ++ tl) ->
  Forall (call_readable o) ops -> written S ops frames -> Exists writes_block ops ->
  Forall (fun p => frame_readable o umax sw sh (fst p) (snd p)) frames ->
  exists d, read_info L src o = Ok d /\
    dec_width L d = sw /\ dec_height L d = sh /\ dec_global_palette L d = Some (padded pal).
Proof.
  intros A1 A2 A3 A4 A5 A6 A7 A8 A9 B1 B2 B3 B4. destruct (session_info o w sw sh pal dbg ops e1 e2 e3 w3 frames tl src A1 A2 A3 A4 A5 A6 A7 A8 A9 B1 B2 B3 B4) as (d & C).
  exists d. tauto.
Qed.
Lemma round_trip_repeat o w sw sh pal dbg ops e1 e2 e3 w3 frames tl src :
  u16_ok sw -> u16_ok sh -> bytes_ok pal -> Forall op_rng ops ->
  encoder_new w sw sh pal = (e1, Ok tt) -> run_ops L dbg e1 ops = (e2, Ok tt) -> into_inner e2 = (e3, Ok w3) ->
  w_out w = [] -> delivers src (w_out w3 ++ tl) ->
  Forall (call_readable o) ops -> written S ops frames -> Exists writes_block ops ->
  Forall (fun p => frame_readable o umax sw sh (fst p) (snd p)) frames -> Forall no_app_ext ops ->
  exists d, read_info L src o = Ok d /\ dec_repeat L d = last_repeat (RFinite 0) ops.
Proof.
  intros A1 A2 A3 A4 A5 A6 A7 A8 A9 B1 B2 B3 B4. destruct (session_info o w sw sh pal dbg ops e1 e2 e3 w3 frames tl src A1 A2 A3 A4 A5 A6 A7 A8 A9 B1 B2 B3 B4) as (d & C).
  exists d. tauto.
Qed.

(** The decoder's side of the control extension. *)
Lemma read_control (s : sd L) p delay d ui t : sd_ext_data L s = 4 :: p -> bytes_ok p -> length p = 4%nat ->
  ctl_of p = mk_ctl delay d t ui ->
  exists s' f, read_control_extension L s = (s', Ok tt) /\ sd_current L s' = Some f /\
    f_delay f = delay /\ f_dispose f = d /\ f_transparent f = t /\ f_needs_user_input f = ui.
Proof.
  intros He _ Hl Hc. unfold ctl_of in Hc. injection Hc as <- <- <- <-.
  unfold read_control_extension. rewrite He. cbn [length]. rewrite Hl. cbn [Nat.eqb negb skipn].
  eexists _, _. split; [reflexivity|]. split; [reflexivity|].
  unfold at_, set_control. destruct (sd_current L s) as [f|];
    cbn [f_delay f_dispose f_transparent f_needs_user_input f_top f_left f_width f_height f_interlaced f_palette f_buffer frame_default];
    rewrite land1, land2, land28, !negb_involutive;
    (split; [reflexivity|]); (split; [|split; [|reflexivity]]).
  1, 3: unfold disposal_from_u8; destruct ((nth 0 p 0 / 4) mod 8) as [|[[q|q| ]|[q|q| ]| ]]; reflexivity.
  all: destruct (N.odd (nth 0 p 0)); reflexivity.
Qed.

Lemma session_bytes dbg w width height pal ops e1 e2 e3 w3 : u16_ok width -> u16_ok height -> Forall op_rng ops ->
  encoder_new w width height pal = (e1, Ok tt) -> run_ops L dbg e1 ops = (e2, Ok tt) -> into_inner e2 = (e3, Ok w3) ->
  w_out w3 = w_out w ++ ser_gif (enc_gif L width height pal ops) [] /\ e_w e3 = None.
Proof. intros A1 A2 A3 H1 H2 H3. destruct (session_ok L dbg w width height pal ops e1 e2 e3 w3 A1 A2 A3 H1 H2 H3) as (H4 & H5 & _). now split. Qed.

End RP.

Lemma failed_new_trailer w width height pal e x : u16_ok width -> u16_ok height -> (256 < length pal / 3)%nat ->
  Forall harmless (w_plan w) -> encoder_new w width height pal = (e, x) ->
  x = Err (EFormat TooManyColors) /\ out_of e = w_out w ++ [0x3B].
Proof.
  intros Rw Rh Hc Hh H1. destruct (encoder_new_spec _ _ _ _ _ _ Rw Rh H1) as (w1 & N1 & _ & N3).
  destruct (N3 Hc) as [N4 N5]. split; [exact N4|]. unfold out_of. rewrite N1. auto.
Qed.
Lemma global_palette_kept L dbg w width height pal ops e1 e2 rs : u16_ok width -> u16_ok height -> Forall op_rng ops ->
  encoder_new w width height pal = (e1, Ok tt) -> run_each L dbg e1 ops = (e2, rs) ->
  (e_global_palette e2 = true <-> (3 <= length pal)%nat).
Proof.
  intros Rw Rh Ro H1 H2. destruct (encoder_new_spec _ _ _ _ _ _ Rw Rh H1) as (w1 & N1 & N2 & N3).
  destruct (Nat.le_gt_cases (colors pal) 256) as [Hc|Hc]; [|destruct (N3 Hc) as [N4 _]; discriminate N4].
  destruct (N2 Hc) as [(_ & M1 & _)|(M1 & _)]; [|now apply ok_not_writer_error in M1].
  destruct (run_each_lin L dbg ops e1 w1 _ _ _ N1 M1 Ro H2) as (w2 & _ & U & _). rewrite U. unfold usable, colors.
  destruct (Nat.ltb_spec 0 (length pal / 3)); lia.
Qed.
