(** Raw extensions written by the encoder as the streaming decoder reports them (C35). *)
From Verif Require Import Base Common Lzw Encoder Stream Converter Reader DecoderSafe CanonReader SpecGif SpecPixels
  SpecEnc SpecRound DocRead DocAll EncLin EncSpec EncSession RoundTrip RoundProps SpecWatch StreamTrace.
Open Scope N_scope.

(** Every extension of a file is seen on its own. *)
Lemma ext_in_blocks o l subs bs1 : forall bs2 h c x, exists a b,
  blocks_sights o h c x (bs1 ++ BExt l subs :: bs2) = a ++ ext_sights l subs ++ b.
Proof.
  induction bs1 as [|[l1 subs1|i|t subs1] bs1 IH]; intros bs2 h c x; cbn [app blocks_sights].
  - eexists [], _. reflexivity.
  - destruct (IH bs2 h (if l1 =? 0xF9 then ctl_of (payload subs1) else c) (l1, N.of_nat (length (hd [] subs1)) :: payload subs1)) as (a & b & ->).
    exists (ext_sights l1 subs1 ++ a), b. now rewrite <- app_assoc.
  - destruct (IH bs2 true ctl_none x) as (a & b & ->).
    exists ((if h then [] else [SPlain DHeaderEnd]) ++
      [SPlain (DBlockStart BkImage);
       SFrame (DFrameMetadata (if o_skip_frame_decoding o then FLzw (im_mcs i) else FPixels))
         (Some (meta_frame c i (is_interlaced (im_flags i)) []));
       SPlain DDataEnd] ++ a), b.
    rewrite <- !app_assoc. reflexivity.
  - destruct (IH bs2 true c (fst x, snd x ++ payload subs1)) as (a & b & ->).
    exists ((if h then [] else [SPlain DHeaderEnd]) ++ unk_sights x subs1 ++ a), b.
    rewrite <- !app_assoc. reflexivity.
Qed.
Lemma payload_cut data : payload (flat_map cut_subs data) = concat data.
Proof. unfold payload. induction data as [|b data IH]; [reflexivity|]. cbn [flat_map concat]. now rewrite concat_app, cut_subs_concat, IH. Qed.

(** The report of a raw extension: its label and the whole payload, behind the size of the first sub-block. *)
Theorem raw_extension_seen L o sw sh pal ops1 l data ops2 : concat data <> [] ->
  exists size, 0 < size < 256 /\
    In (SExt (DBlockFinished l) (l, size :: concat data, true)) (file_sights o (enc_gif L sw sh pal (ops1 ++ ORawExt l data :: ops2))).
Proof.
  intros Hne. destruct (flat_map cut_subs data) as [|b subs] eqn:E.
  { exfalso. apply Hne. rewrite <- payload_cut, E. reflexivity. }
  exists (N.of_nat (length b)). split.
  { assert (Hin : In b (flat_map cut_subs data)) by (rewrite E; now left). apply in_flat_map in Hin. destruct Hin as (x & _ & Hx).
    pose proof (cut_subs_sizes x) as Hs. eapply Forall_forall in Hs; [|exact Hx]. lia. }
  unfold file_sights. cbn [enc_gif g_blocks]. rewrite flat_map_app. cbn [flat_map op_blocks app]. rewrite E.
  destruct (ext_in_blocks o l (b :: subs) (flat_map (op_blocks L) ops1) (flat_map (op_blocks L) ops2) false ctl_none (0, [])) as (x & y & ->).
  do 2 right. apply in_or_app. right. apply in_or_app. left. unfold ext_sights. cbv zeta. right. apply in_or_app. right. left.
  assert (Ep : payload (b :: subs) = concat data) by (rewrite <- E; apply payload_cut). now rewrite Ep.
Qed.

(** The file of a session, passed to the streaming decoder in any pieces. *)
Theorem session_report L (S : lzw_spec L) umax : 2 ^ 32 - 1 <= umax ->
  forall o w sw sh pal dbg ops e1 e2 e3 w3 frames tl s rest obs,
  u16_ok sw -> u16_ok sh -> bytes_ok pal -> Forall op_rng ops ->
  encoder_new w sw sh pal = (e1, Ok tt) -> run_ops L dbg e1 ops = (e2, Ok tt) -> into_inner e2 = (e3, Ok w3) ->
  w_out w = [] -> Forall (call_readable o) ops -> written S ops frames -> Exists writes_block ops ->
  Forall (fun p => frame_readable o umax sw sh (fst p) (snd p)) frames -> scannable o ->
  watched L o (w_out w3 ++ tl) s rest obs ->
  exists missing, file_sights o (enc_gif L sw sh pal ops) = obs ++ missing /\ (missing = [] -> rest = tl) /\
    (missing <> [] -> rest <> [] /\
       forall buf r, rest = buf ++ r -> exists s' n d, update L s buf ONone = (s', ONone, Ok (n, d)) /\ (d = DNothing -> n = length buf)).
Proof.
  intros Humax o w sw sh pal dbg ops e1 e2 e3 w3 frames tl s rest obs Rw Rh Rp Ro H1 H2 H3 Hw0 Hread Hwr Hne Hfr Hck H.
  destruct (session_ok L dbg w sw sh pal ops e1 e2 e3 w3 Rw Rh Ro H1 H2 H3) as (Hout & _ & Hc & Hok).
  rewrite Hw0 in Hout. cbn [app] in Hout.
  assert (Etl : w_out w3 ++ tl = ser_gif (enc_gif L sw sh pal ops) tl).
  { rewrite Hout. unfold ser_gif. rewrite <- !app_assoc. reflexivity. }
  rewrite Etl in H.
  pose proof (enc_gif_ok L S umax Humax o sw sh pal dbg ops Rw Rh Rp Ro Hc Hok Hread frames Hwr Hfr (some_blocks L ops Hne)) as Hg.
  apply (stream_report L S o _ tl Hg); [exact Hck|exact H].
Qed.
Theorem session_watch L (S : lzw_spec L) umax : 2 ^ 32 - 1 <= umax ->
  forall o w sw sh pal dbg ops e1 e2 e3 w3 frames tl,
  u16_ok sw -> u16_ok sh -> bytes_ok pal -> Forall op_rng ops ->
  encoder_new w sw sh pal = (e1, Ok tt) -> run_ops L dbg e1 ops = (e2, Ok tt) -> into_inner e2 = (e3, Ok w3) ->
  w_out w = [] -> Forall (call_readable o) ops -> written S ops frames -> Exists writes_block ops ->
  Forall (fun p => frame_readable o umax sw sh (fst p) (snd p)) frames -> scannable o ->
  exists s, watched L o (w_out w3 ++ tl) s tl (file_sights o (enc_gif L sw sh pal ops)).
Proof.
  intros Humax o w sw sh pal dbg ops e1 e2 e3 w3 frames tl Rw Rh Rp Ro H1 H2 H3 Hw0 Hread Hwr Hne Hfr Hck.
  destruct (session_ok L dbg w sw sh pal ops e1 e2 e3 w3 Rw Rh Ro H1 H2 H3) as (Hout & _ & Hc & Hok).
  rewrite Hw0 in Hout. cbn [app] in Hout.
  assert (Etl : w_out w3 ++ tl = ser_gif (enc_gif L sw sh pal ops) tl).
  { rewrite Hout. unfold ser_gif. rewrite <- !app_assoc. reflexivity. }
  rewrite Etl.
  pose proof (enc_gif_ok L S umax Humax o sw sh pal dbg ops Rw Rh Rp Ro Hc Hok Hread frames Hwr Hfr (some_blocks L ops Hne)) as Hg.
  apply (stream_complete L S o _ tl Hg) with (s := sd_new L o) (rest := ser_gif (enc_gif L sw sh pal ops) tl) (obs := []); [exact Hck|apply wt_new].
Qed.
