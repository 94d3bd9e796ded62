(** Properties C35, C48, C49: what the streaming decoder reports. Each theorem is proved elsewhere and
    only restated here; beside it a concrete case that meets its hypotheses. *)
From Verif Require Import Base Common Lzw Encoder Stream Converter Reader LzwRef LzwRefSpec DecoderSafe CanonReader
  SpecGif SpecPixels SpecEnc SpecRound SpecStream SpecWatch StreamProps StreamCount DocAll EncSession RoundProps
  StreamTrace RawExt Validate Refuted PropEnc PropDec.
Open Scope N_scope.

(** ** C35: a raw extension is reported with its label and its whole payload *)
Theorem C35_session_report : forall L (S : lzw_spec L) umax, 2 ^ 32 - 1 <= umax ->
  forall o w sw sh pal dbg ops e1 e2 e3 w3 frames tl s rest obs,
  u16_ok sw -> u16_ok sh -> bytes_ok pal -> Forall op_rng ops ->
  encoder_new w sw sh pal = (e1, Ok tt) -> run_ops L dbg e1 ops = (e2, Ok tt) -> into_inner e2 = (e3, Ok w3) ->
  w_out w = [] -> Forall (call_readable o) ops -> written S ops frames -> Exists writes_block ops ->
  Forall (fun p => frame_readable o umax sw sh (fst p) (snd p)) frames -> scannable o ->
  watched L o (w_out w3 ++ tl) s rest obs ->
  exists missing, file_sights o (enc_gif L sw sh pal ops) = obs ++ missing /\ (missing = [] -> rest = tl) /\
    (missing <> [] -> rest <> [] /\
       forall buf r, rest = buf ++ r -> exists s' n d, update L s buf ONone = (s', ONone, Ok (n, d)) /\ (d = DNothing -> n = length buf)).
Proof. exact session_report. Qed.
Theorem C35_extension_seen : forall L o sw sh pal ops1 l data ops2, concat data <> [] ->
  exists size, 0 < size < 256 /\
    In (SExt (DBlockFinished l) (l, size :: concat data, true)) (file_sights o (enc_gif L sw sh pal (ops1 ++ ORawExt l data :: ops2))).
Proof. exact raw_extension_seen. Qed.
Theorem C35_session_complete : forall L (S : lzw_spec L) umax, 2 ^ 32 - 1 <= umax ->
  forall o w sw sh pal dbg ops e1 e2 e3 w3 frames tl,
  u16_ok sw -> u16_ok sh -> bytes_ok pal -> Forall op_rng ops ->
  encoder_new w sw sh pal = (e1, Ok tt) -> run_ops L dbg e1 ops = (e2, Ok tt) -> into_inner e2 = (e3, Ok w3) ->
  w_out w = [] -> Forall (call_readable o) ops -> written S ops frames -> Exists writes_block ops ->
  Forall (fun p => frame_readable o umax sw sh (fst p) (snd p)) frames -> scannable o ->
  exists s, watched L o (w_out w3 ++ tl) s tl (file_sights o (enc_gif L sw sh pal ops)).
Proof. exact session_watch. Qed.
Print Assumptions C35_session_report.
Print Assumptions C35_session_complete.
Print Assumptions C35_extension_seen.
Example C35_case : exists s obs, watched lzw_ref rgba_opts (ex_file ++ [65; 66]) s [65; 66] obs /\
  In (SExt (DBlockFinished 0xFE) (0xFE, 2 :: [72; 105], true)) obs.
Proof.
  destruct ex_runs as (e3 & w3 & H1 & H2 & H3 & H4).
  assert (Hu : 2 ^ 32 - 1 <= umax64) by (vm_compute; discriminate).
  assert (Hp : bytes_ok ex_pal) by crush_rng.
  destruct (C35_session_complete lzw_ref lzw_ref_spec umax64 Hu rgba_opts ex_w 4 4 ex_pal true ex_ops ex_e1 ex_e2 e3 w3 ex_frames
     [65; 66] eq_refl eq_refl Hp ex_rng H1 H2 H3 eq_refl (proj1 ex_readable) ex_written ex_block (proj2 ex_readable) dx_scannable) as (s & H).
  rewrite H4 in H. exists s, (file_sights rgba_opts (enc_gif lzw_ref 4 4 ex_pal ex_ops)). split; [exact H|].
  assert (E : existsb (fun x => match x with SExt (DBlockFinished 0xFE) (0xFE, [2; 72; 105], true) => true | _ => false end)
    (file_sights rgba_opts (enc_gif lzw_ref 4 4 ex_pal ex_ops)) = true) by (vm_compute; reflexivity).
  apply existsb_exists in E. destruct E as (x & Hx & E).
  assert (x = SExt (DBlockFinished 0xFE) (0xFE, 2 :: [72; 105], true)) as <-; [|exact Hx].
  clear - E. repeat match type of E with context [match ?v with _ => _ end] => is_var v; destruct v; try discriminate E end. reflexivity.
Qed.

(** ** C48: the streaming decoder reports exactly what the file says *)
Theorem C48_report : forall L (S : lzw_spec L) o g tl, gif_ok o g -> scannable o ->
  forall s rest obs, watched L o (ser_gif g tl) s rest obs ->
  exists missing, file_sights o g = obs ++ missing /\ (missing = [] -> rest = tl) /\
    (missing <> [] -> rest <> [] /\
       forall buf r, rest = buf ++ r -> exists s' n d, update L s buf ONone = (s', ONone, Ok (n, d)) /\ (d = DNothing -> n = length buf)).
Proof. exact stream_report. Qed.
Theorem C48_complete : forall L (S : lzw_spec L) o g tl, gif_ok o g -> scannable o ->
  forall s rest obs, watched L o (ser_gif g tl) s rest obs -> exists s', watched L o (ser_gif g tl) s' tl (file_sights o g).
Proof. exact stream_complete. Qed.
Print Assumptions C48_report.
Print Assumptions C48_complete.
Example C48_case : file_sights rgba_opts dx_gif =
  [SPlain (DBackgroundColor 1); SPlain (DGlobalPalette [1; 2; 3; 4; 5; 6]); SPlain (DBlockStart BkExtension);
   SExt (DSubBlockFinished 0xFE) (0xFE, [1; 72], false); SExt (DBlockFinished 0xFE) (0xFE, [1; 72; 105], true);
   SPlain (DBlockStart BkExtension);
   SExt (DSubBlockFinished 0xFF) (0xFF, [11; 78; 69; 84; 83; 67; 65; 80; 69; 50; 46; 48], false);
   SExt (DBlockFinished 0xFF) (0xFF, [11; 78; 69; 84; 83; 67; 65; 80; 69; 50; 46; 48; 1; 5; 0], true);
   SPlain (DRepetitions (RFinite 5)); SPlain (DBlockStart BkExtension);
   SExt (DBlockFinished 0xF9) (0xF9, [4; 9; 7; 0; 2], true); SPlain DHeaderEnd; SPlain (DBlockStart BkImage);
   SFrame (DFrameMetadata FPixels) (Some (mk_frame 7 DBackground (Some 2) false 0 1 2 3 true
     (Some [10; 11; 12; 13; 14; 15; 16; 17; 18; 19; 20; 21]) []));
   SPlain DDataEnd; SPlain (DBlockStart BkImage);
   SFrame (DFrameMetadata FPixels) (Some (mk_frame 0 DKeep None false 0 0 2 1 false None []));
   SPlain DDataEnd; SPlain (DBlockStart BkTrailer)] /\
  exists s, watched lzw_ref rgba_opts (ser_gif dx_gif dx_tail) s dx_tail (file_sights rgba_opts dx_gif).
Proof.
  split; [vm_compute; reflexivity|].
  exact (C48_complete lzw_ref lzw_ref_spec rgba_opts dx_gif dx_tail (dx_ok _ (or_introl eq_refl)) dx_scannable _ _ _ (wt_new lzw_ref rgba_opts _)).
Qed.

(** ** C49: the number of calls is bounded by the length of the input *)
Theorem C49_calls : forall L, lzw_safe L ->
  forall o file s rest k, fed L o file s rest k -> (k <= 4 * length file)%nat.
Proof. exact calls_bounded. Qed.
Theorem C49_takes : forall L, lzw_safe L ->
  forall o s buf tl evs ob s' ob' n d, driven L o s (buf ++ tl) evs -> update L s buf ob = (s', ob', Ok (n, d)) ->
  (n <= length buf)%nat /\ (d = DNothing -> n = length buf).
Proof. exact update_takes. Qed.
Print Assumptions C49_calls.
Print Assumptions C49_takes.
(** Byte by byte the example file takes more calls than it has bytes. *)
Fixpoint feed1 (fuel : nat) (s : sd lzw_ref) (rest : list N) (k : nat) : sd lzw_ref * list N * nat :=
  match fuel, rest with
  | S fuel', b :: t =>
    match update lzw_ref s [b] ONone with
    | (s', _, Ok (n, DBlockStart BkTrailer)) => (s', skipn n [b] ++ t, S k)
    | (s', _, Ok (n, _)) => feed1 fuel' s' (skipn n [b] ++ t) (S k)
    | _ => (s, rest, k)
    end
  | _, _ => (s, rest, k)
  end.
Lemma feed1_fed o file fuel : forall s rest k, fed lzw_ref o file s rest k ->
  let '(s', rest', k') := feed1 fuel s rest k in fed lzw_ref o file s' rest' k'.
Proof.
  induction fuel as [|fuel IH]; intros s rest k H; [exact H|]. destruct rest as [|b t]; [exact H|]. cbn [feed1].
  destruct (update lzw_ref s [b] ONone) as [[s' ob'] r] eqn:E. destruct r as [[n d]|e| | ]; [|exact H..].
  assert (H1 : fed lzw_ref o file s' (skipn n [b] ++ t) (S k)).
  { eapply (fd_ok lzw_ref o file s [b] t ONone); [exact H|discriminate|discriminate|exact E]. }
  destruct d as [ | | | | |[ | | ]| | | | | | ]; try exact H1; apply IH; exact H1.
Qed.
Definition dx_fed (fuel : nat) := feed1 fuel (sd_new lzw_ref options_new) (ser_gif dx_gif []) 0.
Lemma dx_fed_fed fuel : fed lzw_ref options_new (ser_gif dx_gif []) (fst (fst (dx_fed fuel))) (snd (fst (dx_fed fuel))) (snd (dx_fed fuel)).
Proof.
  unfold dx_fed. pose proof (feed1_fed options_new (ser_gif dx_gif []) fuel _ _ _ (fd_new lzw_ref options_new (ser_gif dx_gif []))) as F.
  destruct (feed1 fuel (sd_new lzw_ref options_new) (ser_gif dx_gif []) 0) as [[s r] k]. exact F.
Qed.
Example C49_case : fed lzw_ref options_new (ser_gif dx_gif []) (fst (fst (dx_fed 300))) [] (snd (dx_fed 300)) /\
  (length (ser_gif dx_gif []) <? snd (dx_fed 300))%nat = true.
Proof.
  split; [|vm_compute; reflexivity].
  assert (H : snd (fst (dx_fed 300)) = []) by (vm_compute; reflexivity).
  pose proof (dx_fed_fed 300) as F. rewrite H in F. exact F.
Qed.
