(** Property C81: whatever is read without an error is what the file says. *)
From Verif Require Import Base Common Lzw LzwErrs Encoder Stream Converter Reader LzwRef LzwRefSpec StreamInv ConvInv DecoderSafe CanonReader DocRead DocAll
  SpecGif SpecPixels SpecDamage Validate Refuted PropEnc PropDec SpecAccept SpecVerdict PropVerdict PropCorrupt PropDamage Programs PropExact SpecSound Sound SoundAcc.
Open Scope N_scope.

(** Any accepted file, with anything in its image data. *)
Theorem C81_any : forall L (S : lzw_spec L) umax, 2 ^ 32 - 1 <= umax -> forall (Z : lzw_errs S) o g tl src obs n,
  file_acc true o g tl -> delivers src (ser_gif g tl) ->
  o_skip_frame_decoding o = false -> o_check_for_end_code o = false -> limit_ok umax (o_limit o) ->
  Forall2 (data_for Z) (acc_images g) obs -> (length obs < n)%nat ->
  exists d d' fs y, read_info L src o = Ok d /\ read_all L umax n d = (d', fs, y) /\
    reading umax o g (Ok false) (acc_images g) obs fs y /\ (y = Ok false -> rd_rest L (dc_rd L d') = unread_tail g tl).
Proof. exact acc_any. Qed.
Print Assumptions C81_any.
Theorem C81_raw_any : forall L (S : lzw_spec L) umax, 2 ^ 32 - 1 <= umax -> forall o g tl src n,
  file_acc true o g tl -> delivers src (ser_gif g tl) -> o_skip_frame_decoding o = true -> (length (acc_images g) < n)%nat ->
  exists d d', read_info L src o = Ok d /\ read_all L umax n d = (d', fst (raw_told o (acc_images g)), snd (raw_told o (acc_images g))) /\
    (snd (raw_told o (acc_images g)) = Ok false -> rd_rest L (dc_rd L d') = unread_tail g tl).
Proof. exact raw_any. Qed.
Print Assumptions C81_raw_any.

(** The same with a damaged end, or none. *)
Theorem C81_damaged : forall L (S : lzw_spec L) (Z : lzw_errs S) umax, 2 ^ 32 - 1 <= umax -> forall o g tz e src obs n,
  part_ok o g -> damage o g tz e -> delivers src (ser_cut g tz) -> ~ noticed_by_read_info g tz ->
  o_skip_frame_decoding o = false -> o_check_for_end_code o = false -> limit_ok umax (o_limit o) ->
  Forall2 (data_for Z) (gif_images g) obs -> (length obs < n)%nat ->
  exists d d' fs y, read_info L src o = Ok d /\ read_all L umax n d = (d', fs, y) /\
    reading umax o g (Err e) (gif_images g) obs fs y.
Proof. exact damage_any. Qed.
Print Assumptions C81_damaged.

(** All data are described by some [obs]. *)
Theorem C81_total : forall L (S : lzw_spec L) (Z : lzw_errs S) l, exists obs, Forall2 (data_for Z) l obs.
Proof. exact data_total. Qed.
Print Assumptions C81_total.

(** Any input: if all frames are read without an error, then it is a file, and the frames are its images. *)
Theorem C81_sound : forall L (S : lzw_spec L) umax, 2 ^ 32 - 1 <= umax -> forall (Z : lzw_errs S) src o d n d' fs,
  src_ok src -> good_src src -> limit_ok umax (o_limit o) ->
  o_skip_frame_decoding o = false -> o_check_for_end_code o = false ->
  read_info L src o = Ok d -> read_all L umax n d = (d', fs, Ok false) ->
  exists g tl obs, concat (map ev_bytes src) = ser_gif g tl /\ file_acc true o g tl /\ rd_rest L (dc_rd L d') = unread_tail g tl /\
    Forall2 (data_for Z) (acc_images g) obs /\ Forall2 (fun ci ob => shows umax o (snd ci) (fst ob)) (acc_images g) obs /\
    fs = all_seen o g (acc_images g) (map fst obs).
Proof. exact read_sound. Qed.
Print Assumptions C81_sound.
(** All frames are read if the data of each image have enough pixels, and one more where an invalid code follows. *)
Theorem C81_complete : forall L (S : lzw_spec L) umax, 2 ^ 32 - 1 <= umax -> forall (Z : lzw_errs S) o g tl src obs n,
  file_acc true o g tl -> delivers src (ser_gif g tl) ->
  o_skip_frame_decoding o = false -> o_check_for_end_code o = false -> limit_ok umax (o_limit o) ->
  Forall2 (data_for Z) (acc_images g) obs ->
  Forall2 (fun ci ob => shows umax o (snd ci) (fst ob) /\ (snd ob = true -> (im_pixels (snd ci) < length (fst ob))%nat)) (acc_images g) obs ->
  (length obs < n)%nat ->
  exists d d', read_info L src o = Ok d /\ read_all L umax n d = (d', all_seen o g (acc_images g) (map fst obs), Ok false) /\
    rd_rest L (dc_rd L d') = unread_tail g tl.
Proof. exact read_complete. Qed.
Print Assumptions C81_complete.

(** Compressed frames: all are read exactly if the input is a file and each of them has room. *)
Theorem C81_raw : forall L (S : lzw_spec L) umax, 2 ^ 32 - 1 <= umax -> forall src o d n d' fs,
  src_ok src -> good_src src -> limit_ok umax (o_limit o) -> o_skip_frame_decoding o = true ->
  read_info L src o = Ok d -> read_all L umax n d = (d', fs, Ok false) ->
  exists g tl, concat (map ev_bytes src) = ser_gif g tl /\ file_acc true o g tl /\ rd_rest L (dc_rd L d') = unread_tail g tl /\
    Forall (fun ci => has_room o (snd ci) = true) (acc_images g) /\ fs = map raw_seen (acc_images g).
Proof. exact raw_sound. Qed.
Print Assumptions C81_raw.
Theorem C81_raw_exact : forall L (S : lzw_spec L) umax, 2 ^ 32 - 1 <= umax -> forall src o,
  src_ok src -> good_src src -> limit_ok umax (o_limit o) -> o_skip_frame_decoding o = true ->
  ((exists d n d' fs, read_info L src o = Ok d /\ read_all L umax n d = (d', fs, Ok false)) <->
   exists g tl, concat (map ev_bytes src) = ser_gif g tl /\ file_acc true o g tl /\ Forall (fun ci => has_room o (snd ci) = true) (acc_images g)).
Proof. exact raw_exact. Qed.
Print Assumptions C81_raw_exact.

(** Well-formed files are exactly the accepted files without liberties. *)
Theorem C81_wellformed : forall o g, gif_ok o g <-> gif_acc true o g /\ regular g.
Proof. exact ok_exactly. Qed.
Print Assumptions C81_wellformed.

(** ** Cases *)
(** The second image of three is refused. *)
Definition sx_obs : list (list N * bool) := [([1; 0], false); ([0], true); ([1; 0], false)].
Lemma sx_data : Forall2 (data_for lzw_ref_errs) (gif_images vc_gif) sx_obs.
Proof.
  constructor; [exact dx_pending2|]. constructor; [exact vc_fails|]. constructor; [exact dx_pending2|constructor].
Qed.
Example C81_any_case : exists d d' f, read_info lzw_ref [RChunk (ser_gif vc_gif [])] rgba_opts = Ok d /\
  read_all lzw_ref umax64 4 d = (d', [f], Err (DIo InvalidData)) /\ f = seen rgba_opts vc_gif (hd (ctl_none, vc_img) (gif_images vc_gif)) [1; 0].
Proof.
  assert (Hn : (length sx_obs < 4)%nat) by (cbn; lia).
  destruct (C81_any lzw_ref lzw_ref_spec umax64 dx_umax lzw_ref_errs rgba_opts vc_gif [] _ _ 4 (ok_file_acc _ _ _ vc_ok) vc_chunk eq_refl eq_refl dx_limit sx_data Hn)
    as (d & d' & fs & y & E1 & E2 & R & _).
  inversion R as [|? ? ? ? ? fs1 ? _ R1 Ea Eb|? ? ? ? ? e He|]; subst; [|exfalso; vm_compute in He; destruct He; lia].
  inversion R1 as [|? ? ? ? ? fs2 ? Hs _|? ? ? ? ? e He|? ? ? ? Hs]; subst.
  - exfalso. destruct Hs as (_ & Hs & _). vm_compute in Hs. lia.
  - vm_compute in He. destruct He as [_ ->]. eexists d, d', _. split; [exact E1|]. split; [exact E2|reflexivity].
  - exfalso. destruct Hs as (_ & Hs & _). vm_compute in Hs. lia.
Qed.

(** The example file, byte by byte: reading it to the end says that its images are complete. *)
Example C81_sound_case : exists d d' fs obs, read_info lzw_ref dx_src rgba_opts = Ok d /\
  read_all lzw_ref umax64 3 d = (d', fs, Ok false) /\ rd_rest lzw_ref (dc_rd lzw_ref d') = dx_tail /\
  Forall2 (data_for lzw_ref_errs) (gif_images dx_gif) obs /\ fs = all_seen rgba_opts dx_gif (gif_images dx_gif) (map fst obs) /\ length fs = 2%nat.
Proof.
  assert (Hn : (length dx_outs < 3)%nat) by (cbn; lia).
  destruct (C19_frames lzw_ref lzw_ref_spec umax64 dx_umax rgba_opts dx_gif dx_tail dx_src dx_outs 3 (dx_ok _ (or_introl eq_refl))
    dx_delivers eq_refl eq_refl (dx_holds _ (or_introl eq_refl)) Hn) as (d & d' & E & F & _).
  destruct dx_delivers as (H1 & H2 & H3).
  destruct (C81_sound lzw_ref lzw_ref_spec umax64 dx_umax lzw_ref_errs _ _ d 3%nat d' _ H1 H2 dx_limit eq_refl eq_refl E F) as (g & tl & obs & Eb & Ha & Ht & Ho & _ & Ef).
  rewrite H3 in Eb.
  pose proof (dx_ok rgba_opts (or_introl eq_refl)) as Hg. pose proof (ok_file_acc rgba_opts dx_gif dx_tail Hg) as Hd.
  destruct (C64_unique _ _ _ _ _ _ _ _ Hd Ha Eb) as [<- <-].
  exists d, d', (all_seen rgba_opts dx_gif (gif_images dx_gif) dx_outs), obs. split; [exact E|]. split; [exact F|]. split; [exact Ht|]. split; [exact Ho|]. split; [exact Ef|reflexivity].
Qed.

(** A file without blocks loses the byte behind its trailer. *)
Definition sx_empty : gif := mk_gif true 1 1 0 0 0 [] [].
Lemma sx_empty_acc o : file_acc true o sx_empty [1; 2].
Proof. split; [|discriminate]. split; [|split; [constructor|exact I]]. repeat split; try reflexivity; constructor. Qed.
Lemma sx_empty_delivers : delivers [RChunk (ser_gif sx_empty [1; 2])] (ser_gif sx_empty [1; 2]).
Proof.
  split; [|split; [constructor; [eexists; reflexivity|constructor]|apply app_nil_r]].
  constructor; [|constructor]. vm_compute. repeat constructor.
Qed.
Example C81_tail_case : exists d d', read_info lzw_ref [RChunk (ser_gif sx_empty [1; 2])] rgba_opts = Ok d /\
  read_all lzw_ref umax64 1 d = (d', [], Ok false) /\ rd_rest lzw_ref (dc_rd lzw_ref d') = [2].
Proof.
  apply (C81_complete lzw_ref lzw_ref_spec umax64 dx_umax lzw_ref_errs rgba_opts sx_empty [1; 2] _ [] 1 (sx_empty_acc _) sx_empty_delivers eq_refl eq_refl dx_limit);
    [constructor|constructor|repeat constructor].
Qed.

(** A file with liberties: one frame, then the data of the second image are too short. *)
Example C81_loose_case : exists obs d d' f, Forall2 (data_for lzw_ref_errs) (acc_images ex_gif) obs /\
  read_info lzw_ref (bytewise (ser_gif ex_gif [])) check_opts = Ok d /\ read_all lzw_ref umax64 3 d = (d', [f], Err (DFormat ImageTruncated)) /\
  reading umax64 check_opts ex_gif (Ok false) (acc_images ex_gif) obs [f] (Err (DFormat ImageTruncated)).
Proof.
  destruct (C81_total lzw_ref lzw_ref_spec lzw_ref_errs (acc_images ex_gif)) as (obs & Ho).
  assert (Hn : (length obs < 3)%nat) by (inversion Ho as [|? ? ? ? _ Ho1]; subst; inversion Ho1 as [|? ? ? ? _ Ho2]; subst; inversion Ho2; subst; cbn; lia).
  destruct (C81_any lzw_ref lzw_ref_spec umax64 dx_umax lzw_ref_errs check_opts ex_gif [] _ obs 3 (ex_acc true) ex_delivers eq_refl eq_refl dx_limit Ho Hn)
    as (d & d' & fs & y & E & E' & R & _).
  assert (Hx : match read_info lzw_ref (bytewise (ser_gif ex_gif [])) check_opts with
               | Ok d => let '(_, fs, y) := read_all lzw_ref umax64 3 d in length fs = 1%nat /\ y = Err (DFormat ImageTruncated)
               | _ => False end) by (vm_compute; split; reflexivity).
  rewrite E, E' in Hx. destruct Hx as [Hf ->]. destruct fs as [|f [|]]; try discriminate Hf. eauto 8.
Qed.
