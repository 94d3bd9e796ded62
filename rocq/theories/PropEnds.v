(** Properties C85 and C86: end codes of the files that are read and of those that are written. *)
From Verif Require Import Base Common Lzw LzwEnds Encoder Stream Converter Reader LzwRef LzwRefSpec StreamInv ConvInv DecoderSafe CanonReader DocRead DocAll
  SpecGif SpecPixels SpecAccept SpecCount SpecOptions AcceptUnique Relax Validate Refuted PropEnc PropDec PropChecked Ending SpecEnc EncEnds.
Open Scope N_scope.

(** All frames are read only if the data of every image have an end code. *)
Theorem C85_ends : forall L (S : lzw_spec L) (Y : lzw_ends S) o, o_check_for_end_code o = true -> forall umax, 2 ^ 32 - 1 <= umax ->
  forall src d n d' fs, src_ok src -> limit_ok umax (o_limit o) -> o_skip_frame_decoding o = false ->
  read_info L src o = Ok d -> read_all L umax n d = (d', fs, Ok false) ->
  exists g tl, concat (map ev_bytes src) = ser_gif g tl /\ file_acc true o g tl /\
    Forall (fun b => match b with BImg i => lz_ends Y (lz_new L (im_mcs i)) (payload (im_subs i)) | _ => True end) (g_blocks g).
Proof. exact read_ends. Qed.
Print Assumptions C85_ends.
(** So it is for any other calls: if all of them go well, up to the end of the file, no end code is missing. *)
Theorem C85_calls : forall L (S : lzw_spec L) (Y : lzw_ends S) o, o_check_for_end_code o = true -> forall umax, 2 ^ 32 - 1 <= umax ->
  forall src d os d' ys, src_ok src -> limit_ok umax (o_limit o) -> o_skip_frame_decoding o = false -> Forall (op_ok umax) os ->
  read_info L src o = Ok d -> run_dops L umax d os = (d', ys) -> Forall went_well ys -> In (OutBool (Ok false)) ys ->
  exists g tl, concat (map ev_bytes src) = ser_gif g tl /\ file_acc true o g tl /\
    Forall (fun b => match b with BImg i => lz_ends Y (lz_new L (im_mcs i)) (payload (im_subs i)) | _ => True end) (g_blocks g).
Proof. exact calls_end. Qed.
Print Assumptions C85_calls.
(** A well-formed file with an image without end code gives some first frames and then [InvalidData]. *)
Theorem C85_refused : forall L umax o, o_check_for_end_code o = true -> forall (S : lzw_spec L) (Y : lzw_ends S), 2 ^ 32 - 1 <= umax ->
  forall g tl src outs n, gif_ok o g -> delivers src (ser_gif g tl) -> o_skip_frame_decoding o = false -> limit_ok umax (o_limit o) ->
  Forall2 (holds L S umax o) (gif_images g) outs -> (length outs < n)%nat ->
  Exists (fun b => match b with BImg i => ~ lz_ends Y (lz_new L (im_mcs i)) (payload (im_subs i)) | _ => False end) (g_blocks g) ->
  exists d d' fs rest, read_info L src o = Ok d /\ read_all L umax n d = (d', fs, Err (DIo InvalidData)) /\
    all_seen o g (gif_images g) outs = fs ++ rest.
Proof. exact endless_refused. Qed.
Print Assumptions C85_refused.

(** ** Cases *)
(** A file that passes the check; data with an end code: 4 (clear), 1, 0, 5 (end). *)
Example C85_ends_case : exists d d' fs, read_info lzw_ref strict_src (checked CRgba) = Ok d /\
  read_all lzw_ref umax64 3 d = (d', fs, Ok false) /\ (length fs =? 1)%nat = true.
Proof. exact C81_sound_checked_case. Qed.
Example C85_end_code : lz_ends lzw_ref_ends (lz_new lzw_ref 2) [12; 10].
Proof.
  right. split; [reflexivity|]. apply H_clear; [vm_compute; lia|vm_compute; reflexivity|]. apply (H_word _ _ _ _ [1]); [vm_compute; lia|vm_compute; reflexivity|].
  apply (H_word _ _ _ _ [0]); [vm_compute; lia|vm_compute; reflexivity|]. apply H_end; [vm_compute; lia|vm_compute; reflexivity].
Qed.

(** A file whose second image lacks the end code: the codes 4 (clear), 1, 0, 0, 0. *)
Definition nx_img : img := mk_img 0 0 2 2 0 [] 2 [[12; 0]].
Definition nx_gif : gif := mk_gif true 4 4 0x80 1 0 [1; 2; 3; 4; 5; 6] [BImg dx_img2; BImg nx_img].
Definition nx_outs : list (list N) := [[1; 0]; [1; 0; 0; 0]].
Definition nx_src : list revent := [RChunk (ser_gif nx_gif [])].
Lemma nx_ok : gif_ok (checked CRgba) nx_gif.
Proof.
  split; [reflexivity|]. split; [reflexivity|]. split; [reflexivity|]. split; [reflexivity|]. split; [reflexivity|].
  split; [split; [crush_rng|reflexivity]|]. split; [discriminate|]. split; [|exact I].
  unfold nx_gif at 2. cbn [g_blocks]. constructor; [|constructor; [|constructor]].
  - split; [reflexivity|]. split; [reflexivity|]. split; [reflexivity|]. split; [reflexivity|]. split; [reflexivity|].
    split; [split; [crush_rng|reflexivity]|]. split; [vm_compute; split; discriminate|]. split; [split; [discriminate|crush_rng]|].
    split; [vm_compute; split; discriminate|right; reflexivity].
  - split; [reflexivity|]. split; [reflexivity|]. split; [reflexivity|]. split; [reflexivity|]. split; [reflexivity|].
    split; [split; [crush_rng|reflexivity]|]. split; [vm_compute; split; discriminate|]. split; [split; [discriminate|crush_rng]|].
    split; [vm_compute; split; discriminate|right; reflexivity].
Qed.
Lemma nx_delivers : delivers nx_src (ser_gif nx_gif []).
Proof.
  split; [|split; [constructor; [exact I|constructor]|apply app_nil_r]]. constructor; [|constructor]. apply bytes_by. vm_compute. reflexivity.
Qed.
Lemma nx_pending : lz_pending lzw_ref_spec (lz_new lzw_ref 2) [12; 0] [1; 0; 0; 0].
Proof.
  split; [reflexivity|]. exists [1; 0; 0; 0]. split; [reflexivity|].
  apply R_clear; [vm_compute; lia|vm_compute; reflexivity|].
  apply (R_word _ _ _ _ [1] [0; 0; 0]); [vm_compute; lia|vm_compute; reflexivity|].
  apply (R_word _ _ _ _ [0] [0; 0]); [vm_compute; lia|vm_compute; reflexivity|].
  apply (R_word _ _ _ _ [0] [0]); [vm_compute; lia|vm_compute; reflexivity|].
  apply (R_word _ _ _ _ [0] []); [vm_compute; lia|vm_compute; reflexivity|]. apply R_short. vm_compute. lia.
Qed.
Lemma nx_holds : Forall2 (holds lzw_ref lzw_ref_spec umax64 (checked CRgba)) (gif_images nx_gif) nx_outs.
Proof.
  constructor; [|constructor; [|constructor]].
  - split; [exact dx_pending2|]. split; [cbn; lia|]. split; vm_compute; discriminate.
  - split; [exact nx_pending|]. split; [cbn; lia|]. split; vm_compute; discriminate.
Qed.
Lemma nx_endless : ~ lz_ends lzw_ref_ends (lz_new lzw_ref 2) [12; 0].
Proof.
  intros [H|[_ H]]; [discriminate H|]. vm_compute in H.
  do 5 (inversion H as [? ? ? Hw Hl|? ? ? Hw Hl Hr|? ? ? w Hw Hl Hr]; subst; clear H; vm_compute in Hl; try discriminate Hl;
    try (injection Hl as <-); vm_compute in Hr; rename Hr into H; clear Hw; try clear Hl).
  inversion H as [? ? ? Hw Hl|? ? ? Hw Hl Hr|? ? ? w Hw Hl Hr]; vm_compute in Hw; lia.
Qed.
Example C85_refused_case : exists d d', read_info lzw_ref nx_src (checked CRgba) = Ok d /\
  exists fs rest, read_all lzw_ref umax64 3 d = (d', fs, Err (DIo InvalidData)) /\
    all_seen (checked CRgba) nx_gif (gif_images nx_gif) nx_outs = fs ++ rest.
Proof.
  assert (Hn : (length nx_outs < 3)%nat) by (cbn; lia).
  destruct (C85_refused lzw_ref umax64 (checked CRgba) eq_refl lzw_ref_spec lzw_ref_ends dx_umax nx_gif [] nx_src nx_outs 3%nat nx_ok nx_delivers eq_refl
    dx_limit nx_holds Hn) as (d & d' & fs & rest & E & F & G).
  - apply Exists_cons_tl, Exists_cons_hd. exact nx_endless.
  - exists d, d'. split; [exact E|]. exists fs, rest. split; [exact F|exact G].
Qed.
(** Without the check both images are read. *)
Example C85_unchecked : exists d d' fs, read_info lzw_ref nx_src rgba_opts = Ok d /\
  read_all lzw_ref umax64 3 d = (d', fs, Ok false) /\ (length fs =? 2)%nat = true.
Proof. apply (ran _ (read_all lzw_ref umax64 3)). vm_compute. reflexivity. Qed.

(** ** C86 *)
(** The file made by any session has one image for each frame written, and the data of each have an end code. Frames encoded
    beforehand are those of [Frame::make_lzw_pre_encoded]. *)
Theorem C86_written : forall L (S : lzw_spec L) (Y : lzw_ends S), lzw_marks Y ->
  forall dbg w width height pal ops e1 e2 e3 w3, u16_ok width -> u16_ok height -> Forall op_rng ops ->
  Forall (fun o => match o with OWritePre f' => exists f, bytes_ok (f_buffer f) /\ f' = make_lzw_pre_encoded L f | _ => True end) ops ->
  encoder_new w width height pal = (e1, Ok tt) -> run_ops L dbg e1 ops = (e2, Ok tt) -> into_inner e2 = (e3, Ok w3) ->
  exists g, w_out w3 = w_out w ++ ser_gif g [] /\
    length (filter (fun b => match b with BImg _ => true | _ => false end) (g_blocks g)) =
    length (filter (fun o => match o with OWriteFrame _ | OWritePre _ => true | _ => false end) ops) /\
    Forall (fun b => match b with BImg i => lz_ends Y (lz_new L (im_mcs i)) (payload (im_subs i)) | _ => True end) (g_blocks g).
Proof. exact written_marked. Qed.
Print Assumptions C86_written.
Example C86_written_case : exists g, ex_file = ser_gif g [] /\
  length (filter (fun b => match b with BImg _ => true | _ => false end) (g_blocks g)) = 2%nat /\
  Forall (fun b => match b with BImg i => lz_ends lzw_ref_ends (lz_new lzw_ref (im_mcs i)) (payload (im_subs i)) | _ => True end) (g_blocks g).
Proof.
  destruct ex_runs as (e3 & w3 & H1 & H2 & H3 & H4).
  destruct (C86_written lzw_ref lzw_ref_spec lzw_ref_ends lzw_ref_marks true ex_w 4 4 ex_pal ex_ops ex_e1 ex_e2 e3 w3) as (g & G1 & G2 & G3);
    [reflexivity|reflexivity|exact ex_rng| |exact H1|exact H2|exact H3|].
  - constructor; [exact I|]. constructor; [exact I|]. constructor; [exact I|]. constructor; [|constructor]. exists ex_f2. split; [crush_rng|reflexivity].
  - exists g. rewrite <- H4. split; [exact G1|]. split; [exact G2|exact G3].
Qed.
