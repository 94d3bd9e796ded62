(** Property C82: what was read can be written again, and reads the same. *)
From Verif Require Import Base Common Lzw LzwErrs Encoder Stream Converter Reader LzwRef LzwRefSpec StreamInv ConvInv DecoderSafe CanonReader DocRead DocAll
  EncLin EncSession SpecGif SpecPixels SpecDamage Validate Refuted PropEnc PropDec SpecAccept SpecVerdict PropVerdict PropCorrupt PropDamage PropExact PropSound
  Rewrite Sound SoundAcc Transcode.
Open Scope N_scope.

(** Pixels: [fs1] is read from any bytes and written again; [fs2] is what the reader with options [o2] makes of the same bytes. *)
Theorem C82_pixels : forall L (S : lzw_spec L) umax, 2 ^ 32 - 1 <= umax ->
  forall (Z : lzw_errs S) o1 o2 src1 src2 d1 d1' fs1 d2 d2' fs2 n,
  src_ok src1 -> good_src src1 -> src_ok src2 -> good_src src2 -> concat (map ev_bytes src1) = concat (map ev_bytes src2) ->
  o_color o1 = CIndexed -> o_skip_frame_decoding o1 = false -> o_check_for_end_code o1 = false -> limit_ok umax (o_limit o1) ->
  o_skip_frame_decoding o2 = false -> o_check_for_end_code o2 = false -> limit_ok umax (o_limit o2) -> fits (o_limit o2) 15 ->
  read_info L src1 o1 = Ok d1 -> read_all L umax n d1 = (d1', fs1, Ok false) ->
  read_info L src2 o2 = Ok d2 -> read_all L umax n d2 = (d2', fs2, Ok false) ->
  fs1 <> [] -> Forall (fun f => 0 < f_width f * f_height f /\ bytes_ok (f_buffer f)) fs1 ->
  forall w dbg, Forall harmless (w_plan w) -> w_out w = [] ->
  exists e1 e2 e3 w3, encoder_new w (dec_width L d1) (dec_height L d1) (or_empty (dec_global_palette L d1)) = (e1, Ok tt) /\
    run_ops L dbg e1 (copy_ops (dec_repeat L d1) fs1) = (e2, Ok tt) /\ into_inner e2 = (e3, Ok w3) /\
    forall src3 tl3, delivers src3 (w_out w3 ++ tl3) ->
    exists d3 d3', read_info L src3 o2 = Ok d3 /\ read_all L umax n d3 = (d3', fs2, Ok false) /\
      dec_width L d3 = dec_width L d2 /\ dec_height L d3 = dec_height L d2 /\ dec_repeat L d3 = dec_repeat L d2 /\
      dec_global_palette L d3 = Some (match dec_global_palette L d2 with Some p => p | None => repeat 0 6 end) /\ rd_rest L (dc_rd L d3') = tl3.
Proof. exact copy_pixels. Qed.
Print Assumptions C82_pixels.

(** Compressed data. *)
Theorem C82_raw : forall L (S : lzw_spec L) umax, 2 ^ 32 - 1 <= umax -> forall o src d d' fs n,
  src_ok src -> good_src src -> o_skip_frame_decoding o = true -> limit_ok umax (o_limit o) -> fits (o_limit o) 15 ->
  read_info L src o = Ok d -> read_all L umax n d = (d', fs, Ok false) -> fs <> [] -> Forall rewritable fs ->
  forall w dbg, Forall harmless (w_plan w) -> w_out w = [] ->
  exists e1 e2 e3 w3, encoder_new w (dec_width L d) (dec_height L d) (or_empty (dec_global_palette L d)) = (e1, Ok tt) /\
    run_ops L dbg e1 (rewrite_ops (dec_repeat L d) fs) = (e2, Ok tt) /\ into_inner e2 = (e3, Ok w3) /\
    forall src3 tl3, delivers src3 (w_out w3 ++ tl3) ->
    exists d3 d3', read_info L src3 o = Ok d3 /\ read_all L umax n d3 = (d3', fs, Ok false) /\
      dec_width L d3 = dec_width L d /\ dec_height L d3 = dec_height L d /\ dec_repeat L d3 = dec_repeat L d /\
      dec_global_palette L d3 = Some (match dec_global_palette L d with Some p => p | None => repeat 0 6 end) /\ rd_rest L (dc_rd L d3') = tl3.
Proof. exact copy_raw. Qed.
Print Assumptions C82_raw.

(** The compressed data are written again and then decoded: the same frames and the same result, errors included, except that an
    invalid code may stop one of the two readings where it comes right behind the last pixel. *)
Theorem C82_raw_decoded : forall L (S : lzw_spec L) umax, 2 ^ 32 - 1 <= umax -> forall (Z : lzw_errs S) o o2 src1 src2 d1 d1' fs1 n,
  src_ok src1 -> good_src src1 -> src_ok src2 -> good_src src2 -> concat (map ev_bytes src1) = concat (map ev_bytes src2) ->
  o_skip_frame_decoding o = true -> limit_ok umax (o_limit o) -> fits (o_limit o) 15 ->
  like o o2 -> o_skip_frame_decoding o2 = false -> o_check_for_end_code o2 = false ->
  read_info L src1 o = Ok d1 -> read_all L umax n d1 = (d1', fs1, Ok false) -> fs1 <> [] ->
  Forall rewritable fs1 -> Forall (fun f => 0 < f_width f * f_height f) fs1 ->
  forall w dbg, Forall harmless (w_plan w) -> w_out w = [] ->
  exists e1 e2 e3 w3 d2, encoder_new w (dec_width L d1) (dec_height L d1) (or_empty (dec_global_palette L d1)) = (e1, Ok tt) /\
    run_ops L dbg e1 (rewrite_ops (dec_repeat L d1) fs1) = (e2, Ok tt) /\ into_inner e2 = (e3, Ok w3) /\
    read_info L src2 o2 = Ok d2 /\
    forall src3 tl3, delivers src3 (w_out w3 ++ tl3) ->
    exists d2' fs2 y2 d3 d3' fs3 y3, read_all L umax n d2 = (d2', fs2, y2) /\ read_info L src3 o2 = Ok d3 /\ read_all L umax n d3 = (d3', fs3, y3) /\
      same_or_late fs2 y2 fs3 y3 /\ dec_repeat L d3 = dec_repeat L d2 /\ (y3 = Ok false -> rd_rest L (dc_rd L d3') = tl3).
Proof. exact copy_raw_decoded. Qed.
Print Assumptions C82_raw_decoded.

(** Copying the copy gives the identical file, whatever stands behind the first copy and however it is delivered. *)
Theorem C82_twice : forall L (S : lzw_spec L) umax, 2 ^ 32 - 1 <= umax -> forall (Z : lzw_errs S) o src d d' fs n,
  src_ok src -> good_src src ->
  o_color o = CIndexed -> o_skip_frame_decoding o = false -> o_check_for_end_code o = false -> limit_ok umax (o_limit o) -> fits (o_limit o) 15 ->
  read_info L src o = Ok d -> read_all L umax n d = (d', fs, Ok false) ->
  fs <> [] -> Forall (fun f => 0 < f_width f * f_height f /\ bytes_ok (f_buffer f)) fs ->
  forall w dbg e1 e2 e3 w3, Forall harmless (w_plan w) -> w_out w = [] ->
  encoder_new w (dec_width L d) (dec_height L d) (or_empty (dec_global_palette L d)) = (e1, Ok tt) ->
  run_ops L dbg e1 (copy_ops (dec_repeat L d) fs) = (e2, Ok tt) -> into_inner e2 = (e3, Ok w3) ->
  forall src3 tl3, delivers src3 (w_out w3 ++ tl3) ->
  exists d3 d3', read_info L src3 o = Ok d3 /\ read_all L umax n d3 = (d3', fs, Ok false) /\
    forall w' dbg', Forall harmless (w_plan w') -> w_out w' = [] ->
    exists e4 e5 e6 w6, encoder_new w' (dec_width L d3) (dec_height L d3) (or_empty (dec_global_palette L d3)) = (e4, Ok tt) /\
      run_ops L dbg' e4 (copy_ops (dec_repeat L d3) fs) = (e5, Ok tt) /\ into_inner e5 = (e6, Ok w6) /\ w_out w6 = w_out w3.
Proof. exact copy_pixels_twice. Qed.
Print Assumptions C82_twice.
Theorem C82_raw_twice : forall L (S : lzw_spec L) umax, 2 ^ 32 - 1 <= umax -> forall o src d d' fs n,
  src_ok src -> good_src src ->
  o_skip_frame_decoding o = true -> limit_ok umax (o_limit o) -> fits (o_limit o) 15 ->
  read_info L src o = Ok d -> read_all L umax n d = (d', fs, Ok false) ->
  fs <> [] -> Forall rewritable fs ->
  forall w dbg e1 e2 e3 w3, Forall harmless (w_plan w) -> w_out w = [] ->
  encoder_new w (dec_width L d) (dec_height L d) (or_empty (dec_global_palette L d)) = (e1, Ok tt) ->
  run_ops L dbg e1 (rewrite_ops (dec_repeat L d) fs) = (e2, Ok tt) -> into_inner e2 = (e3, Ok w3) ->
  forall src3 tl3, delivers src3 (w_out w3 ++ tl3) ->
  exists d3 d3', read_info L src3 o = Ok d3 /\ read_all L umax n d3 = (d3', fs, Ok false) /\
    forall w' dbg', Forall harmless (w_plan w') -> w_out w' = [] ->
    exists e4 e5 e6 w6, encoder_new w' (dec_width L d3) (dec_height L d3) (or_empty (dec_global_palette L d3)) = (e4, Ok tt) /\
      run_ops L dbg' e4 (rewrite_ops (dec_repeat L d3) fs) = (e5, Ok tt) /\ into_inner e5 = (e6, Ok w6) /\ w_out w6 = w_out w3.
Proof. exact copy_raw_twice. Qed.
Print Assumptions C82_raw_twice.

(** Writing frames of a reader to a new file: user code, not in /repo. *)
Definition rewritten (w h : N) (pal : list N) (ops : list enc_op) : option (list N) :=
  match run_ops lzw_ref false (fst (encoder_new fresh w h pal)) ops with
  | (e, Ok tt) => match into_inner e with (_, Ok w3) => Some (w_out w3) | _ => None end
  | _ => None
  end.

(** Without data ([rewritable] demands some) the copy is accepted by the encoder but cannot be read. *)
Theorem C82_no_data_refuted : exists src f file, frames_of src raw_opts = ([f], Ok tt) /\
  rewritten 4 4 [1; 2; 3; 4; 5; 6] (rewrite_ops (RFinite 0) [f]) = Some file /\
  snd (frames_of [RChunk file] raw_opts) = Err (DIo UnexpectedEof).
Proof.
  exists [RChunk (ser_gif (mk_gif true 4 4 0x80 0 0 [1; 2; 3; 4; 5; 6] [BImg (mk_img 0 0 1 1 0 [] 2 [[]])]) [])].
  eexists _, _. split; [vm_compute; reflexivity|]. split; [vm_compute; reflexivity|]. vm_compute. reflexivity.
Qed.
Print Assumptions C82_no_data_refuted.
(** So it is with images without rows. *)
Theorem C82_no_rows_refuted : exists src f file, frames_of src options_new = ([f], Ok tt) /\
  rewritten 4 4 [1; 2; 3; 4; 5; 6] (copy_ops (RFinite 0) [f]) = Some file /\
  exists e, snd (frames_of [RChunk file] options_new) = Err e.
Proof.
  exists [RChunk (ser_gif (mk_gif true 4 4 0x80 0 0 [1; 2; 3; 4; 5; 6] [BImg (mk_img 0 0 1 0 0x40 [] 2 [[12; 10]])]) [])].
  eexists _, _. split; [vm_compute; reflexivity|]. split; [vm_compute; reflexivity|]. eexists. vm_compute. reflexivity.
Qed.
Print Assumptions C82_no_rows_refuted.

(** The exception is real, with both files delivered in one piece: the copy joins two sub-blocks, and the invalid code in the second one
    is met before the only pixel is delivered. *)
Theorem C82_late_refuted : exists src f g file, frames_of src raw_opts = ([f], Ok tt) /\ frames_of src options_new = ([g], Ok tt) /\
  rewritten 4 4 [1; 2; 3; 4; 5; 6] (rewrite_ops (RFinite 0) [f]) = Some file /\
  frames_of [RChunk file] raw_opts = ([f], Ok tt) /\ frames_of [RChunk file] options_new = ([], Err (DIo InvalidData)).
Proof.
  exists [RChunk (ser_gif (mk_gif true 4 4 0x80 0 0 [1; 2; 3; 4; 5; 6] [BImg (mk_img 0 0 1 1 0 [] 2 [[196]; [1]])]) [])].
  eexists _, _, _. split; [vm_compute; reflexivity|]. split; [vm_compute; reflexivity|]. split; [vm_compute; reflexivity|].
  split; vm_compute; reflexivity.
Qed.
Print Assumptions C82_late_refuted.

(** ** Cases *)
(** The example file, read byte by byte with indices and written again: read as RGBA, the copy gives what the file gives. *)
Example C82_pixels_case : exists d1 d1' fs1 d2 d2' fs2 e1 e2 e3 w3,
  read_info lzw_ref dx_src options_new = Ok d1 /\ read_all lzw_ref umax64 3 d1 = (d1', fs1, Ok false) /\
  read_info lzw_ref dx_src rgba_opts = Ok d2 /\ read_all lzw_ref umax64 3 d2 = (d2', fs2, Ok false) /\ length fs2 = 2%nat /\
  encoder_new fresh 4 4 [1; 2; 3; 4; 5; 6] = (e1, Ok tt) /\ run_ops lzw_ref true e1 (copy_ops (dec_repeat lzw_ref d1) fs1) = (e2, Ok tt) /\
  into_inner e2 = (e3, Ok w3) /\ w_out w3 <> ser_gif dx_gif [] /\
  exists d3 d3', read_info lzw_ref (bytewise (w_out w3)) rgba_opts = Ok d3 /\ read_all lzw_ref umax64 3 d3 = (d3', fs2, Ok false).
Proof.
  assert (Hn : (length dx_outs < 3)%nat) by (cbn; lia).
  destruct (C19_frames lzw_ref lzw_ref_spec umax64 dx_umax options_new dx_gif dx_tail dx_src dx_outs 3 (dx_ok _ (or_intror (or_introl eq_refl)))
    dx_delivers eq_refl eq_refl (dx_holds _ (or_intror eq_refl)) Hn) as (d1 & d1' & E1 & F1 & _).
  destruct (C19_info lzw_ref lzw_ref_spec umax64 dx_umax options_new dx_gif dx_tail dx_src (dx_ok _ (or_intror (or_introl eq_refl))) dx_delivers)
    as (d0 & E0 & I1 & I2 & I3 & _ & I4).
  rewrite E1 in E0. injection E0 as <-.
  destruct (C19_frames lzw_ref lzw_ref_spec umax64 dx_umax rgba_opts dx_gif dx_tail dx_src dx_outs 3 (dx_ok _ (or_introl eq_refl))
    dx_delivers eq_refl eq_refl (dx_holds _ (or_introl eq_refl)) Hn) as (d2 & d2' & E2 & F2 & _).
  destruct dx_delivers as (H1 & H2 & H3).
  set (fs1 := all_seen options_new dx_gif (gif_images dx_gif) dx_outs) in *. set (fs2 := all_seen rgba_opts dx_gif (gif_images dx_gif) dx_outs) in *.
  assert (K1 : fs1 <> []) by (vm_compute; discriminate).
  assert (K2 : Forall (fun f => 0 < f_width f * f_height f /\ bytes_ok (f_buffer f)) fs1).
  { repeat constructor; vm_compute; reflexivity. }
  destruct (C82_pixels lzw_ref lzw_ref_spec umax64 dx_umax lzw_ref_errs options_new rgba_opts dx_src dx_src d1 d1' fs1 d2 d2' fs2 3 H1 H2 H1 H2 eq_refl
    eq_refl eq_refl eq_refl dx_limit eq_refl eq_refl dx_limit ltac:(vm_compute; discriminate) E1 F1 E2 F2 K1 K2 fresh true ltac:(constructor) eq_refl)
    as (e1 & e2 & e3 & w3 & G1 & G2 & G3 & G4).
  rewrite I1, I2, I3 in G1. exists d1, d1', fs1, d2, d2', fs2, e1, e2, e3, w3.
  split; [exact E1|]. split; [exact F1|]. split; [exact E2|]. split; [exact F2|]. split; [reflexivity|]. split; [exact G1|]. split; [exact G2|]. split; [exact G3|].
  assert (Hw : exists file, w_out w3 = file /\ bytes_ok file /\ file <> ser_gif dx_gif []).
  { rewrite I4 in G2. subst fs1 fs2. clear - G1 G2 G3. vm_compute in G1. injection G1 as <-. vm_compute in G2. injection G2 as <-. vm_compute in G3. injection G3 as <- <-.
    eexists. split; [reflexivity|]. split; [crush_rng|vm_compute; discriminate]. }
  destruct Hw as (file & Hf & Hb & Hne). rewrite Hf in *. split; [exact Hne|].
  destruct (G4 (bytewise file) []) as (d3 & d3' & R1 & R2 & _); [rewrite app_nil_r; now apply bytewise_delivers|]. eauto.
Qed.
Example C82_raw_case : exists d d' fs, read_info lzw_ref dx_src raw_opts = Ok d /\ read_all lzw_ref umax64 3 d = (d', fs, Ok false) /\
  fs <> [] /\ Forall rewritable fs.
Proof.
  destruct (C19_raw lzw_ref lzw_ref_spec umax64 dx_umax raw_opts dx_gif dx_tail dx_src 3 (dx_ok _ (or_intror (or_intror eq_refl))) dx_delivers eq_refl) as (d & d' & E & F & _).
  { repeat constructor; vm_compute; discriminate. }
  { cbn; lia. }
  exists d, d', (map raw_seen (gif_images dx_gif)). split; [exact E|]. split; [exact F|]. split; [discriminate|].
  constructor; [|constructor; [|constructor]]; (eexists _, _, _; split; [reflexivity|vm_compute; discriminate]).
Qed.
Example C82_twice_case : exists fs file, frames_of dx_src options_new = (fs, Ok tt) /\ length fs = 2%nat /\
  rewritten 4 4 [1; 2; 3; 4; 5; 6] (copy_ops (RFinite 5) fs) = Some file /\ frames_of [RChunk file] options_new = (fs, Ok tt) /\
  exists d, read_info lzw_ref [RChunk file] options_new = Ok d /\ dec_global_palette lzw_ref d = Some [1; 2; 3; 4; 5; 6] /\ dec_repeat lzw_ref d = RFinite 5.
Proof.
  eexists _, _. split; [vm_compute; reflexivity|]. split; [reflexivity|]. split; [vm_compute; reflexivity|]. split; [vm_compute; reflexivity|].
  eexists. split; [vm_compute; reflexivity|]. split; vm_compute; reflexivity.
Qed.
(** The second image of [vc_gif] holds an invalid code: so does the copy. *)
Example C82_raw_decoded_case : exists d1 d1' fs1, like raw_opts rgba_opts /\
  read_info lzw_ref [RChunk (ser_gif vc_gif [])] raw_opts = Ok d1 /\ read_all lzw_ref umax64 4 d1 = (d1', fs1, Ok false) /\
  length fs1 = 3%nat /\ Forall rewritable fs1 /\ Forall (fun f => 0 < f_width f * f_height f) fs1.
Proof.
  assert (Hk : like raw_opts rgba_opts) by (repeat split). assert (Hk' : like rgba_opts raw_opts) by (repeat split).
  assert (Hf : file_acc true raw_opts vc_gif []).
  { pose proof (ok_file_acc rgba_opts vc_gif [] vc_ok) as [H1 H2]. split; [exact (like_acc _ _ _ Hk' H1)|exact H2]. }
  assert (Hn : (length (acc_images vc_gif) < 4)%nat) by (vm_compute; lia).
  destruct (C81_raw_any lzw_ref lzw_ref_spec umax64 dx_umax raw_opts vc_gif [] _ 4 Hf vc_chunk eq_refl Hn) as (d & d' & E & F & _).
  exists d, d', (map raw_seen (acc_images vc_gif)). split; [exact Hk|]. split; [exact E|].
  split; [rewrite F; vm_compute; reflexivity|]. split; [reflexivity|]. split.
  - repeat (constructor; [eexists _, _, _; split; [reflexivity|vm_compute; discriminate]|]). constructor.
  - repeat (constructor; [vm_compute; reflexivity|]). constructor.
Qed.
Example C82_raw_decoded_run : exists fs1 fs2 file, frames_of [RChunk (ser_gif vc_gif [])] raw_opts = (fs1, Ok tt) /\
  frames_of [RChunk (ser_gif vc_gif [])] rgba_opts = (fs2, Err (DIo InvalidData)) /\ length fs2 = 1%nat /\
  rewritten 4 4 [1; 2; 3; 4; 5; 6] (rewrite_ops (RFinite 0) fs1) = Some file /\
  frames_of (bytewise file) rgba_opts = (fs2, Err (DIo InvalidData)).
Proof.
  eexists _, _, _. split; [vm_compute; reflexivity|]. split; [vm_compute; reflexivity|]. split; [reflexivity|]. split; [vm_compute; reflexivity|].
  vm_compute. reflexivity.
Qed.
