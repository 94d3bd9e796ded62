(** Properties C66 and C67: callers who use the encoder's writer, and encoders whose [Drop] panics. *)
From Verif Require Import Base Common Lzw Encoder EncoderExt Stream Reader LzwRef LzwRefSpec SpecGif SpecEnc SpecRound EncLin
  EncSession DocAll Validate Refuted SpecUser EncUser PropEnc PropDec.
Open Scope N_scope.

(** * C66: [get_ref] and [get_mut] *)

(** ** Whatever the caller does to the writer, each call behaves as specified on the writer as it was left *)
Theorem C66_any : forall L dbg ops e w gp e' rs, e_w e = Some w -> e_global_palette e = gp -> Forall uop_rng ops ->
  run_user L dbg e ops = (e', rs) ->
  exists w', get_ref e' = Ok w' /\ e_w e' = Some w' /\ e_global_palette e' = gp /\ e_width e' = e_width e /\ e_height e' = e_height e /\
    plays L dbg gp w ops w' rs.
Proof. exact user_plays. Qed.
Print Assumptions C66_any.

(** ** Blocks written by the caller become blocks of the file *)
Theorem C66_file : forall L dbg w sw sh pal ops e1 e2 rs e3 w3, u16_ok sw -> u16_ok sh -> Forall eop_rng ops ->
  Forall harmless (w_plan w) ->
  encoder_new w sw sh pal = (e1, Ok tt) -> run_user L dbg e1 (map as_user ops) = (e2, rs) ->
  Forall (fun r => r = Ok tt) rs -> into_inner e2 = (e3, Ok w3) ->
  w_out w3 = w_out w ++ ser_gif (user_gif L sw sh pal ops) [].
Proof. exact user_file. Qed.
Theorem C66_read : forall L (S : lzw_spec L) umax, 2 ^ 32 - 1 <= umax ->
  forall o w sw sh pal dbg ops e1 e2 rs e3 w3 tl src outs n, u16_ok sw -> u16_ok sh -> Forall eop_rng ops ->
  Forall harmless (w_plan w) ->
  encoder_new w sw sh pal = (e1, Ok tt) -> run_user L dbg e1 (map as_user ops) = (e2, rs) ->
  Forall (fun r => r = Ok tt) rs -> into_inner e2 = (e3, Ok w3) -> w_out w = [] ->
  gif_ok o (user_gif L sw sh pal ops) -> delivers src (w_out w3 ++ tl) ->
  o_skip_frame_decoding o = false -> o_check_for_end_code o = false ->
  Forall2 (holds L S umax o) (gif_images (user_gif L sw sh pal ops)) outs -> (length outs < n)%nat ->
  exists d d', read_info L src o = Ok d /\
    read_all L umax n d = (d', all_seen o (user_gif L sw sh pal ops) (gif_images (user_gif L sw sh pal ops)) outs, Ok false) /\
    rd_rest L (dc_rd L d') = tl.
Proof. exact user_read. Qed.
Print Assumptions C66_file.
Print Assumptions C66_read.

(** ** A case: the comment by [write_raw_extension], the rest by hand *)
Definition um_ops : list eop :=
  [ECall (ORawExt 0xFE [[72]; [105]]); EBlocks [BExt 0xFF dx_loop; BExt 0xF9 [[9; 7; 0; 2]]; BImg dx_img1]; EBlocks [BImg dx_img2]].
Definition um_gif : gif := user_gif lzw_ref 4 4 [1; 2; 3; 4; 5; 6] um_ops.
Example C66_case : exists e1 e2 rs e3 w3,
  encoder_new fresh 4 4 [1; 2; 3; 4; 5; 6] = (e1, Ok tt) /\ run_user lzw_ref true e1 (map as_user um_ops) = (e2, rs) /\
  Forall (fun r => r = Ok tt) rs /\ into_inner e2 = (e3, Ok w3) /\ Forall harmless (w_plan fresh) /\ Forall eop_rng um_ops /\
  gif_ok rgba_opts um_gif /\ Forall2 (holds lzw_ref lzw_ref_spec umax64 rgba_opts) (gif_images um_gif) dx_outs.
Proof.
  eexists _, _, _, _, _. split; [vm_compute; reflexivity|]. split; [vm_compute; reflexivity|]. split; [repeat constructor|].
  split; [vm_compute; reflexivity|]. split; [constructor|]. split; [repeat constructor|]. split.
  - destruct (dx_ok rgba_opts ltac:(auto)) as (H1 & H2 & H3 & H4 & H5 & H6 & H7 & H8 & H9).
    split; [exact H1|]. split; [exact H2|]. split; [exact H3|]. split; [reflexivity|]. split; [exact H5|].
    split; [exact H6|]. split; [discriminate|]. split; [exact H8|exact H9].
  - exact (dx_holds rgba_opts ltac:(auto)).
Qed.

(** * C67: [Drop] without the feature [raii_no_panic] *)

(** ** The writer gets the same bytes as with the feature *)
Theorem C67_drop : forall e w, e_w e = Some w ->
  exists w', e_w (encoder_drop e) = Some w' /\
    ((encoder_drop_strict e = (encoder_drop e, Ok tt) /\ w_out w' = w_out w ++ [0x3B] /\
      exists used, w_plan w = used ++ w_plan w' /\ Forall harmless used) \/
     (encoder_drop_strict e = (encoder_drop e, Panic) /\ w_out w' = w_out w /\
      exists used a k, w_plan w = used ++ a :: w_plan w' /\ Forall harmless used /\ fault a = Some k)).
Proof. exact strict_drop_result. Qed.
Print Assumptions C67_drop.

(** ** [into_inner] and [new]: an error is returned if the trailer gets through in [drop], else they panic *)
Theorem C67_into_inner : forall e w, e_w e = Some w ->
  fst (into_inner_strict e) = fst (into_inner e) /\
  match snd (into_inner e) with
  | Ok v => snd (into_inner_strict e) = Ok v
  | x => exists w', e_w (fst (into_inner e)) = Some w' /\
    ((w_out w' = w_out w ++ [0x3B] /\ snd (into_inner_strict e) = x) \/
     (w_out w' = w_out w /\ snd (into_inner_strict e) = Panic))
  end.
Proof. exact strict_into_inner. Qed.
Theorem C67_new : forall w width height pal, u16_ok width -> u16_ok height ->
  fst (encoder_new_strict w width height pal) = fst (encoder_new w width height pal) /\
  match snd (encoder_new w width height pal) with
  | Ok v => snd (encoder_new_strict w width height pal) = Ok v
  | x => exists w' bs rest, e_w (fst (encoder_new w width height pal)) = Some w' /\
    rest <> [] /\ bs ++ rest = head_bytes width height pal /\
    ((w_out w' = w_out w ++ bs ++ [0x3B] /\ snd (encoder_new_strict w width height pal) = x) \/
     (w_out w' = w_out w ++ bs /\ snd (encoder_new_strict w width height pal) = Panic))
  end.
Proof. exact strict_new. Qed.
Print Assumptions C67_into_inner.
Print Assumptions C67_new.

(** ** Without faults of the writer there is no difference *)
Theorem C67_harmless : forall w width height pal e1 x1 e v, u16_ok width -> u16_ok height -> Forall harmless (w_plan w) ->
  encoder_new w width height pal = (e1, x1) -> e_w e = Some v -> Forall harmless (w_plan v) ->
  encoder_new_strict w width height pal = (e1, x1) /\
  into_inner_strict e = into_inner e /\ encoder_drop_strict e = (encoder_drop e, Ok tt).
Proof. exact strict_harmless. Qed.
Print Assumptions C67_harmless.

(** ** The error of a writer that fails twice in a row never reaches the caller of [into_inner] *)
Theorem C67_persistent : forall e w a1 a2 p k1 k2, e_w e = Some w -> w_plan w = a1 :: a2 :: p ->
  fault a1 = Some k1 -> fault a2 = Some k2 ->
  snd (into_inner e) = Err (EIo k1) /\ snd (into_inner_strict e) = Panic.
Proof. exact strict_persistent. Qed.
Print Assumptions C67_persistent.

(** "Errors of the writer are returned as errors" does not hold without the feature. *)
Theorem C67_error_refuted : exists e, snd (into_inner e) = Err (EIo (OtherIo 7)) /\ snd (into_inner_strict e) = Panic.
Proof.
  exists (mk_enc (Some (mk_writer [1] [WFail 7; WFail 7])) true 1 1 []).
  eapply (strict_persistent _ _ (WFail 7) (WFail 7) []); reflexivity.
Qed.
Print Assumptions C67_error_refuted.

(** Cases: a writer that recovers, a writer that does not, a palette of 257 colours on a broken writer. *)
Example C67_case :
  snd (into_inner_strict (mk_enc (Some (mk_writer [1] [WIntr; WFail 7; WAccept 1])) true 1 1 [])) = Err (EIo (OtherIo 7)) /\
  out_of (fst (into_inner_strict (mk_enc (Some (mk_writer [1] [WIntr; WFail 7; WAccept 1])) true 1 1 []))) = [1; 0x3B] /\
  snd (encoder_new (mk_writer [] [WFail 7]) 1 1 (repeat 0 771)) = Err (EFormat TooManyColors) /\
  snd (encoder_new_strict (mk_writer [] [WFail 7]) 1 1 (repeat 0 771)) = Panic /\
  snd (encoder_new_strict (mk_writer [] [WAccept 3; WFail 7; WIntr; WAccept 1]) 1 1 [1; 2; 3]) = Err (EIo (OtherIo 7)) /\
  snd (encoder_drop_strict (mk_enc (Some (mk_writer [1] [WAccept 0])) true 1 1 [])) = Panic.
Proof. vm_compute. repeat split; reflexivity. Qed.
