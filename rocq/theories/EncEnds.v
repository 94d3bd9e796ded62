(** The files of the encoder have end codes. *)
From Verif Require Import Base Common Lzw LzwEnds Encoder SpecGif SpecEnc EncSpec EncSession RoundTrip.
Open Scope N_scope.

Section EE.
Variables (L : lzw_codec) (S : lzw_spec L) (Y : lzw_ends S).
Hypothesis marks : lzw_marks Y.

(** Frames encoded beforehand come from [Frame::make_lzw_pre_encoded]. *)
Definition made (o : enc_op) : Prop :=
  match o with OWritePre f' => exists f, bytes_ok (f_buffer f) /\ f' = make_lzw_pre_encoded L f | _ => True end.
Definition is_image (b : blk) : bool := match b with BImg _ => true | _ => false end.
Definition is_write (o : enc_op) : bool := match o with OWriteFrame _ | OWritePre _ => true | _ => false end.
Definition marked (b : blk) : Prop := match b with BImg i => lz_ends Y (lz_new L (im_mcs i)) (payload (im_subs i)) | _ => True end.

Lemma image_marked f g : bytes_ok (f_buffer f) ->
  marked (BImg (image_of g (code_bits (f_buffer f)) (lz_encode L (code_bits (f_buffer f)) (f_buffer f)))).
Proof.
  intros Hb. cbn [marked]. rewrite payload_image. cbn [im_mcs image_of].
  apply marks; [pose proof (code_bits_range (f_buffer f)); lia|]. now apply code_bits_fit.
Qed.
Lemma repeat_marked r : Forall marked (repeat_blks r) /\ filter is_image (repeat_blks r) = [].
Proof. destruct r as [[|p]|]; (split; [repeat constructor|reflexivity]). Qed.
Lemma op_marked o : op_rng o -> made o -> Forall marked (op_blocks L o) /\
  length (filter is_image (op_blocks L o)) = length (filter is_write [o]).
Proof.
  intros Hr Hm. destruct o as [r|f|f|l data|[fl de t|r]]; cbn [op_blocks].
  - destruct (repeat_marked r) as [H1 H2]. rewrite H2. split; [exact H1|reflexivity].
  - split; [|reflexivity]. constructor; [exact I|]. constructor; [|constructor]. apply image_marked. apply Hr.
  - destruct Hm as (f0 & Hb & ->). 
    assert (Eb : f_buffer (make_lzw_pre_encoded L f0) = code_bits (f_buffer f0) :: lz_encode L (code_bits (f_buffer f0)) (f_buffer f0)) by (apply lzw_encode_nil; exact Hb).
    rewrite Eb.
    split; [|reflexivity]. constructor; [exact I|]. constructor; [|constructor]. now apply image_marked.
  - split; [constructor; [exact I|constructor]|reflexivity].
  - split; [constructor; [exact I|constructor]|reflexivity].
  - destruct (repeat_marked r) as [H1 H2]. rewrite H2. split; [exact H1|reflexivity].
Qed.
Lemma ops_marked ops : Forall op_rng ops -> Forall made ops -> Forall marked (flat_map (op_blocks L) ops) /\
  length (filter is_image (flat_map (op_blocks L) ops)) = length (filter is_write ops).
Proof.
  induction ops as [|o ops IH]; intros Hr Hm; [split; [constructor|reflexivity]|].
  inversion Hr; inversion Hm; subst. destruct IH as [I1 I2]; [assumption|assumption|]. destruct (op_marked o) as [O1 O2]; [assumption|assumption|].
  cbn [flat_map]. split; [apply Forall_app; split; assumption|].
  rewrite filter_app, app_length, O2, I2. cbn [filter]. destruct (is_write o); reflexivity.
Qed.
Theorem written_marked dbg w width height pal ops e1 e2 e3 w3 : u16_ok width -> u16_ok height -> Forall op_rng ops -> Forall made ops ->
  encoder_new w width height pal = (e1, Ok tt) -> run_ops L dbg e1 ops = (e2, Ok tt) -> into_inner e2 = (e3, Ok w3) ->
  exists g, w_out w3 = w_out w ++ ser_gif g [] /\ length (filter is_image (g_blocks g)) = length (filter is_write ops) /\
    Forall marked (g_blocks g).
Proof.
  intros Rw Rh Ro Hm H1 H2 H3. destruct (session_ok L dbg w width height pal ops e1 e2 e3 w3 Rw Rh Ro H1 H2 H3) as (Hout & _).
  exists (enc_gif L width height pal ops). destruct (ops_marked ops Ro Hm) as [M1 M2]. split; [exact Hout|]. split; [exact M2|exact M1].
Qed.
End EE.
