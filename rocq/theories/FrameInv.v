(** [FrameDecoder] decodes what the encoder packed and what the reader delivered unread. *)
From Verif Require Import Base Common Lzw Encoder Stream Converter Reader StreamInv Interlace Ranges ConvInv
  SpecGif SpecPixels Pixels DocBlocks PixelRead DocRead DocAll FrameDec EncProps.
Open Scope N_scope.

(** Decoding frames one after the other with the same [FrameDecoder] (a user, not in /repo). *)
Fixpoint decode_each (L : lzw_codec) (umax : N) (fd : fdec L) (fs : list frame) : fdec L * list frame * dres unit :=
  match fs with
  | [] => (fd, [], Ok tt)
  | f :: fs' =>
    let '(fd1, f1, x) := decode_lzw_encoded_frame L umax fd f in
    match x with
    | Ok _ => let '(fd2, l, y) := decode_each L umax fd1 fs' in (fd2, f1 :: l, y)
    | _ => (fd1, [], x)
    end
  end.

Section FI.
Variable L : lzw_codec.
Variable S : lzw_spec L.
Variable umax : N.
Hypothesis eager : lzw_eager S.
Hypothesis Humax : 2 ^ 32 - 1 <= umax.

Definition fdp (x : lzw_reader L * list N) (out : list N) : Prop :=
  lr_check L (fst x) = false /\
  exists z, lr_decoder L (fst x) = Some z /\ lz_pending S z (snd x) out /\ lz_size S z (lr_min_code_size L (fst x)).

Lemma fd_loop_px fuel : forall x out sl, fdp x out -> out <> [] -> sl <> [] -> (length (snd x) < fuel)%nat ->
  exists x' w out', fd_loop L fuel x (OSlice sl) = (x', OSlice (w ++ skipn (length w) sl), Ok (length w)) /\
    w <> [] /\ (length w <= length sl)%nat /\ out = w ++ out' /\ fdp x' out'.
Proof.
  induction fuel as [|fuel IH]; intros x out sl Hx Ho Hs Hf; [lia|].
  destruct Hx as (Hc & z & Hz & Hp & Hsz). destruct x as [r a]. cbn [fst snd] in *.
  cbn [fd_loop fst snd]. unfold lr_decode_bytes. rewrite Hz.
  destruct (lz_decode L z a (length sl)) as [z' [[n w] st]] eqn:E.
  pose proof (lz_is_safe L S _ _ _ _ _ _ _ E) as [Hn Hw].
  assert (Hcap : (0 < length sl)%nat) by (destruct sl; [congruence|cbn; lia]).
  pose proof Hp as Hp0. rewrite <- (app_nil_r a) in Hp0.
  destruct (lz_step L S _ _ _ _ _ _ _ _ _ Hp0 E) as (Hst & out' & Eo & Hp'). rewrite app_nil_r in Hp'.
  pose proof (lz_size_decode L S _ _ _ _ _ _ Hsz E) as Hsz'.
  assert (Hr : match st with
               | LzInvalid => (mk_lr L (Some z') (lr_min_code_size L r) (lr_check L r), OSlice (w ++ skipn (length w) sl), Err (DIo InvalidData))
               | LzNoProgress => if lr_check L r
                   then (mk_lr L (Some z') (lr_min_code_size L r) (lr_check L r), OSlice (w ++ skipn (length w) sl), Err (DIo InvalidData))
                   else (mk_lr L (Some z') (lr_min_code_size L r) (lr_check L r), OSlice (w ++ skipn (length w) sl), Ok (n, length w))
               | _ => (mk_lr L (Some z') (lr_min_code_size L r) (lr_check L r), OSlice (w ++ skipn (length w) sl), Ok (n, length w))
               end = (mk_lr L (Some z') (lr_min_code_size L r) (lr_check L r), OSlice (w ++ skipn (length w) sl), Ok (n, length w)) :> (_ * _ * dres (nat * nat))).
  { rewrite Hc. destruct st; try reflexivity. congruence. }
  rewrite Hr. clear Hr. cbn zeta.
  assert (Hnew : fdp (mk_lr L (Some z') (lr_min_code_size L r) (lr_check L r), skipn n a) out').
  { split; [exact Hc|]. exists z'. cbn [fst snd lr_decoder lr_min_code_size]. auto. }
  destruct w as [|b w].
  - cbn [length app] in *. cbn [Nat.ltb Nat.leb orb]. cbn [skipn].
    assert (Hna : (n < length a)%nat).
    { destruct (Nat.eq_dec n (length a)) as [->|]; [|lia]. exfalso. exact (eager _ _ _ _ _ _ _ _ Hp E Ho Hcap eq_refl eq_refl). }
    assert (Hn0 : (0 < n)%nat).
    { assert (Ha : a <> []) by (destruct a; [cbn in Hna; lia|discriminate]).
      assert (He : lz_ended L z = false).
      { destruct (lz_ended L z) eqn:Ee; [|reflexivity]. exfalso. apply Ho. exact (lz_ended_nil L S _ _ _ Hp Ee). }
      destruct (lz_live L S _ _ _ _ _ _ _ _ _ Hp0 E Ha Hcap He) as [H|[H|H]]; [exact H|congruence|].
      exfalso. apply Ho. rewrite Eo. exact (lz_ended_nil L S _ _ _ Hp' H). }
    destruct (Nat.eqb_spec n 0); [lia|].
    destruct (is_nil (skipn n a)) eqn:En.
    { apply is_nil_true in En. apply (f_equal (@length N)) in En. rewrite skipn_length in En. cbn in En. lia. }
    cbn [orb]. destruct (IH _ out' sl Hnew) as (x' & w & out2 & E2 & H2 & H3 & H4 & H5).
    { congruence. } { exact Hs. } { cbn [snd]. rewrite skipn_length. lia. }
    exists x', w, out2. rewrite E2. split; [reflexivity|]. split; [exact H2|]. split; [exact H3|]. split; [congruence|exact H5].
  - change (0 <? length (b :: w))%nat with true. cbn [orb].
    eexists _, (b :: w), out'. split; [reflexivity|]. split; [discriminate|]. split; [exact Hw|]. split; [exact Eo|exact Hnew].
Qed.
Lemma fd_callback_px x out sl : fdp x out -> out <> [] -> sl <> [] ->
  exists x' w out', fd_callback L x (OSlice sl) = (x', OSlice (w ++ skipn (length w) sl), Ok (length w)) /\
    w <> [] /\ (length w <= length sl)%nat /\ out = w ++ out' /\ fdp x' out'.
Proof. intros Hx Ho Hs. apply fd_loop_px; auto. Qed.

(** A decoder that has only been used for decoding so far. *)
Definition fd_fit (fd : fdec L) : Prop :=
  lr_check L (fd_lzw L fd) = false /\
  forall z, lr_decoder L (fd_lzw L fd) = Some z -> lz_size S z (lr_min_code_size L (fd_lzw L fd)).
Lemma fd_fit_new o : o_check_for_end_code o = false -> fd_fit (fd_new L o).
Proof. intros H. split; [exact H|]. discriminate. Qed.
Lemma fd_fit_gpal fd p : fd_fit fd -> fd_fit (fd_set_global_palette L fd p).
Proof. auto. Qed.

Theorem decode_frame_spec fd f m data out : fd_fit fd -> f_buffer f = m :: data -> 1 <= m <= 11 ->
  lz_pending S (lz_new L m) data out -> 0 < f_width f * f_height f <= N.of_nat (length out) ->
  N.of_nat (px_bytes (cv_color (fd_conv L fd))) * (f_width f * f_height f) <= umax / 2 ->
  fits (cv_limit (fd_conv L fd)) (N.of_nat (px_bytes (cv_color (fd_conv L fd))) * (f_width f * f_height f)) ->
  exists fd', decode_lzw_encoded_frame L umax fd f =
    (fd', set_interlaced (set_buffer f (shown (cv_color (fd_conv L fd)) (effective_palette (fd_conv L fd) f) (f_transparent f)
       (picture (N.to_nat (f_width f)) (N.to_nat (f_height f)) (f_interlaced f) out))) false, Ok tt) /\
    fd_fit fd' /\ same_settings (fd_conv L fd) (fd_conv L fd').
Proof.
  intros [Fc Fs] Eb Hm Hp Hpx Hu Hlim. set (c := fd_conv L fd) in *.
  set (w := N.to_nat (f_width f)). set (h := N.to_nat (f_height f)).
  assert (Hwh : (0 < w /\ 0 < h)%nat) by (unfold w, h; nia).
  unfold decode_lzw_encoded_frame, check_buffer_size, limit_buffer_size, buffer_size, line_length. fold c.
  set (n := N.of_nat (px_bytes (cv_color c) * (w * h))).
  assert (En : n = N.of_nat (px_bytes (cv_color c)) * (f_width f * f_height f)) by (unfold n, w, h; lia).
  rewrite <- En in Hu, Hlim.
  assert (Hnu : n <= umax).
  { pose proof (N.div_le_upper_bound umax 2 umax ltac:(lia) ltac:(lia)). lia. }
  assert (E1 : f_width f * f_height f * match cv_color c with CRgba => 4 | CIndexed => 1 end = n).
  { rewrite En. unfold px_bytes. destruct (cv_color c); lia. }
  assert (E2 : match cv_color c with CRgba => f_width f * 4 | CIndexed => f_width f end * f_height f = n).
  { rewrite En. unfold px_bytes. destruct (cv_color c); lia. }
  rewrite E1, E2. destruct (N.leb_spec n umax); [|lia].
  assert (E3 : match cv_limit c with Some l => if l <? n then None else Some n | None => Some n end = Some n).
  { destruct (cv_limit c) as [l|]; [|reflexivity]. cbn [fits] in Hlim. destruct (N.ltb_spec l n); [lia|reflexivity]. }
  rewrite E3, N.eqb_refl. cbn zeta. destruct (N.ltb_spec (umax / 2) n); [lia|].
  unfold decode_lzw_encoded_frame_into_buffer. rewrite Eb.
  assert (Hrs : exists r, lr_reset L (fd_lzw L fd) m = (r, Ok tt) /\ fdp (r, data) out).
  { unfold lr_reset, check_code_size.
    assert (Hck : negb ((11 <? m) || (m <? 1)) = true).
    { destruct (N.ltb_spec 11 m); [lia|]. destruct (N.ltb_spec m 1); [lia|]. reflexivity. }
    rewrite Hck. destruct (lr_decoder L (fd_lzw L fd)) as [z|] eqn:Ez.
    - destruct (N.eqb_spec (lr_min_code_size L (fd_lzw L fd)) m) as [Em|Em]; cbn [negb].
      + eexists. split; [reflexivity|]. split; [exact Fc|]. exists (lz_reset L z).
        cbn [fst snd lr_decoder lr_min_code_size]. split; [reflexivity|].
        pose proof (Fs z eq_refl) as Hz. split; [|apply lz_size_reset; exact Hz].
        rewrite Em in Hz. exact (lz_pending_reset L S _ _ _ _ Hz Hp).
      + eexists. split; [reflexivity|]. split; [exact Fc|]. exists (lz_new L m). cbn [fst snd lr_decoder lr_min_code_size].
        split; [reflexivity|]. split; [exact Hp|apply lz_size_new].
    - eexists. split; [reflexivity|]. split; [exact Fc|]. exists (lz_new L m). cbn [fst snd lr_decoder lr_min_code_size].
      split; [reflexivity|]. split; [exact Hp|apply lz_size_new]. }
  destruct Hrs as (r & Er & Hr). rewrite Er.
  destruct (into_spec umax (lzw_reader L * list N) (fd_callback L) fdp fd_callback_px (r, data) c f (repeat 0 (N.to_nat n)) out w h)
    as ([r1 d1] & c1 & Ec & Hs & Hp1); try reflexivity; try apply Hwh.
  { exact Hr. } { unfold w, h. lia. } { rewrite repeat_length. unfold n. lia. } { unfold len. rewrite repeat_length. lia. }
  fold c. rewrite Ec. exists (mk_fd L r1 c1). split; [|split; [|exact Hs]].
  - f_equal. f_equal. f_equal. f_equal.
    rewrite skipn_repeat. replace (N.to_nat n - px_bytes (cv_color c) * (w * h))%nat with O by (unfold n; lia).
    cbn [repeat]. rewrite app_nil_r. apply shown_zero. destruct (cv_color c) eqn:Eco; [left|right; reflexivity].
    intros k Hk. rewrite picture_length in Hk by (unfold w, h; lia).
    assert ((4 * k + 4 <= N.to_nat n)%nat) by (unfold n; cbn [px_bytes]; lia).
    unfold cell. rewrite skipn_repeat, firstn_repeat by lia. reflexivity.
  - destruct Hp1 as (C1 & z & C2 & C3 & C4). cbn [fst snd] in *. split; cbn [fd_lzw]; [exact C1|].
    intros z' Hz'. rewrite C2 in Hz'. injection Hz' as <-. exact C4.
Qed.

(** What [make_lzw_pre_encoded] packed. *)
Theorem decode_pre_encoded fd f : fd_fit fd -> bytes_ok (f_buffer f) ->
  0 < f_width f * f_height f <= N.of_nat (length (f_buffer f)) ->
  N.of_nat (px_bytes (cv_color (fd_conv L fd))) * (f_width f * f_height f) <= umax / 2 ->
  fits (cv_limit (fd_conv L fd)) (N.of_nat (px_bytes (cv_color (fd_conv L fd))) * (f_width f * f_height f)) ->
  exists fd', decode_lzw_encoded_frame L umax fd (make_lzw_pre_encoded L f) =
    (fd', set_interlaced (set_buffer f (shown (cv_color (fd_conv L fd)) (effective_palette (fd_conv L fd) f) (f_transparent f)
       (picture (N.to_nat (f_width f)) (N.to_nat (f_height f)) (f_interlaced f) (f_buffer f)))) false, Ok tt) /\
    fd_fit fd' /\ same_settings (fd_conv L fd) (fd_conv L fd').
Proof.
  intros Hfd Hb Hpx Hu Hlim. destruct (code_size_rule (f_buffer f) Hb) as (Hm & Hall & _).
  assert (Eb : f_buffer (make_lzw_pre_encoded L f) = min_code_size (f_buffer f) :: lz_encode L (min_code_size (f_buffer f)) (f_buffer f)).
  { unfold make_lzw_pre_encoded, lzw_encode. cbn [f_buffer set_buffer app]. rewrite Nat.add_comm. cbn [Nat.add firstn]. now rewrite firstn_all. }
  destruct (decode_frame_spec fd (make_lzw_pre_encoded L f) _ _ (f_buffer f) Hfd Eb) as (fd' & E & H1 & H2).
  - lia.
  - apply (lz_encode_pending L S); assumption.
  - exact Hpx.
  - exact Hu.
  - exact Hlim.
  - exists fd'. split; [|auto]. rewrite E. reflexivity.
Qed.

(** Frames read unread from a file. *)
Definition fd_for (o : options) (g : gif) (fd : fdec L) : Prop :=
  fd_fit fd /\ cv_color (fd_conv L fd) = o_color o /\ cv_limit (fd_conv L fd) = o_limit o /\ cv_gpal (fd_conv L fd) = gif_palette g.

Theorem decode_raw_seen o g fd ci out : fd_for o g fd -> 1 <= im_mcs (snd ci) <= 11 -> holds L S umax o ci out ->
  exists fd', decode_lzw_encoded_frame L umax fd (raw_seen ci) = (fd', seen o g ci out, Ok tt) /\ fd_for o g fd'.
Proof.
  intros (Hf & Hc & Hl & Hg) Hm (H1 & H2 & H3 & H4). destruct ci as [c i]. cbn [fst snd] in *.
  unfold frame_bytes, im_pixels in *.
  destruct (decode_frame_spec fd (raw_seen (c, i)) (im_mcs i) (payload (im_subs i)) out Hf eq_refl Hm H1) as (fd' & E & F & Hs).
  - cbn [raw_seen meta_frame f_width f_height fst snd]. lia.
  - cbn [raw_seen meta_frame f_width f_height fst snd]. rewrite Hc. lia.
  - cbn [raw_seen meta_frame f_width f_height fst snd]. rewrite Hc, Hl.
    replace (N.of_nat (px_bytes (o_color o)) * (im_w i * im_h i)) with (N.of_nat (px_bytes (o_color o) * (N.to_nat (im_w i) * N.to_nat (im_h i)))) by lia.
    exact H4.
  - exists fd'. split.
    + rewrite E. rewrite Hc. unfold raw_seen, seen, im_picture, effective_palette, pal_of.
      cbn [meta_frame f_palette f_transparent f_width f_height f_interlaced fst snd set_interlaced set_buffer
           f_delay f_dispose f_needs_user_input f_top f_left f_buffer]. rewrite Hg. unfold gif_palette.
      destruct (has_table (im_flags i)); [reflexivity|]. destruct (has_table (g_flags g)); reflexivity.
    + destruct Hs as (S1 & S2 & S3). split; [exact F|]. split; [congruence|]. split; congruence.
Qed.

Theorem decode_each_seen o g fd cis outs : fd_for o g fd -> Forall (fun ci => 1 <= im_mcs (snd ci) <= 11) cis ->
  Forall2 (holds L S umax o) cis outs ->
  exists fd', decode_each L umax fd (map raw_seen cis) = (fd', all_seen o g cis outs, Ok tt).
Proof.
  intros Hf Hm H. revert fd Hf Hm. induction H as [|ci out cis outs H1 H2 IH]; intros fd Hf Hm.
  - exists fd. reflexivity.
  - inversion Hm as [|? ? M1 M2]; subst. destruct (decode_raw_seen o g fd ci out Hf M1 H1) as (fd1 & E1 & F1).
    destruct (IH fd1 F1 M2) as (fd2 & E2). exists fd2. cbn [map decode_each]. rewrite E1, E2. reflexivity.
Qed.
End FI.
