(** Reading a file without decompressing it, and using the frames: decompressing them later, or
    writing them to another file. *)
From Verif Require Import Base Common Lzw Encoder Stream Converter Reader DecoderSafe CanonReader SpecGif SpecPixels
  SpecEnc SpecRound DocBlocks DocRead DocAll EncLin EncSpec EncSession RoundTrip FrameDec FrameInv.
Open Scope N_scope.

(** A [FrameDecoder] prepared for a file: user code, not in /repo. *)
Definition fd_for_file (L : lzw_codec) (o : options) (p : option (list N)) : fdec L :=
  match p with Some p => fd_set_global_palette L (fd_new L o) p | None => fd_new L o end.
(** Writing raw frames to a new file, likewise. *)
Definition rewrite_ops (r : repeat_t) (fs : list frame) : list enc_op := OSetRepeat r :: map OWritePre fs.
Definition or_empty (p : option (list N)) : list N := match p with Some p => p | None => [] end.

(** ** Tables read from a file have full size *)
Lemma full_table flags t : table_ok flags t -> has_table flags = true ->
  exists k, k <= 7 /\ colors t = N.to_nat (2 ^ (k + 1)) /\ length t = (3 * colors t)%nat /\ bytes_ok t.
Proof.
  intros [H1 H2] H. rewrite H in H2. exists (flags mod 8). unfold table_colors in H2.
  split; [lia|]. set (q := 2 ^ (flags mod 8 + 1)) in *. unfold colors.
  assert (E : length t = (N.to_nat q * 3)%nat) by lia. rewrite E, Nat.div_mul by lia. repeat split; [lia|exact H1].
Qed.
Lemma size_field_cases k : k <= 7 -> k = 0 \/ k = 1 \/ k = 2 \/ k = 3 \/ k = 4 \/ k = 5 \/ k = 6 \/ k = 7.
Proof. lia. Qed.
Lemma size_field_pow k : k <= 7 -> size_field (N.to_nat (2 ^ (k + 1))) = k.
Proof. intros H. destruct (size_field_cases k H) as [->|[->|[->|[->|[->|[->|[->| ->]]]]]]]; vm_compute; reflexivity. Qed.
Lemma padded_table flags t : table_ok flags t -> has_table flags = true -> padded t = t /\ (colors t <= 256)%nat /\ usable t = true.
Proof.
  intros H1 H2. destruct (full_table flags t H1 H2) as (k & Hk & Hc & Hl & _). unfold padded. rewrite <- Hl, firstn_all, Hc, size_field_pow by exact Hk.
  rewrite Nat.sub_diag, Nat.mul_0_r, app_nil_r. split; [reflexivity|]. unfold usable. rewrite Hc.
  destruct (size_field_cases k Hk) as [->|[->|[->|[->|[->|[->|[->| ->]]]]]]]; split; try reflexivity; vm_compute; lia.
Qed.

(** ** Ranges of what a file says *)
Definition ctl_rng (c : ctl) : Prop := u16_ok (c_delay c) /\ forall t, c_transparent c = Some t -> byte_ok t.
Lemma nth_byte p n : bytes_ok p -> byte_ok (nth n p 0).
Proof.
  intros H. destruct (Nat.lt_ge_cases n (length p)); [exact (proj1 (Forall_forall _ _) H _ (nth_In _ _ H0))|].
  rewrite nth_overflow by assumption. unfold byte_ok. lia.
Qed.
Lemma subs_payload subs : subs_ok subs -> bytes_ok (payload subs) /\ payload subs <> [].
Proof.
  intros [H1 H2]. split.
  - unfold payload. clear H1. induction H2 as [|b subs [_ Hb] _ IH]; [constructor|]. cbn [concat]. now apply Forall_app.
  - destruct H2 as [|b subs [Hb _] _]; [congruence|]. unfold payload. cbn [concat]. destruct b; [cbn in Hb; lia|discriminate].
Qed.
Lemma ctl_of_rng p : bytes_ok p -> ctl_rng (ctl_of p).
Proof.
  intros H. pose proof (nth_byte p 1 H) as H1. pose proof (nth_byte p 2 H) as H2. pose proof (nth_byte p 3 H) as H3.
  unfold byte_ok in *. split; cbn [ctl_of c_delay c_transparent].
  - unfold u16_ok. lia.
  - intros t. destruct (N.odd _); [|discriminate]. intros [= <-]. exact H3.
Qed.
Lemma controlled_rng o g bs : Forall (blk_ok o g) bs -> forall c, ctl_rng c ->
  Forall (fun ci => ctl_rng (fst ci) /\ img_ok o g (snd ci)) (controlled c bs).
Proof.
  induction 1 as [|b bs Hb _ IH]; intros c Hc; [constructor|]. destruct b as [l subs|i|t subs]; cbn [controlled]; [| |apply IH; exact Hc].
  - apply IH. destruct (l =? 0xF9); [|exact Hc]. apply ctl_of_rng. apply subs_payload. apply Hb.
  - constructor; [split; [exact Hc|exact Hb]|]. apply IH. split; [reflexivity|discriminate].
Qed.
Lemma images_rng o g : gif_ok o g -> Forall (fun ci => ctl_rng (fst ci) /\ img_ok o g (snd ci)) (gif_images g).
Proof.
  intros (_ & _ & _ & _ & _ & _ & _ & H & _). apply controlled_rng; [exact H|]. split; [reflexivity|discriminate].
Qed.
Lemma loop_rng p r : bytes_ok p -> loop_of p = Some r -> repeat_rng r.
Proof.
  intros H. pose proof (nth_byte p 12 H) as H1. pose proof (nth_byte p 13 H) as H2. unfold byte_ok in *.
  unfold loop_of. assert (Hn : nth 12 p 0 + 256 * nth 13 p 0 < 65536) by lia.
  generalize dependent (nth 12 p 0 + 256 * nth 13 p 0). intros n Hn. cbn zeta. destruct (_ && _); [|discriminate]. intros [= <-].
  destruct (n =? 0); [exact I|exact Hn].
Qed.
Lemma repeat_of_rng o g : gif_ok o g -> repeat_rng (gif_repeat g).
Proof.
  intros (_ & _ & _ & _ & _ & _ & _ & H & _). unfold gif_repeat. assert (R : repeat_rng (RFinite 0)) by reflexivity.
  revert R. generalize (RFinite 0). induction H as [|b bs Hb _ IH]; intros r R; [exact R|]. destruct b as [l subs|i|t subs]; cbn [loops]; [|exact R|exact R].
  apply IH. destruct (l =? 0xFF); [|exact R]. destruct (loop_of (payload subs)) as [x|] eqn:E; [|exact R].
  eapply loop_rng; [|exact E]. apply subs_payload. apply Hb.
Qed.

Lemma forall2_length {A B} (R : A -> B -> Prop) l l' : Forall2 R l l' -> length l = length l'.
Proof. induction 1; [reflexivity|]. cbn [length]. now f_equal. Qed.

Section RW.
Variable L : lzw_codec.
Variable S : lzw_spec L.
Variable umax : N.
Hypothesis Humax : 2 ^ 32 - 1 <= umax.

(** ** Decompressing later *)
Theorem unread_decodes (eager : lzw_eager S) o1 o2 g tl1 tl2 src1 src2 outs n :
  gif_ok o1 g -> gif_ok o2 g -> delivers src1 (ser_gif g tl1) -> delivers src2 (ser_gif g tl2) ->
  o_skip_frame_decoding o1 = true -> o_skip_frame_decoding o2 = false -> o_check_for_end_code o2 = false ->
  Forall (fun ci => fits (o_limit o1) (1 + len (payload (im_subs (snd ci))))) (gif_images g) ->
  Forall2 (holds L S umax o2) (gif_images g) outs -> (length outs < n)%nat ->
  exists d1 d1' d2 d2' raw fs fd, read_info L src1 o1 = Ok d1 /\ read_all L umax n d1 = (d1', raw, Ok false) /\
    read_info L src2 o2 = Ok d2 /\ read_all L umax n d2 = (d2', fs, Ok false) /\ length fs = length outs /\
    decode_each L umax (fd_for_file L o2 (dec_global_palette L d1)) raw = (fd, fs, Ok tt).
Proof.
  intros G1 G2 D1 D2 K1 K2 K3 Hf Ho Hn. pose proof (forall2_length _ _ _ Ho) as Hlen.
  destruct (file_raw L S umax Humax o1 g tl1 src1 n G1 D1 K1 Hf ltac:(lia)) as (d1 & d1' & E1 & R1 & _).
  destruct (file_info L S umax Humax o1 g tl1 src1 G1 D1) as (d1b & E1b & _ & _ & Ip & _).
  rewrite E1 in E1b. injection E1b as <-.
  destruct (file_frames L S umax Humax o2 g tl2 src2 outs n G2 D2 K2 K3 Ho Hn) as (d2 & d2' & E2 & R2 & _).
  assert (Hfd : fd_for L S o2 g (fd_for_file L o2 (dec_global_palette L d1))).
  { rewrite Ip. unfold gif_palette. destruct (has_table (g_flags g)) eqn:Et.
    - split; [apply fd_fit_gpal, fd_fit_new; exact K3|]. split; [reflexivity|]. split; [reflexivity|].
      cbn [fd_for_file fd_set_global_palette fd_conv]. unfold set_global_palette, gif_palette. rewrite Et. cbn [cv_gpal].
      destruct G2 as (_ & _ & _ & _ & _ & Gt & _). destruct Gt as [_ Gt]. rewrite Et in Gt.
      assert (0 < table_colors (g_flags g)) by (unfold table_colors; apply N.neq_0_lt_0, N.pow_nonzero; lia).
      destruct (g_gct g); [cbn [length] in Gt; lia|reflexivity].
    - split; [apply fd_fit_new; exact K3|]. split; [reflexivity|]. split; [reflexivity|].
      cbn [fd_for_file fd_new fd_conv conv_new cv_gpal]. unfold gif_palette. now rewrite Et. }
  destruct (decode_each_seen L S umax eager Humax o2 g _ (gif_images g) outs Hfd) as (fd & Ed).
  { pose proof (images_rng o2 g G2) as H. eapply Forall_impl; [|exact H]. intros ci [_ Hi]. apply Hi. }
  { exact Ho. }
  exists d1, d1', d2, d2', (map raw_seen (gif_images g)), (all_seen o2 g (gif_images g) outs), fd.
  repeat split; auto. unfold all_seen. rewrite map_length, combine_length. lia.
Qed.

(** ** Writing them again *)
Lemma raw_rng o g ci : ctl_rng (fst ci) /\ img_ok o g (snd ci) -> frame_rng (raw_seen ci).
Proof.
  intros [[C1 C2] I]. destruct ci as [c i]. cbn [fst snd] in *.
  destruct I as (I1 & I2 & I3 & I4 & I5 & I6 & I7 & I8 & _). destruct (subs_payload _ I8) as [P1 _].
  unfold frame_rng, raw_seen.
  cbn [meta_frame fst snd f_delay f_left f_top f_width f_height f_transparent f_palette f_buffer].
  repeat (split; [assumption|]). split.
  - intros p. destruct (has_table (im_flags i)); [|discriminate]. intros [= <-]. apply I6.
  - constructor; [unfold byte_ok; lia|exact P1].
Qed.
Lemma raw_wanted o g i c out gpal : img_ok o g i -> (has_table (g_flags g) = true -> gpal = g_gct g) ->
  table_ok (g_flags g) (g_gct g) ->
  wanted (o_color o) gpal (raw_seen (c, i)) out = seen o g (c, i) out.
Proof.
  intros (_ & _ & _ & _ & _ & I6 & _ & _ & _ & It) Hg Gt. unfold wanted, seen, raw_seen, im_picture, pal_of, meta_frame.
  cbn [meta_frame fst snd f_delay f_dispose f_transparent f_needs_user_input f_top f_left f_width f_height f_interlaced f_palette].
  destruct (has_table (im_flags i)) eqn:Et.
  - destruct (padded_table _ _ I6 Et) as [-> _]. reflexivity.
  - destruct It as [It|It]; [discriminate|]. rewrite It. rewrite (Hg It). destruct (padded_table _ _ Gt It) as [-> _]. reflexivity.
Qed.

Theorem rewrite_file o1 o2 g tl1 tl2 src1 src2 outs n :
  gif_ok o1 g -> gif_ok o2 g -> delivers src1 (ser_gif g tl1) -> delivers src2 (ser_gif g tl2) ->
  o_skip_frame_decoding o1 = true -> o_skip_frame_decoding o2 = false -> o_check_for_end_code o2 = false ->
  Forall (fun ci => fits (o_limit o1) (1 + len (payload (im_subs (snd ci))))) (gif_images g) ->
  Forall2 (holds L S umax o2) (gif_images g) outs -> (length outs < n)%nat ->
  gif_images g <> [] -> Forall (fun ci => 2 <= im_mcs (snd ci)) (gif_images g) -> fits (o_limit o2) 15 ->
  exists d1 d1' d2 d2' raw fs, read_info L src1 o1 = Ok d1 /\ read_all L umax n d1 = (d1', raw, Ok false) /\
    read_info L src2 o2 = Ok d2 /\ read_all L umax n d2 = (d2', fs, Ok false) /\ length fs = length outs /\
    forall w dbg, Forall harmless (w_plan w) -> w_out w = [] ->
    exists e1 e2 e3 w3, encoder_new w (dec_width L d1) (dec_height L d1) (or_empty (dec_global_palette L d1)) = (e1, Ok tt) /\
      run_ops L dbg e1 (rewrite_ops (dec_repeat L d1) raw) = (e2, Ok tt) /\ into_inner e2 = (e3, Ok w3) /\
      forall src3 tl3, delivers src3 (w_out w3 ++ tl3) ->
      exists d3 d3', read_info L src3 o2 = Ok d3 /\ read_all L umax n d3 = (d3', fs, Ok false) /\
        dec_width L d3 = dec_width L d2 /\ dec_height L d3 = dec_height L d2 /\ dec_repeat L d3 = dec_repeat L d2 /\
        (dec_global_palette L d2 <> None -> dec_global_palette L d3 = dec_global_palette L d2).
Proof.
  intros G1 G2 D1 D2 K1 K2 K3 Hf Ho Hn Hne Hm Hlim. pose proof (forall2_length _ _ _ Ho) as Hlen.
  destruct (file_raw L S umax Humax o1 g tl1 src1 n G1 D1 K1 Hf ltac:(lia)) as (d1 & d1' & E1 & R1 & _).
  destruct (file_info L S umax Humax o1 g tl1 src1 G1 D1) as (d1b & E1b & Iw & Ih & Ip & _ & Ir).
  rewrite E1 in E1b. injection E1b as <-.
  destruct (file_frames L S umax Humax o2 g tl2 src2 outs n G2 D2 K2 K3 Ho Hn) as (d2 & d2' & E2 & R2 & _).
  destruct (file_info L S umax Humax o2 g tl2 src2 G2 D2) as (d2b & E2b & Jw & Jh & Jp & _ & Jr).
  rewrite E2 in E2b. injection E2b as <-.
  exists d1, d1', d2, d2', (map raw_seen (gif_images g)), (all_seen o2 g (gif_images g) outs).
  split; [exact E1|]. split; [exact R1|]. split; [exact E2|]. split; [exact R2|].
  split; [unfold all_seen; rewrite map_length, combine_length; lia|].
  intros w dbg Hh Hw. rewrite Iw, Ih, Ip, Ir, Jw, Jh, Jp, Jr. set (pal := or_empty (gif_palette g)).
  pose proof (images_rng o2 g G2) as Hrng. pose proof (repeat_of_rng o2 g G2) as Hrr.
  pose proof G2 as (Gw & Gh & _ & _ & _ & Gt & _ & _).
  assert (Hpal : (has_table (g_flags g) = true -> pal = g_gct g /\ usable pal = true /\ padded pal = pal) /\ (colors pal <= 256)%nat /\ bytes_ok pal).
  { unfold pal, gif_palette. destruct (has_table (g_flags g)) eqn:Et; cbn [or_empty].
    - destruct (padded_table _ _ Gt Et) as (P1 & P2 & P3). split; [auto|]. split; [exact P2|apply Gt].
    - split; [discriminate|]. split; [cbn; lia|constructor]. }
  destruct Hpal as (P1 & P2 & P3).
  set (ops := rewrite_ops (gif_repeat g) (map raw_seen (gif_images g))).
  assert (Ro : Forall op_rng ops).
  { constructor; [exact Hrr|]. apply Forall_map, Forall_map. eapply Forall_impl; [|exact Hrng]. intros ci H. exact (raw_rng _ _ _ H). }
  assert (Hok : Forall (fun op => op_result dbg (usable pal) op = Ok tt) ops).
  { constructor; [reflexivity|]. apply Forall_map, Forall_map. apply Forall_forall. intros [c i] Hin.
    pose proof (proj1 (Forall_forall _ _) Hrng _ Hin) as [_ Hi]. pose proof (proj1 (Forall_forall _ _) Hm _ Hin) as Hmi. cbn [snd] in *.
    destruct Hi as (_ & _ & _ & _ & _ & I6 & I7 & _ & _ & It).
    unfold op_result, raw_seen. cbn [meta_frame f_buffer fst snd].
    destruct (N.leb_spec 2 (im_mcs i)); [|lia]. destruct (N.leb_spec (im_mcs i) 11); [|lia]. cbn [andb].
    unfold palette_error. cbn [meta_frame f_palette]. destruct (has_table (im_flags i)) eqn:Et.
    - destruct (padded_table _ _ I6 Et) as (_ & Q & _). destruct (Nat.ltb_spec 256 (colors (im_lct i))); [lia|reflexivity].
    - destruct It as [It|It]; [discriminate|]. destruct (P1 It) as (_ & -> & _). reflexivity. }
  destruct (session_runs L dbg w (g_w g) (g_h g) pal ops Gw Gh Ro Hh P2 Hok) as (e1 & e2 & e3 & w3 & S1 & S2 & S3).
  exists e1, e2, e3, w3. split; [exact S1|]. split; [exact S2|]. split; [exact S3|]. intros src3 tl3 D3.
  set (frames := combine (map raw_seen (gif_images g)) outs).
  assert (Hcr : Forall (call_readable o2) ops).
  { constructor; [right; exact Hlim|]. apply Forall_map, Forall_map. eapply Forall_impl; [|exact Hrng]. intros [c i] [_ Hi]. cbn [snd] in Hi.
    destruct Hi as (_ & _ & _ & _ & _ & _ & _ & I8 & _). destruct (subs_payload _ I8) as [_ Q].
    cbn [call_readable]. exists (im_mcs i). unfold raw_seen. cbn [meta_frame f_buffer snd].
    destruct (payload (im_subs i)) as [|b data]; [congruence|]. exists b, data. reflexivity. }
  assert (Hwr : written S ops frames).
  { apply written_other; [reflexivity|]. unfold frames. clear - Ho. induction Ho as [|ci out cis outs H1 H2 IH]; [constructor|].
    cbn [map combine]. apply written_frame; [reflexivity| |exact IH]. eapply carries_pre; [reflexivity|]. apply H1. }
  assert (Hfr : Forall (fun p => frame_readable o2 umax (g_w g) (g_h g) (fst p) (snd p)) frames).
  { unfold frames. assert (L5 : fits (o_limit o2) 5) by (destruct (o_limit o2); cbn [fits] in *; lia).
    clear - Ho Hrng L5. induction Ho as [|ci out cis outs H1 H2 IH]; [constructor|]. inversion Hrng as [|? ? [_ Hi] Q]; subst.
    cbn [map combine]. constructor; [|exact (IH Q)]. destruct ci as [c i]. cbn [fst snd] in *.
    destruct H1 as (_ & M2 & M3 & M4). unfold frame_bytes, im_pixels in *. cbn [snd] in *.
    unfold frame_readable, raw_seen. cbn [meta_frame fst snd f_left f_top f_width f_height].
    split; [exact L5|]. split; [apply Hi|]. split; [lia|].
    replace (N.of_nat (px_bytes (o_color o2)) * (im_w i * im_h i)) with
      (N.of_nat (px_bytes (o_color o2) * (N.to_nat (im_w i) * N.to_nat (im_h i)))) by lia. auto. }
  assert (Hbl : Exists writes_block ops).
  { apply Exists_cons_tl. destruct (gif_images g) as [|ci l]; [congruence|]. apply Exists_cons_hd. exact I. }
  destruct (round_trip L S umax Humax o2 w (g_w g) (g_h g) pal dbg ops e1 e2 e3 w3 frames tl3 src3 n Gw Gh P3 Ro S1 S2 S3 Hw D3 Hcr Hwr Hbl Hfr K2 K3)
    as (d3 & d3' & E3 & T1 & T2 & T3 & T4 & T5 & _).
  { unfold frames. rewrite combine_length, map_length. lia. }
  exists d3, d3'. split; [exact E3|]. split.
  { rewrite T5. f_equal. f_equal. unfold frames, all_seen. clear - Ho Hrng P1 Gt.
    assert (Hg : has_table (g_flags g) = true -> pal = g_gct g) by (intros H; apply (P1 H)).
    induction Ho as [|ci out cis outs H1 H2 IH]; [reflexivity|]. inversion Hrng as [|? ? [_ Hi] Q]; subst.
    cbn [map combine fst snd]. rewrite (IH Q). f_equal. destruct ci as [c i]. exact (raw_wanted o2 g i c out pal Hi Hg Gt). }
  split; [exact T1|]. split; [exact T2|]. split.
  { rewrite T4.
    - unfold ops, rewrite_ops. cbn [last_repeat].
      assert (Hl : forall r l, last_repeat r (map OWritePre (map raw_seen l)) = r) by (intros r l; destruct l; reflexivity).
      rewrite Hl. destruct (gif_repeat g) as [[|p]|]; reflexivity.
    - constructor; [exact I|]. apply Forall_map, Forall_map. apply Forall_forall. intros ci _. exact I. }
  intros Hsome. rewrite T3. unfold gif_palette in Hsome. destruct (has_table (g_flags g)) eqn:Et; [|congruence].
  destruct (P1 eq_refl) as (Q1 & _ & Q2). rewrite Q2. unfold gif_palette. rewrite Et. now rewrite Q1.
Qed.
End RW.
