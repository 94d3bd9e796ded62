(** [FrameDecoder] gives every frame its own verdict, whatever its data and whatever it was given before. *)
From Verif Require Import Base Common Lzw LzwErrs Encoder Stream Converter Reader StreamInv Interlace Ranges ConvInv
  SpecGif SpecPixels Pixels DocBlocks PixelRead DocRead DocAll FrameDec FrameInv ShortData SpecVerdict Verdict Corrupt SpecUnpack.
Open Scope N_scope.

Section U.
Variable L : lzw_codec.
Variable S : lzw_spec L.
Variable Z : lzw_errs S.
Variable umax : N.
Hypothesis eager : lzw_eager S.
Hypothesis alert : lzw_alert Z.
Hypothesis Humax : 2 ^ 32 - 1 <= umax.
Notation fdp := (fdp L S).
Notation fd_fit := (fd_fit L S).

(** The callback when nothing is left, or when there is no room. *)
Lemma fd_loop_none fuel : forall x out sl, fdp x out -> out = [] \/ sl = [] -> (length (snd x) < fuel)%nat ->
  exists x', fd_loop L fuel x (OSlice sl) = (x', OSlice sl, Ok 0%nat) /\ fdp x' out.
Proof.
  induction fuel as [|fuel IH]; intros x out sl Hx Ho Hf; [lia|].
  destruct Hx as (Hc & z & Hz & Hp & Hsz). destruct x as [r a]. cbn [fst snd] in *.
  cbn [fd_loop fst snd]. unfold lr_decode_bytes. rewrite Hz.
  destruct (lz_decode L z a (length sl)) as [z' [[n w] st]] eqn:E.
  pose proof (lz_is_safe L S _ _ _ _ _ _ _ E) as [Hn Hw].
  pose proof Hp as Hp0. rewrite <- (app_nil_r a) in Hp0.
  destruct (lz_step L S _ _ _ _ _ _ _ _ _ Hp0 E) as (Hst & out' & Eo & Hp'). rewrite app_nil_r in Hp'.
  pose proof (lz_size_decode L S _ _ _ _ _ _ Hsz E) as Hsz'.
  assert (w = []) as ->.
  { destruct Ho as [-> | ->]; [symmetry in Eo; now apply app_eq_nil in Eo|]. cbn in Hw. destruct w; [reflexivity|cbn in Hw; lia]. }
  cbn [app] in Eo. subst out'. cbn [length app skipn]. rewrite Hc.
  assert (Hnew : fdp (mk_lr L (Some z') (lr_min_code_size L r) false, skipn n a) out).
  { split; [reflexivity|]. exists z'. cbn [fst snd lr_decoder lr_min_code_size]. auto. }
  assert (Hrest : exists x', (let data := skipn n a in
      if (0 <? 0)%nat || (n =? 0)%nat || is_nil data
      then ((mk_lr L (Some z') (lr_min_code_size L r) false, data), OSlice sl, Ok 0%nat)
      else fd_loop L fuel (mk_lr L (Some z') (lr_min_code_size L r) false, data) (OSlice sl)) = (x', OSlice sl, Ok 0%nat) /\ fdp x' out).
  { cbn zeta. cbn [Nat.ltb Nat.leb orb]. destruct (Nat.eqb_spec n 0) as [->|Hn0]; cbn [orb]; [eexists; split; [reflexivity|exact Hnew]|].
    destruct (is_nil (skipn n a)); [eexists; split; [reflexivity|exact Hnew]|].
    apply IH; [exact Hnew|exact Ho|]. cbn [snd]. rewrite skipn_length. lia. }
  destruct st; try congruence; exact Hrest.
Qed.
Lemma fd_callback_none x out sl : fdp x out -> out = [] \/ sl = [] ->
  exists x', fd_callback L x (OSlice sl) = (x', OSlice sl, Ok 0%nat) /\ fdp x' out.
Proof. intros Hx Ho. apply fd_loop_none; [exact Hx|exact Ho|lia]. Qed.

(** Data with an invalid code. *)
Definition fdb (x : lzw_reader L * list N) (out : list N) : Prop :=
  lr_check L (fst x) = false /\ exists z, lr_decoder L (fst x) = Some z /\ lz_fails Z z (snd x) out.
Lemma fd_loop_bad fuel : forall x out sl, fdb x out -> (length (snd x) < fuel)%nat ->
  (exists x' ob', fd_loop L fuel x (OSlice sl) = (x', ob', Err (DIo InvalidData)) /\ (length out <= length sl)%nat) \/
  (exists x' w out', fd_loop L fuel x (OSlice sl) = (x', OSlice (w ++ skipn (length w) sl), Ok (length w)) /\
    (sl <> [] -> w <> []) /\ (length w <= length sl)%nat /\ out = w ++ out' /\ fdb x' out').
Proof.
  induction fuel as [|fuel IH]; intros x out sl Hx Hf; [lia|].
  destruct Hx as (Hc & z & Hz & Hp). destruct x as [r a]. cbn [fst snd] in *.
  cbn [fd_loop fst snd]. unfold lr_decode_bytes. rewrite Hz.
  destruct (lz_decode L z a (length sl)) as [z' [[n w] st]] eqn:E.
  pose proof (lz_is_safe L S _ _ _ _ _ _ _ E) as [Hn Hw].
  pose proof Hp as Hp0. rewrite <- (app_nil_r a) in Hp0.
  destruct (lf_step S Z _ _ _ _ _ _ _ _ _ Hp0 E) as [[-> ->]|(Hst & out' & Eo & Hp')].
  { left. eexists. eexists. split; [reflexivity|exact Hw]. }
  rewrite app_nil_r in Hp'. rewrite Hc.
  assert (Hnew : fdb (mk_lr L (Some z') (lr_min_code_size L r) false, skipn n a) out').
  { split; [reflexivity|]. exists z'. cbn [fst snd lr_decoder]. auto. }
  set (r1 := mk_lr L (Some z') (lr_min_code_size L r) false) in *.
  assert (Hrest :
   (exists x' ob', (let data := skipn n a in
      if (0 <? length w)%nat || (n =? 0)%nat || is_nil data
      then ((r1, data), OSlice (w ++ skipn (length w) sl), Ok (length w))
      else fd_loop L fuel (r1, data) (OSlice (w ++ skipn (length w) sl))) = (x', ob', Err (DIo InvalidData)) /\ (length out <= length sl)%nat) \/
   (exists x' w' out2, (let data := skipn n a in
      if (0 <? length w)%nat || (n =? 0)%nat || is_nil data
      then ((r1, data), OSlice (w ++ skipn (length w) sl), Ok (length w))
      else fd_loop L fuel (r1, data) (OSlice (w ++ skipn (length w) sl))) = (x', OSlice (w' ++ skipn (length w') sl), Ok (length w')) /\
    (sl <> [] -> w' <> []) /\ (length w' <= length sl)%nat /\ out = w' ++ out2 /\ fdb x' out2)).
  { cbn zeta. destruct w as [|b w].
    - cbn [length app skipn] in *. cbn [Nat.ltb Nat.leb orb]. subst out'.
      assert (Hstop : ((n =? 0)%nat || is_nil (skipn n a))%bool = true -> sl = []).
      { intros Hb. destruct sl as [|s0 sl]; [reflexivity|]. exfalso.
        assert (Hcap : (0 < length (s0 :: sl))%nat) by (cbn; lia).
        apply Bool.orb_true_iff in Hb. destruct Hb as [Hb|Hb].
        - apply Nat.eqb_eq in Hb. subst n. destruct a as [|a0 a].
          + destruct (lf_drain S Z _ _ _ _ _ _ _ Hp E Hcap); congruence.
          + destruct (lf_live S Z _ _ _ _ _ _ _ _ _ Hp0 E ltac:(discriminate) Hcap) as [H|[H|H]]; [congruence|lia|congruence].
        - apply is_nil_true in Hb. apply (f_equal (@length N)) in Hb. rewrite skipn_length in Hb. cbn in Hb.
          destruct (alert _ _ _ _ _ _ _ _ Hp E Hcap ltac:(lia)); congruence. }
      destruct ((n =? 0)%nat || is_nil (skipn n a))%bool eqn:Eb.
      + right. eexists. exists [], out. cbn [length app skipn]. split; [reflexivity|]. split; [intros H; exfalso; auto|].
        split; [lia|]. split; [reflexivity|exact Hnew].
      + apply Bool.orb_false_iff in Eb. destruct Eb as [Eb _]. apply Nat.eqb_neq in Eb.
        apply IH; [exact Hnew|]. cbn [snd]. rewrite skipn_length. lia.
    - change (0 <? length (b :: w))%nat with true. cbn [orb]. right.
      eexists _, (b :: w), out'. split; [reflexivity|]. split; [discriminate|]. split; [exact Hw|]. split; [exact Eo|exact Hnew]. }
  destruct st; try congruence; exact Hrest.
Qed.
Lemma fd_callback_bad x out sl : fdb x out -> sl <> [] ->
  (exists x' ob', fd_callback L x (OSlice sl) = (x', ob', Err (DIo InvalidData)) /\ (length out <= length sl)%nat) \/
  (exists x' w out', fd_callback L x (OSlice sl) = (x', OSlice (w ++ skipn (length w) sl), Ok (length w)) /\
    w <> [] /\ (length w <= length sl)%nat /\ out = w ++ out' /\ fdb x' out').
Proof.
  intros Hx Hs. destruct (fd_loop_bad (Datatypes.S (length (snd x))) x out sl Hx ltac:(lia)) as [H|(x' & w & out' & E & H1 & H2)]; [left; exact H|right].
  exists x', w, out'. split; [exact E|]. split; [now apply H1|exact H2].
Qed.

(** A decoder stays fit, whatever happens. *)
Definition fitx (x : lzw_reader L * list N) : Prop :=
  lr_check L (fst x) = false /\ exists z, lr_decoder L (fst x) = Some z /\ lz_size S z (lr_min_code_size L (fst x)).
Lemma lr_fit r a sl r1 ob1 y : fitx (r, a) -> lr_decode_bytes L r a (OSlice sl) = (r1, ob1, y) -> forall b, fitx (r1, b).
Proof.
  intros (Hc & z & Hz & Hs) H b. cbn [fst] in *. unfold lr_decode_bytes in H. rewrite Hz in H.
  destruct (lz_decode L z a (length sl)) as [z' [[n w] st]] eqn:E. pose proof (lz_size_decode L S _ _ _ _ _ _ Hs E) as Hs'.
  rewrite Hc in H.
  assert (r1 = mk_lr L (Some z') (lr_min_code_size L r) false) as -> by (destruct st; congruence).
  split; [reflexivity|]. exists z'. auto.
Qed.
Lemma fd_loop_fit fuel : forall x s x' ob' r, fitx x -> fd_loop L fuel x (OSlice s) = (x', ob', r) -> fitx x'.
Proof.
  induction fuel as [|fuel IH]; intros x s x' ob' r Hx H; cbn [fd_loop] in H; [injection H as <- _ _; exact Hx|].
  destruct x as [r0 a]. cbn [fst snd] in *.
  destruct (lr_decode_bytes L r0 a (OSlice s)) as [[r1 ob1] y] eqn:E. pose proof (lr_fit _ _ _ _ _ _ Hx E) as Hf.
  assert (Hob : exists s1, ob1 = OSlice s1).
  { unfold lr_decode_bytes in E. destruct (lr_decoder L r0); [|injection E as _ <- _; eauto].
    destruct (lz_decode L l a (length s)) as [z' [[n w] st]]. destruct st; try destruct (lr_check L r0); injection E as _ <- _; eauto. }
  destruct Hob as (s1 & ->).
  destruct y as [[n k]|e| | ]; cbn zeta in H; try (injection H as <- _ _; apply Hf).
  destruct ((0 <? k)%nat || (n =? 0)%nat || is_nil (skipn n a)); [injection H as <- _ _; apply Hf|].
  eapply IH; [|exact H]. apply Hf.
Qed.
Lemma fd_callback_fit x s x' ob' r : fitx x -> fd_callback L x (OSlice s) = (x', ob', r) ->
  fitx x' /\ (exists s', ob' = OSlice s' /\ length s' = length s) /\
  match r with Ok n => (n <= length s)%nat | Err _ => True | Panic | Hang => False end.
Proof.
  intros Hx H. split; [eapply fd_loop_fit; eassumption|].
  assert (Hi : fd_inv L x). { destruct Hx as (_ & z & Hz & _). unfold fd_inv. congruence. }
  pose proof (fd_callback_ok L umax (lz_is_safe L S) Humax _ _ _ _ _ Hi H) as (_ & H2 & H3). auto.
Qed.
Lemma fit_of x fd c : fitx x -> fd = mk_fd L (fst x) c -> fd_fit fd.
Proof. intros (Hc & z & Hz & Hs) ->. split; [exact Hc|]. cbn [fd_lzw]. intros z' E. congruence. Qed.

(** [reset]. *)
Lemma reset_fit fd m : fd_fit fd -> 1 <= m <= 11 ->
  exists r z, lr_reset L (fd_lzw L fd) m = (r, Ok tt) /\ lr_decoder L r = Some z /\ lr_check L r = false /\
    lz_size S z (lr_min_code_size L r) /\ (z = lz_new L m \/ exists z0, lz_size S z0 m /\ z = lz_reset L z0).
Proof.
  intros [Fc Fs] Hm. unfold lr_reset, check_code_size.
  assert (Hck : negb ((11 <? m) || (m <? 1)) = true).
  { destruct (N.ltb_spec 11 m); [lia|]. destruct (N.ltb_spec m 1); [lia|]. reflexivity. }
  rewrite Hck. destruct (lr_decoder L (fd_lzw L fd)) as [z|] eqn:Ez.
  - destruct (N.eqb_spec (lr_min_code_size L (fd_lzw L fd)) m) as [Em|Em]; cbn [negb].
    + eexists. exists (lz_reset L z). split; [reflexivity|]. split; [reflexivity|]. split; [exact Fc|].
      pose proof (Fs z eq_refl) as Hz. split; [apply lz_size_reset; exact Hz|]. right. exists z. rewrite Em in Hz. auto.
    + eexists. exists (lz_new L m). split; [reflexivity|]. split; [reflexivity|]. split; [exact Fc|]. split; [apply lz_size_new|auto].
  - eexists. exists (lz_new L m). split; [reflexivity|]. split; [reflexivity|]. split; [exact Fc|]. split; [apply lz_size_new|auto].
Qed.
Lemma reset_refused r m : (m <? 1) || (11 <? m) = true -> lr_reset L r m = (r, Err (DFormat InvalidMinimalCodeSize)).
Proof. intros H. unfold lr_reset, check_code_size. rewrite Bool.orb_comm, H. reflexivity. Qed.

(** No pixels at all. *)
Section Zero.
Variable St : Type.
Variable cb : St -> obuf -> St * obuf * dres nat.
Lemma zero_fill x c f :
  conv_fill_buffer St cb x c f [] =
  match cv_color c with
  | CRgba => (x, c, [], Err (DFormat OddSizedBuffer))
  | CIndexed => fill_loop St cb 1 x c f [] []
  end.
Proof. unfold conv_fill_buffer. cbn [length]. destruct (cv_color c) eqn:E; [|reflexivity]. cbn [fill_loop]. rewrite E. reflexivity. Qed.
Lemma zero_into x c f x1 b r : f_width f * f_height f = 0 ->
  cb x (OSlice []) = (x1, OSlice b, r) -> r = Ok 0%nat \/ (exists e, r = Err e) ->
  exists x' c' b', conv_read_into_buffer umax St cb x c f [] = (x', c', b',
    if f_interlaced f && (f_height f =? 0) then Ok tt
    else match cv_color c with
         | CRgba => Err (DFormat OddSizedBuffer)
         | CIndexed => match r with Err e => Err e | _ => Err (DFormat ImageTruncated) end
         end) /\ (f_interlaced f && (f_height f =? 0) = true -> b' = []).
Proof.
  intros H0 Hcb Hr.
  assert (Hf : exists x' c' b', conv_fill_buffer St cb x c f [] = (x', c', b',
    match cv_color c with CRgba => Err (DFormat OddSizedBuffer)
    | CIndexed => match r with Err e => Err e | _ => Ok false end end)).
  { rewrite zero_fill. destruct (cv_color c) eqn:Ec; [eauto|]. cbn [fill_loop]. rewrite Ec, Hcb.
    destruct Hr as [->|[e ->]]; eauto. }
  destruct Hf as (x2 & c2 & b2 & Ef).
  unfold conv_read_into_buffer. destruct (f_interlaced f) eqn:Ei; cbn [andb].
  - rewrite interlace_rows_order. destruct (N.eqb_spec (f_height f) 0) as [Eh|Hh].
    { rewrite Eh. cbn. eauto 10. }
    assert (Ew : f_width f = 0) by nia.
    destruct (gif_row_order (N.to_nat (f_height f))) as [|r0 l] eqn:Eg.
    { apply (f_equal (@length nat)) in Eg. rewrite gif_row_order_length in Eg. cbn in Eg. lia. }
    cbn [read_rows]. cbn zeta.
    assert (Ell : line_length c f = 0) by (unfold line_length; rewrite Ew; destruct (cv_color c); reflexivity).
    rewrite Ell, N.mul_0_r. destruct (N.ltb_spec umax 0); [lia|]. cbn [len length N.of_nat N.leb N.compare andb N.add N.to_nat firstn skipn app].
    rewrite Ef. destruct (cv_color c); [|destruct Hr as [->|[e ->]]]; eexists; eexists; eexists; (split; [reflexivity|discriminate]).
  - assert (Ebs : buffer_size umax c f = Some 0).
    { unfold buffer_size, line_length.
      replace (match cv_color c with CRgba => f_width f * 4 | CIndexed => f_width f end * f_height f) with 0 by (destruct (cv_color c); nia).
      destruct (N.leb_spec 0 umax); [reflexivity|lia]. }
    rewrite Ebs. cbn [len length N.of_nat N.leb N.compare N.to_nat firstn skipn]. rewrite Ef.
    destruct (cv_color c); [|destruct Hr as [->|[e ->]]]; eexists; eexists; eexists; (split; [reflexivity|discriminate]).
Qed.
End Zero.

(** The decoder after a call. *)
Lemma into_fit fd f buf fd' b x : fd_fit fd -> u16_ok (f_width f) -> len buf <= umax / 2 ->
  decode_lzw_encoded_frame_into_buffer L umax fd f buf = (fd', b, x) ->
  fd_fit fd' /\ same_settings (fd_conv L fd) (fd_conv L fd') /\ length b = length buf.
Proof.
  intros Hf Hw Hl H. unfold decode_lzw_encoded_frame_into_buffer in H.
  set (m := match f_buffer f with [] => 2 | m :: _ => m end).
  set (data := match f_buffer f with [] => [] | _ :: data => data end).
  replace (match f_buffer f with [] => (2, []) | m :: data => (m, data) end) with (m, data) in H by (unfold m, data; destruct (f_buffer f); reflexivity).
  destruct ((m <? 1) || (11 <? m)) eqn:Em.
  - rewrite reset_refused in H by exact Em. injection H as <- <- <-. split; [exact Hf|]. split; [apply same_settings_refl|reflexivity].
  - apply Bool.orb_false_iff in Em. destruct Em as [M1 M2]. apply N.ltb_ge in M1, M2.
    destruct (reset_fit fd m Hf (conj M1 M2)) as (r & z & Er & Rz & Rc & Rs & _). rewrite Er in H.
    destruct (conv_read_into_buffer umax (lzw_reader L * list N) (fd_callback L) (r, data) (fd_conv L fd) f buf)
      as [[[[r1 d1] c1] b1] y] eqn:Ec. injection H as <- <- <-.
    apply (conv_read_into_buffer_ok umax _ _ fitx fd_callback_fit) in Ec; [|exact Hw|exact Humax|exact Hl|].
    + destruct Ec as (Hx & Hb & Hs & _). split; [eapply fit_of; [exact Hx|reflexivity]|]. auto.
    + split; [exact Rc|]. exists z. auto.
Qed.

Lemma size_nat color f : N.of_nat (px_bytes color) * frame_px f = N.of_nat (px_bytes color * (N.to_nat (f_width f) * N.to_nat (f_height f))).
Proof. unfold frame_px. lia. Qed.

Lemma check_size c f : check_buffer_size umax c f =
  let size := N.of_nat (px_bytes (cv_color c)) * frame_px f in
  if (umax <? size) || match cv_limit c with Some l => l <? size | None => false end then Err (DIo OutOfMemory) else Ok size.
Proof.
  cbn zeta. unfold check_buffer_size, limit_buffer_size, buffer_size, line_length, frame_px.
  assert (E1 : f_width f * f_height f * match cv_color c with CRgba => 4 | CIndexed => 1 end
             = N.of_nat (px_bytes (cv_color c)) * (f_width f * f_height f)) by (unfold px_bytes; destruct (cv_color c); lia).
  assert (E2 : match cv_color c with CRgba => f_width f * 4 | CIndexed => f_width f end * f_height f
             = N.of_nat (px_bytes (cv_color c)) * (f_width f * f_height f)) by (unfold px_bytes; destruct (cv_color c); lia).
  rewrite E1, E2. set (size := _ * (_ * _)). destruct (N.leb_spec size umax) as [H|H]; destruct (N.ltb_spec umax size); try lia; cbn [orb].
  - destruct (cv_limit c) as [l|]; [destruct (l <? size); [reflexivity|]|]; rewrite N.eqb_refl; reflexivity.
  - destruct (cv_limit c) as [l|]; reflexivity.
Qed.

Lemma begun_pending z m data out : (z = lz_new L m \/ exists z0, lz_size S z0 m /\ z = lz_reset L z0) ->
  lz_pending S (lz_new L m) data out -> lz_pending S z data out.
Proof. intros [->|(z0 & H0 & ->)] H; [exact H|]. exact (lz_pending_reset L S _ _ _ _ H0 H). Qed.
Lemma begun_fails z m data out : (z = lz_new L m \/ exists z0, lz_size S z0 m /\ z = lz_reset L z0) ->
  lz_fails Z (lz_new L m) data out -> lz_fails Z z data out.
Proof. intros [->|(z0 & H0 & ->)] H; [exact H|]. exact (lf_reset S Z _ _ _ _ H0 H). Qed.

Theorem unpack_frame fd f out bad : fd_fit fd -> u16_ok (f_width f) -> u16_ok (f_height f) ->
  (1 <= code_size f <= 11 -> stands_for Z f out bad) ->
  exists fd' r, decode_lzw_encoded_frame L umax fd f = (fd', fst r, snd r) /\ fd_fit fd' /\ same_settings (fd_conv L fd) (fd_conv L fd') /\
    unpack_told umax (cv_color (fd_conv L fd)) (cv_limit (fd_conv L fd)) (cv_gpal (fd_conv L fd)) f out bad r.
Proof.
  intros Hf Hw Hh Hst. set (c := fd_conv L fd).
  unfold decode_lzw_encoded_frame. rewrite check_size. fold c. cbn zeta.
  unfold unpack_told, unpack_verdict. set (size := N.of_nat (px_bytes (cv_color c)) * frame_px f).
  destruct ((umax <? size) || match cv_limit c with Some l => l <? size | None => false end) eqn:Ebig.
  { exists fd, (f, Err (DIo OutOfMemory)). split; [reflexivity|]. split; [exact Hf|]. split; [apply same_settings_refl|].
    right. split; [intros _; left; discriminate|reflexivity]. }
  destruct (N.ltb_spec (umax / 2) size) as [Hhalf|Hhalf].
  { exists fd, (f, Panic). split; [reflexivity|]. split; [exact Hf|]. split; [apply same_settings_refl|].
    right. split; [intros _; left; discriminate|reflexivity]. }
  destruct (decode_lzw_encoded_frame_into_buffer L umax fd f (repeat 0 (N.to_nat size))) as [[fd1 b] y] eqn:E.
  assert (Hlen : len (repeat 0 (N.to_nat size)) <= umax / 2) by (unfold len; rewrite repeat_length; lia).
  pose proof (into_fit _ _ _ _ _ _ Hf Hw Hlen E) as (Hf1 & Hs1 & _).
  (* it is enough to know the answer *)
  assert (Hgo : forall r, r = match y with Ok _ => (set_interlaced (set_buffer f b) false, Ok tt) | _ => (f, y) end ->
     exists fd', match y with Ok _ => (fd1, set_interlaced (set_buffer f b) false, Ok tt) | Err e => (fd1, f, Err e) | Panic => (fd1, f, Panic) | Hang => (fd1, f, Hang) end
       = (fd', fst r, snd r) /\ fd_fit fd' /\ same_settings c (fd_conv L fd')).
  { intros r ->. exists fd1. split; [|auto]. destruct y; reflexivity. }
  enough (Hk : exists r, r = match y with Ok _ => (set_interlaced (set_buffer f b) false, Ok tt) | _ => (f, y) end /\
     unpack_told umax (cv_color c) (cv_limit c) (cv_gpal c) f out bad r).
  { destruct Hk as (r & Er & Ht). destruct (Hgo r Er) as (fd' & H1 & H2 & H3). exists fd', r. split; [exact H1|]. split; [exact H2|]. split; [exact H3|].
    unfold unpack_told, unpack_verdict in Ht. fold size in Ht. rewrite Ebig in Ht. destruct (N.ltb_spec (umax / 2) size); [lia|]. exact Ht. }
  clear Hgo. eexists. split; [reflexivity|].
  unfold unpack_told, unpack_verdict. fold size. rewrite Ebig. destruct (N.ltb_spec (umax / 2) size); [lia|].
  unfold decode_lzw_encoded_frame_into_buffer in E.
  replace (match f_buffer f with [] => (2, []) | m :: data => (m, data) end) with (code_size f, code_data f) in E
    by (unfold code_size, code_data; destruct (f_buffer f); reflexivity).
  destruct ((code_size f <? 1) || (11 <? code_size f)) eqn:Em.
  { rewrite reset_refused in E by exact Em. injection E as <- <- <-. right. split; [intros _; left; discriminate|reflexivity]. }
  apply Bool.orb_false_iff in Em. destruct Em as [M1 M2]. apply N.ltb_ge in M1, M2. specialize (Hst (conj M1 M2)).
  destruct (reset_fit fd (code_size f) Hf (conj M1 M2)) as (r & z & Er & Rz & Rc & Rs & Rb). rewrite Er in E. fold c in E.
  set (w := N.to_nat (f_width f)). set (h := N.to_nat (f_height f)).
  assert (Esz : N.to_nat size = (px_bytes (cv_color c) * (w * h))%nat) by (unfold size; rewrite size_nat, Nat2N.id; reflexivity).
  assert (Hpb : (0 < px_bytes (cv_color c))%nat) by (destruct (cv_color c); cbn; lia).
  destruct (N.eqb_spec (frame_px f) 0) as [Hz|Hnz].
  - (* no pixels *)
    assert (E0 : N.to_nat size = O) by (unfold size; rewrite Hz; lia). rewrite E0 in E. cbn [repeat] in E.
    assert (Hcb : exists x1 b1 r1, fd_callback L (r, code_data f) (OSlice []) = (x1, OSlice b1, r1) /\
        (r1 = Ok 0%nat \/ (r1 = Err (DIo InvalidData) /\ bad = true /\ out = []))).
    { unfold stands_for in Hst. destruct bad.
      - destruct (fd_loop_bad (Datatypes.S (length (code_data f))) (r, code_data f) out []) as [(x1 & ob & E1 & H1)|(x1 & w1 & out1 & E1 & _ & H1 & _)].
        { split; [exact Rc|]. exists z. split; [exact Rz|]. exact (begun_fails _ _ _ _ Rb Hst). } { cbn [snd]. lia. }
        + assert (Hi : fd_inv L (r, code_data f)) by (unfold fd_inv; cbn [fst]; congruence).
          pose proof (fd_callback_ok L umax (lz_is_safe L S) Humax _ _ _ _ _ Hi E1) as (_ & (s' & -> & _) & _).
          exists x1, s', (Err (DIo InvalidData)). split; [exact E1|]. right. split; [reflexivity|]. split; [reflexivity|]. destruct out; [reflexivity|cbn in H1; lia].
        + destruct w1; [|cbn in H1; lia]. cbn [length app skipn] in E1. exists x1, [], (Ok 0%nat). split; [exact E1|left; reflexivity].
      - destruct (fd_callback_none (r, code_data f) out []) as (x1 & E1 & _).
        { split; [exact Rc|]. exists z. split; [exact Rz|]. split; [exact (begun_pending _ _ _ _ Rb Hst)|exact Rs]. } { right; reflexivity. }
        exists x1, [], (Ok 0%nat). auto. }
    destruct Hcb as (x1 & b1 & r1 & Ecb & Hr1).
    destruct (zero_into (lzw_reader L * list N) (fd_callback L) (r, code_data f) c f x1 b1 r1) as ([x' dd] & c' & b' & Ei & Hb').
    { exact Hz. } { exact Ecb. } { destruct Hr1 as [->|(-> & _)]; eauto. }
    rewrite Ei in E. injection E as <- <- <-.
    destruct (f_interlaced f && (f_height f =? 0)) eqn:Eil.
    + right. split; [intros _; left; discriminate|]. rewrite (Hb' eq_refl). unfold unpacked. f_equal. f_equal. f_equal.
      apply Bool.andb_true_iff in Eil. destruct Eil as [Eil Eh]. apply N.eqb_eq in Eh. rewrite Eil, Eh. cbn.
      unfold picture, deinterlace. rewrite Nat.mul_0_r. cbn. destruct (cv_color c); reflexivity.
    + destruct (cv_color c) eqn:Eco; [right; split; [intros _; left; discriminate|reflexivity]|].
      destruct Hr1 as [->|(-> & -> & ->)].
      * right. split; [intros _; right; exact Hz|reflexivity].
      * left. split; [reflexivity|]. split; [reflexivity|]. split; [right; reflexivity|]. split; [cbn; lia|reflexivity].
  - assert (Hwh : (0 < w /\ 0 < h)%nat) by (unfold frame_px in Hnz; unfold w, h; nia).
    assert (Epx : frame_px f = N.of_nat (w * h)) by (unfold frame_px, w, h; lia).
    assert (Enh : f_height f =? 0 = false) by (apply N.eqb_neq; unfold h in Hwh; lia).
    rewrite Enh, Bool.andb_false_r.
    assert (Hbl : (px_bytes (cv_color c) * (w * h) <= length (repeat 0%N (N.to_nat size)))%nat) by (rewrite repeat_length; lia).
    assert (Hlu : len (repeat 0 (N.to_nat size)) <= umax).
    { pose proof (N.div_le_upper_bound umax 2 umax ltac:(lia) ltac:(lia)). lia. }
    assert (Hshow : (w * h <= length out)%nat ->
      shown_over (cv_color c) (effective_palette c f) (f_transparent f) (picture w h (f_interlaced f) out) (repeat 0 (N.to_nat size))
        ++ skipn (px_bytes (cv_color c) * (w * h)) (repeat 0 (N.to_nat size)) =
      shown (cv_color c) (effective_palette c f) (f_transparent f) (picture w h (f_interlaced f) out)).
    { intros Hl. rewrite skipn_repeat. replace (N.to_nat size - px_bytes (cv_color c) * (w * h))%nat with O by lia.
      cbn [repeat]. rewrite app_nil_r. apply shown_zero. destruct (cv_color c) eqn:Eco; [left|right; reflexivity].
      intros k Hk. rewrite picture_length in Hk by exact Hl.
      assert ((4 * k + 4 <= N.to_nat size)%nat) by (rewrite Esz; cbn [px_bytes]; lia).
      unfold cell. rewrite skipn_repeat, firstn_repeat by lia. reflexivity. }
    assert (Hunp : (w * h <= length out)%nat -> b = shown_over (cv_color c) (effective_palette c f) (f_transparent f) (picture w h (f_interlaced f) out) (repeat 0 (N.to_nat size))
        ++ skipn (px_bytes (cv_color c) * (w * h)) (repeat 0 (N.to_nat size)) ->
      set_interlaced (set_buffer f b) false = unpacked (cv_color c) match f_palette f with Some p => p | None => match cv_gpal c with Some p => p | None => [] end end f out).
    { intros Hl Eb. unfold unpacked. rewrite Eb, (Hshow Hl). reflexivity. }
    rewrite Epx. unfold stands_for in Hst. destruct bad.
    + destruct (bad_into umax _ (fd_callback L) (DIo InvalidData) fdb fd_callback_bad (r, code_data f) c f (repeat 0 (N.to_nat size)) out w h)
        as [([x1 d1] & c1 & b1 & E1 & Hl)|([x1 d1] & c1 & E1 & Hl & _)]; try reflexivity; try apply Hwh.
      { split; [exact Rc|]. exists z. split; [exact Rz|]. exact (begun_fails _ _ _ _ Rb Hst). } { exact Hbl. } { exact Hlu. }
      * rewrite E1 in E. injection E as <- <- <-. left. split; [reflexivity|]. split; [reflexivity|].
        split; [destruct (N.ltb_spec (N.of_nat (length out)) (N.of_nat (w * h))); auto|]. split; [lia|reflexivity].
      * rewrite E1 in E. injection E as <- <- <-. right.
        destruct (N.ltb_spec (N.of_nat (length out)) (N.of_nat (w * h))); [lia|]. split; [intros _; left; discriminate|].
        f_equal. apply Hunp; [exact Hl|reflexivity].
    + assert (Hp : fdp (r, code_data f) out).
      { split; [exact Rc|]. exists z. split; [exact Rz|]. split; [exact (begun_pending _ _ _ _ Rb Hst)|exact Rs]. }
      right. split; [discriminate|].
      destruct (N.ltb_spec (N.of_nat (length out)) (N.of_nat (w * h))) as [Hlt|Hge].
      * destruct (short_into umax _ (fd_callback L) fdp (fun x => fdp x []) (fd_callback_px L S umax eager Humax)
          (fun x sl H _ => fd_callback_none x [] sl H (or_introl eq_refl)) (r, code_data f) c f (repeat 0 (N.to_nat size)) out w h)
          as ([x1 d1] & c1 & b1 & E1 & _); try reflexivity; try assumption. { lia. }
        rewrite E1 in E. injection E as <- <- <-. reflexivity.
      * destruct (into_spec umax _ (fd_callback L) fdp (fd_callback_px L S umax eager Humax) (r, code_data f) c f (repeat 0 (N.to_nat size)) out w h)
          as ([x1 d1] & c1 & E1 & _); try reflexivity; try assumption; try apply Hwh. { lia. }
        rewrite E1 in E. injection E as <- <- <-. f_equal. apply Hunp; [lia|reflexivity].
Qed.

(** Into a buffer of the caller's, of any size. *)
Theorem unpack_into fd f out buf : fd_fit fd -> u16_ok (f_width f) -> 0 < frame_px f ->
  N.of_nat (px_bytes (cv_color (fd_conv L fd))) * frame_px f <= umax -> len buf <= umax / 2 ->
  (1 <= code_size f <= 11 -> stands_for Z f out false) ->
  exists fd' b, decode_lzw_encoded_frame_into_buffer L umax fd f buf =
      (fd', b, unpack_into_verdict (cv_color (fd_conv L fd)) f (length out) (length buf)) /\
    fd_fit fd' /\ same_settings (fd_conv L fd) (fd_conv L fd') /\ length b = length buf /\
    (unpack_into_verdict (cv_color (fd_conv L fd)) f (length out) (length buf) = Ok tt ->
     b = shown_over (cv_color (fd_conv L fd)) (effective_palette (fd_conv L fd) f) (f_transparent f)
           (picture (N.to_nat (f_width f)) (N.to_nat (f_height f)) (f_interlaced f) out) buf
         ++ skipn (px_bytes (cv_color (fd_conv L fd)) * (N.to_nat (f_width f) * N.to_nat (f_height f))) buf).
Proof.
  intros Hf Hw Hpx Hsz Hl Hst. set (c := fd_conv L fd).
  destruct (decode_lzw_encoded_frame_into_buffer L umax fd f buf) as [[fd1 b] y] eqn:E.
  pose proof (into_fit _ _ _ _ _ _ Hf Hw Hl E) as (Hf1 & Hs1 & Hb1).
  enough (Hk : y = unpack_into_verdict (cv_color c) f (length out) (length buf) /\
    (unpack_into_verdict (cv_color c) f (length out) (length buf) = Ok tt ->
     b = shown_over (cv_color c) (effective_palette c f) (f_transparent f)
           (picture (N.to_nat (f_width f)) (N.to_nat (f_height f)) (f_interlaced f) out) buf
         ++ skipn (px_bytes (cv_color c) * (N.to_nat (f_width f) * N.to_nat (f_height f))) buf)).
  { destruct Hk as [-> Hk]. exists fd1, b. auto 10. }
  set (w := N.to_nat (f_width f)). set (h := N.to_nat (f_height f)).
  assert (Hwh : (0 < w /\ 0 < h)%nat) by (unfold frame_px in Hpx; unfold w, h; nia).
  assert (Hpb : (0 < px_bytes (cv_color c))%nat) by (destruct (cv_color c); cbn; lia).
  assert (Hsz' : N.of_nat (px_bytes (cv_color c) * (w * h)) <= umax) by (unfold frame_px in Hsz; fold c in Hsz; unfold w, h; lia).
  assert (Hlu : len buf <= umax).
  { pose proof (N.div_le_upper_bound umax 2 umax ltac:(lia) ltac:(lia)). lia. }
  unfold decode_lzw_encoded_frame_into_buffer in E.
  replace (match f_buffer f with [] => (2, []) | m :: data => (m, data) end) with (code_size f, code_data f) in E
    by (unfold code_size, code_data; destruct (f_buffer f); reflexivity).
  unfold unpack_into_verdict. fold w h.
  destruct ((code_size f <? 1) || (11 <? code_size f)) eqn:Em.
  { rewrite reset_refused in E by exact Em. injection E as <- <- <-. split; [reflexivity|discriminate]. }
  apply Bool.orb_false_iff in Em. destruct Em as [M1 M2]. apply N.ltb_ge in M1, M2. specialize (Hst (conj M1 M2)). unfold stands_for in Hst.
  destruct (reset_fit fd (code_size f) Hf (conj M1 M2)) as (r & z & Er & Rz & Rc & Rs & Rb). rewrite Er in E. fold c in E.
  assert (Hp : fdp (r, code_data f) out).
  { split; [exact Rc|]. exists z. split; [exact Rz|]. split; [exact (begun_pending _ _ _ _ Rb Hst)|exact Rs]. }
  assert (Hfull : (w * h <= length out)%nat -> (px_bytes (cv_color c) * (w * h) <= length buf)%nat ->
    y = Ok tt /\ b = shown_over (cv_color c) (effective_palette c f) (f_transparent f) (picture w h (f_interlaced f) out) buf
         ++ skipn (px_bytes (cv_color c) * (w * h)) buf).
  { intros H1 H2. destruct (into_spec umax _ (fd_callback L) fdp (fd_callback_px L S umax eager Humax) (r, code_data f) c f buf out w h)
      as ([x1 d1] & c1 & E1 & _); try reflexivity; try assumption; try apply Hwh.
    rewrite E1 in E. injection E as <- <- <-. auto. }
  destruct (f_interlaced f) eqn:Ei.
  - cbn zeta. set (k := rows_fit (px_bytes (cv_color c) * w) (length buf) (gif_row_order h)) in *.
    destruct (rows_verdict umax _ (fd_callback L) fdp (fun x => fdp x []) (fd_callback_px L S umax eager Humax)
          (fun x sl H _ => fd_callback_none x [] sl H (or_introl eq_refl)) f w eq_refl (proj1 Hwh) (gif_row_order h) (r, code_data f) c buf out Hp)
      as ([x1 d1] & c1 & b1 & res & E1 & _ & _ & Hv).
    { intros r0 Hr0. apply gif_row_order_in in Hr0. nia. }
    fold k in Hv. rewrite gif_row_order_length in Hv.
    unfold conv_read_into_buffer in E. rewrite Ei, interlace_rows_order in E. fold h in E. rewrite E1 in E. injection E as <- <- <-.
    destruct (Nat.ltb_spec (length out) (k * w)) as [Hlt|Hge].
    + destruct Hv as [-> _]. split; [reflexivity|discriminate].
    + destruct Hv as [_ ->]. split; [reflexivity|]. destruct (Nat.eqb_spec k h) as [Ek|]; [|discriminate]. intros _.
      apply Hfull; [rewrite Ek in Hge; lia|].
      assert (Hall : rows_fit (px_bytes (cv_color c) * w) (length buf) (gif_row_order h) = length (gif_row_order h)) by (rewrite gif_row_order_length; exact Ek).
      rewrite rows_fit_all in Hall. assert (Hlast : In (h - 1)%nat (gif_row_order h)) by (apply gif_row_order_in; lia).
      specialize (Hall _ Hlast). replace (h - 1 + 1)%nat with h in Hall by lia. nia.
  - destruct (Nat.ltb_spec (length buf) (px_bytes (cv_color c) * (w * h))) as [Hsm|Hbg].
    { split; [|discriminate]. unfold conv_read_into_buffer in E. rewrite Ei in E.
      assert (Hbs : buffer_size umax c f = Some (N.of_nat (px_bytes (cv_color c) * (w * h)))).
      { unfold buffer_size, line_length.
        assert (E0 : match cv_color c with CRgba => f_width f * 4 | CIndexed => f_width f end * f_height f = N.of_nat (px_bytes (cv_color c) * (w * h))).
        { unfold px_bytes, w, h. destruct (cv_color c); lia. }
        rewrite E0. destruct (N.leb_spec (N.of_nat (px_bytes (cv_color c) * (w * h))) umax); [reflexivity|lia]. }
      rewrite Hbs in E. unfold len in E. destruct (N.leb_spec (N.of_nat (px_bytes (cv_color c) * (w * h))) (N.of_nat (length buf))); [lia|].
      injection E as <- <- <-. reflexivity. }
    destruct (Nat.ltb_spec (length out) (w * h)) as [Hlt|Hge].
    + destruct (short_into umax _ (fd_callback L) fdp (fun x => fdp x []) (fd_callback_px L S umax eager Humax)
          (fun x sl H _ => fd_callback_none x [] sl H (or_introl eq_refl)) (r, code_data f) c f buf out w h)
          as ([x1 d1] & c1 & b1 & E1 & _); try reflexivity; try assumption.
      rewrite E1 in E. injection E as <- <- <-. split; [reflexivity|discriminate].
    + destruct (Hfull Hge Hbg) as [-> Eb]. auto.
Qed.

Definition frame_dims (f : frame) : Prop := u16_ok (f_width f) /\ u16_ok (f_height f).

Theorem unpack_frames fs : forall fd obs, fd_fit fd -> Forall frame_dims fs ->
  Forall2 (fun f ob => 1 <= code_size f <= 11 -> stands_for Z f (fst ob) (snd ob)) fs obs ->
  exists fd' rs, unpack_each L umax fd fs = (fd', rs) /\
    Forall2 (fun p r => unpack_told umax (cv_color (fd_conv L fd)) (cv_limit (fd_conv L fd)) (cv_gpal (fd_conv L fd))
       (fst p) (fst (snd p)) (snd (snd p)) r) (combine fs obs) rs.
Proof.
  induction fs as [|f fs IH]; intros fd obs Hf Hd Ho; inversion Ho as [|? [out bad] ? obs' H1 H2]; subst.
  { exists fd, []. split; [reflexivity|constructor]. }
  inversion Hd as [|? ? [D1 D2] D3]; subst. cbn [fst snd] in H1.
  destruct (unpack_frame fd f out bad Hf D1 D2 H1) as (fd1 & [f1 x1] & E1 & F1 & S1 & T1). cbn [fst snd] in E1.
  destruct (IH fd1 obs' F1 D3 H2) as (fd2 & rs & E2 & T2). exists fd2, ((f1, x1) :: rs).
  cbn [unpack_each combine]. rewrite E1, E2. split; [reflexivity|]. constructor; [exact T1|].
  destruct S1 as (S1 & S2 & S3). rewrite S1, S2, S3 in T2. exact T2.
Qed.

(** Every data stand for something. *)
Lemma stands_total f : exists out bad, stands_for Z f out bad.
Proof.
  destruct (lf_total S Z (code_size f) (code_data f)) as [[out H]|[out H]]; [exists out, false|exists out, true]; exact H.
Qed.
End U.
