(** Buffer sizes: what [line_length], [buffer_size] and [palette] announce is what reading needs and uses. *)
From Verif Require Import Base Common Lzw Encoder Stream Converter Reader StreamInv Interlace Ranges ConvInv DecoderSafe
  CanonReader DecInv DecProps SpecGif SpecPixels SpecSizes DocBlocks DocRead DocAll FrameDec.
Open Scope N_scope.

Lemma fault_cast {A B} e : buffer_fault (Err e : dres A) -> buffer_fault (Err e : dres B).
Proof. intros [H|H]; injection H as ->; [now left|now right]. Qed.

(** ** Lengths *)
Lemma line_length_bpp c f : line_length c f = f_width f * bpp (cv_color c).
Proof. unfold line_length, bpp. destruct (cv_color c); lia. Qed.
Lemma buffer_size_bpp umax c f : buffer_size umax c f = in_usize umax (f_width f * bpp (cv_color c) * f_height f).
Proof. unfold buffer_size, in_usize. now rewrite line_length_bpp. Qed.
Lemma bpp_pos c : 0 < bpp c.
Proof. destruct c; cbn; lia. Qed.

Section Cb.
Variable umax : N.
Variable St : Type.
Variable cb : St -> obuf -> St * obuf * dres nat.
Variable Inv : St -> Prop.
Hypothesis cb_ok : forall x s x' ob' r, Inv x -> cb x (OSlice s) = (x', ob', r) ->
  Inv x' /\ (exists s', ob' = OSlice s' /\ length s' = length s) /\
  match r with Ok n => (n <= length s)%nat | Err _ => True | Panic | Hang => False end.
Hypothesis cb_fault : forall x s x' ob' r, cb x (OSlice s) = (x', ob', r) -> ~ buffer_fault r.

(** A part of whole pixels is never refused for its size. *)
Lemma fill_no_fault f : forall fuel x c done buf x' c' b' r k,
  Inv x -> (0 < k)%nat -> length buf = (k * N.to_nat (bpp (cv_color c)))%nat ->
  fill_loop St cb fuel x c f done buf = (x', c', b', r) -> ~ buffer_fault r.
Proof.
  induction fuel as [|fuel IH]; intros x c done buf x' c' b' r k Hx Hk Hb H.
  { injection H as <- <- <- <-. intros [E|E]; discriminate E. }
  cbn [fill_loop] in H. destruct (cv_color c) eqn:Ec.
  - cbn [bpp N.to_nat] in Hb. change (Pos.to_nat 4) with 4%nat in Hb. assert (E4 : (length buf / 4 = k)%nat) by (rewrite Hb; apply Nat.div_mul; lia).
    rewrite E4 in H. destruct (Nat.eqb_spec k 0) as [E|_]; [lia|]. cbn zeta in H.
    set (scratch := if (length (cv_buffer c) <? k)%nat then grow (cv_buffer c) k else cv_buffer c) in *.
    destruct (cb x (OSlice (firstn k scratch))) as [[x1 ob] y] eqn:Ecb. pose proof (cb_fault _ _ _ _ _ Ecb) as Hy.
    apply cb_ok in Ecb; [|exact Hx]. destruct Ecb as (Hx1 & (s' & -> & Hs') & Hn).
    destruct y as [n|e| | ]; try easy.
    + destruct n as [|n]; [injection H as <- <- <- <-; intros [E|E]; discriminate E|].
      destruct (length buf <? Datatypes.S n * 4)%nat; [injection H as <- <- <- <-; intros [E|E]; discriminate E|].
      match type of H with (if is_nil ?b then _ else _) = _ => destruct (is_nil b) eqn:En end;
        [injection H as <- <- <- <-; intros [E|E]; discriminate E|].
      rewrite firstn_length in Hn. assert (Hnk : (Datatypes.S n <= k)%nat) by lia.
      assert (Hlt : (0 < k - Datatypes.S n)%nat).
      { destruct (Nat.eq_dec (Datatypes.S n) k) as [<-|]; [|lia]. rewrite skipn_all2 in En by lia. discriminate En. }
      eapply (IH x1 _ _ _ x' c' b' r (k - Datatypes.S n)%nat Hx1 Hlt); [|exact H].
      cbn [with_cbuf cv_color]. rewrite Ec. cbn [bpp N.to_nat]. change (Pos.to_nat 4) with 4%nat. rewrite skipn_length, Hb. lia.
    + injection H as <- <- <- <-. intros F. apply Hy. eapply fault_cast. exact F.
  - destruct (cb x (OSlice buf)) as [[x1 ob] y] eqn:Ecb. pose proof (cb_fault _ _ _ _ _ Ecb) as Hy.
    apply cb_ok in Ecb; [|exact Hx]. destruct Ecb as (Hx1 & (s' & -> & Hs') & Hn).
    cbn [obuf_bytes] in H. cbn [bpp N.to_nat] in Hb. change (Pos.to_nat 1) with 1%nat in Hb.
    destruct y as [n|e| | ]; try easy.
    + destruct n as [|n]; [injection H as <- <- <- <-; intros [E|E]; discriminate E|].
      destruct (length s' <? Datatypes.S n)%nat; [injection H as <- <- <- <-; intros [E|E]; discriminate E|].
      cbn zeta in H. destruct (is_nil (skipn (Datatypes.S n) s')) eqn:En;
        [injection H as <- <- <- <-; intros [E|E]; discriminate E|].
      assert (Hlt : (0 < k - Datatypes.S n)%nat).
      { destruct (Nat.le_gt_cases k (Datatypes.S n)) as [Hle|]; [|lia]. rewrite skipn_all2 in En by lia. discriminate En. }
      eapply (IH x1 _ _ _ x' c' b' r (k - Datatypes.S n)%nat Hx1 Hlt); [|exact H].
      rewrite Ec. cbn [bpp N.to_nat]. change (Pos.to_nat 1) with 1%nat. rewrite skipn_length. lia.
    + injection H as <- <- <- <-. intros F. apply Hy. eapply fault_cast. exact F.
Qed.

Lemma rows_no_fault f : (0 < f_width f) -> forall rows m x c buf x' c' b' r,
  Inv x -> Forall (fun row => (row < m)%nat) rows -> N.of_nat m * line_length c f <= len buf ->
  read_rows umax St cb rows x c f buf = (x', c', b', r) -> ~ buffer_fault r.
Proof.
  intros Hw. induction rows as [|row rows IH]; intros m x c buf x' c' b' r Hx Hr Hm H.
  { injection H as <- <- <- <-. intros [E|E]; discriminate E. }
  apply Forall_cons_iff in Hr as [Hr1 Hr]. cbn [read_rows] in H. cbn zeta in H.
  assert (Hrow : N.of_nat row * line_length c f + line_length c f <= len buf) by nia.
  destruct (umax <? _); [injection H as <- <- <- <-; intros [E|E]; discriminate E|].
  destruct (_ && _) eqn:Eb.
  2:{ apply andb_false_iff in Eb as [Eb|Eb]; apply N.leb_gt in Eb; lia. }
  set (st := N.to_nat (N.of_nat row * line_length c f)) in *. set (w := N.to_nat (line_length c f)) in *.
  assert (Hl : (st + w <= length buf)%nat) by (unfold st, w, len in *; lia).
  destruct (conv_fill_buffer St cb x c f (firstn w (skipn st buf))) as [[[x1 c1] line] y] eqn:Ef.
  pose proof Ef as Ef'. apply (conv_fill_buffer_ok St cb Inv cb_ok) in Ef'; [|exact Hx]. destruct Ef' as (Hx1 & Hline & Hc1 & Hy).
  rewrite firstn_length, skipn_length in Hline.
  assert (Hnf : ~ buffer_fault y).
  { eapply (fill_no_fault f _ x c [] _ x1 c1 line y (N.to_nat (f_width f))); [exact Hx|lia| |exact Ef].
    rewrite firstn_length, skipn_length, Nat.min_l by lia. unfold w. rewrite line_length_bpp. apply N2Nat.inj_mul. }
  set (buf1 := firstn st buf ++ line ++ skipn w (skipn st buf)) in *.
  assert (Hb1 : length buf1 = length buf).
  { unfold buf1. rewrite !app_length, firstn_length, !skipn_length, Hline. lia. }
  destruct y as [[|]|e| | ].
  - eapply (IH m x1 c1 buf1); [exact Hx1|exact Hr| |exact H].
    rewrite (line_length_settings _ _ f Hc1). unfold len in *. now rewrite Hb1.
  - injection H as <- <- <- <-. intros [E|E]; discriminate E.
  - injection H as <- <- <- <-. intros F. apply Hnf. eapply fault_cast. exact F.
  - injection H as <- <- <- <-. intros [E|E]; discriminate E.
  - injection H as <- <- <- <-. intros [E|E]; discriminate E.
Qed.

(** A buffer of the announced size (or more) is never refused for its size. *)
Lemma into_no_fault x c f buf x' c' b' r : Inv x -> 0 < f_width f * f_height f ->
  line_length c f * f_height f <= len buf -> len buf <= umax ->
  conv_read_into_buffer umax St cb x c f buf = (x', c', b', r) -> ~ buffer_fault r.
Proof.
  intros Hx Hp Hn Hu H. unfold conv_read_into_buffer in H. destruct (f_interlaced f).
  - eapply (rows_no_fault f ltac:(lia) _ (N.to_nat (f_height f))); [exact Hx| | |exact H].
    + apply Forall_forall. intros row Hin. rewrite interlace_rows_order in Hin. now apply gif_row_order_in in Hin.
    + rewrite N2Nat.id. lia.
  - unfold buffer_size in H. destruct (N.leb_spec (line_length c f * f_height f) umax); [|lia].
    destruct (N.leb_spec (line_length c f * f_height f) (len buf)); [|lia]. cbn zeta in H.
    set (n := N.to_nat (line_length c f * f_height f)) in *.
    destruct (conv_fill_buffer St cb x c f (firstn n buf)) as [[[x1 c1] b] y] eqn:Ef.
    assert (Hnf : ~ buffer_fault y).
    { eapply (fill_no_fault f _ x c [] _ x1 c1 b y (N.to_nat (f_width f * f_height f))); [exact Hx|lia| |exact Ef].
      rewrite firstn_length, Nat.min_l by (unfold n, len in *; lia). unfold n. rewrite line_length_bpp, <- N2Nat.inj_mul. f_equal. lia. }
    destruct y as [[|]|e| | ]; injection H as <- <- <- <-; try (intros [E|E]; discriminate E).
    intros F. apply Hnf. eapply fault_cast. exact F.
Qed.

(** Bytes behind the announced size are not touched and make no difference. *)
Lemma rows_extra f extra : forall rows m x c buf,
  Inv x -> Forall (fun row => (row < m)%nat) rows -> N.of_nat m * line_length c f <= len buf ->
  read_rows umax St cb rows x c f (buf ++ extra) =
  let '(x', c', b, r) := read_rows umax St cb rows x c f buf in (x', c', b ++ extra, r).
Proof.
  clear cb_fault.
  induction rows as [|row rows IH]; intros m x c buf Hx Hr Hm; [reflexivity|].
  apply Forall_cons_iff in Hr as [Hr1 Hr]. cbn [read_rows]. cbn zeta.
  assert (Hrow : N.of_nat row * line_length c f + line_length c f <= len buf) by nia.
  assert (Hle : len buf <= len (buf ++ extra)) by (unfold len; rewrite app_length; lia).
  destruct (umax <? _); [reflexivity|].
  rewrite !(proj2 (N.leb_le _ _)) by lia. cbn [andb].
  set (st := N.to_nat (N.of_nat row * line_length c f)) in *. set (w := N.to_nat (line_length c f)) in *.
  assert (Hl : (st + w <= length buf)%nat) by (unfold st, w, len in *; lia).
  assert (E1 : firstn w (skipn st (buf ++ extra)) = firstn w (skipn st buf)).
  { rewrite skipn_app, firstn_app, skipn_length. replace (w - (length buf - st))%nat with 0%nat by lia. now rewrite firstn_O, app_nil_r. }
  assert (E2 : firstn st (buf ++ extra) = firstn st buf).
  { rewrite firstn_app. replace (st - length buf)%nat with 0%nat by lia. now rewrite firstn_O, app_nil_r. }
  assert (E3 : skipn w (skipn st (buf ++ extra)) = skipn w (skipn st buf) ++ extra).
  { rewrite skipn_app. replace (st - length buf)%nat with 0%nat by lia. rewrite skipn_O, skipn_app, skipn_length.
    replace (w - (length buf - st))%nat with 0%nat by lia. now rewrite skipn_O. }
  rewrite E1, E2, E3. destruct (conv_fill_buffer St cb x c f (firstn w (skipn st buf))) as [[[x1 c1] line] y] eqn:Ef.
  apply (conv_fill_buffer_ok St cb Inv cb_ok) in Ef; [|exact Hx]. destruct Ef as (Hx1 & Hline & Hc1 & Hy).
  rewrite firstn_length, skipn_length in Hline.
  replace (firstn st buf ++ line ++ skipn w (skipn st buf) ++ extra) with ((firstn st buf ++ line ++ skipn w (skipn st buf)) ++ extra) by (now rewrite <- !app_assoc).
  destruct y as [[|]|e| | ]; try reflexivity.
  apply (IH m); [exact Hx1|exact Hr|]. rewrite (line_length_settings _ _ f Hc1). unfold len in *.
  rewrite !app_length, firstn_length, !skipn_length, Hline. lia.
Qed.

Lemma into_extra x c f buf extra : Inv x -> len buf = line_length c f * f_height f ->
  conv_read_into_buffer umax St cb x c f (buf ++ extra) =
  let '(x', c', b, r) := conv_read_into_buffer umax St cb x c f buf in (x', c', b ++ extra, r).
Proof.
  clear cb_fault.
  intros Hx Hn. unfold conv_read_into_buffer. destruct (f_interlaced f).
  - apply (rows_extra f extra _ (N.to_nat (f_height f))); [exact Hx| |].
    + apply Forall_forall. intros row Hin. rewrite interlace_rows_order in Hin. now apply gif_row_order_in in Hin.
    + rewrite N2Nat.id. lia.
  - unfold buffer_size. destruct (_ <=? umax); [|reflexivity].
    assert (Hle : len buf <= len (buf ++ extra)) by (unfold len; rewrite app_length; lia).
    rewrite !(proj2 (N.leb_le _ _)) by lia. rewrite <- Hn. unfold len. rewrite Nat2N.id.
    rewrite firstn_app, Nat.sub_diag, firstn_O, app_nil_r, firstn_all, skipn_app, Nat.sub_diag, skipn_O, skipn_all. cbn [app].
    destruct (conv_fill_buffer St cb x c f buf) as [[[x1 c1] b] y]. rewrite app_nil_r. destruct y as [[|]|e| | ]; reflexivity.
Qed.

(** A shorter buffer never succeeds. For frames that are not interlaced nothing is read at all. *)
Lemma rows_short f : forall rows x c buf x' c' b' r,
  Inv x -> Exists (fun row => len buf < N.of_nat row * line_length c f + line_length c f) rows ->
  read_rows umax St cb rows x c f buf = (x', c', b', r) -> r <> Ok tt.
Proof.
  clear cb_fault.
  induction rows as [|row rows IH]; intros x c buf x' c' b' r Hx He H; [inversion He|].
  cbn [read_rows] in H. cbn zeta in H. destruct (umax <? _); [injection H as <- <- <- <-; discriminate|].
  destruct (_ && _) eqn:Eb; [|injection H as <- <- <- <-; discriminate].
  apply andb_true_iff in Eb as [Eb1 Eb2]. apply N.leb_le in Eb1, Eb2.
  set (st := N.to_nat (N.of_nat row * line_length c f)) in *. set (w := N.to_nat (line_length c f)) in *.
  assert (Hl : (st + w <= length buf)%nat) by (unfold st, w, len in *; lia).
  destruct (conv_fill_buffer St cb x c f (firstn w (skipn st buf))) as [[[x1 c1] line] y] eqn:Ef.
  apply (conv_fill_buffer_ok St cb Inv cb_ok) in Ef; [|exact Hx]. destruct Ef as (Hx1 & Hline & Hc1 & Hy).
  rewrite firstn_length, skipn_length in Hline.
  destruct y as [[|]|e| | ]; try (injection H as <- <- <- <-; discriminate).
  eapply (IH x1 c1); [exact Hx1| |exact H]. inversion He as [? ? Hh|? ? Ht]; subst; [lia|].
  rewrite (line_length_settings _ _ f Hc1). unfold len in *.
  rewrite !app_length, firstn_length, !skipn_length, Hline.
  replace (Nat.min st (length buf) + (Nat.min w (length buf - st) + (length buf - st - w)))%nat with (length buf) by lia. exact Ht.
Qed.

Lemma into_short x c f buf x' c' b' r : Inv x -> len buf < line_length c f * f_height f ->
  conv_read_into_buffer umax St cb x c f buf = (x', c', b', r) ->
  r <> Ok tt /\ (f_interlaced f = false -> x' = x /\ c' = c /\ b' = buf /\ r = Err (DFormat BufferTooSmall)).
Proof.
  clear cb_fault.
  intros Hx Hn H. unfold conv_read_into_buffer in H. destruct (f_interlaced f).
  - split; [|discriminate]. eapply rows_short; [exact Hx| |exact H].
    apply Exists_exists. exists (N.to_nat (f_height f) - 1)%nat. rewrite interlace_rows_order.
    assert (0 < f_height f) by lia.
    split; [apply gif_row_order_in; lia|]. nia.
  - unfold buffer_size in H. destruct (_ <=? umax); [destruct (N.leb_spec (line_length c f * f_height f) (len buf)); [lia|]|];
      injection H as <- <- <- <-; (split; [discriminate|auto]).
Qed.
End Cb.

(** ** The sources of pixels never complain about the buffer *)
Section Src.
Variable L : lzw_codec.
Variable umax : N.
Lemma decode_bytes_no_fault r data ob r' ob' x : lr_decode_bytes L r data ob = (r', ob', x) -> ~ buffer_fault x.
Proof.
  unfold lr_decode_bytes. intros H F.
  destruct (lr_decoder L r) as [dd|]; [|injection H as <- <- <-; destruct F as [F|F]; discriminate F].
  destruct ob; try (injection H as <- <- <-; destruct F as [F|F]; discriminate F);
    destruct (lz_decode L dd data _) as [d' [[n w] st]]; destruct st; try destruct (lr_check L r);
    injection H as <- <- <-; destruct F as [F|F]; discriminate F.
Qed.
Lemma reset_no_fault r m r' x : lr_reset L r m = (r', x) -> ~ buffer_fault x.
Proof.
  unfold lr_reset. destruct (check_code_size m); [|intros [= <- <-] [F|F]; discriminate F].
  destruct (lr_decoder L r); [destruct (negb _)|]; intros [= <- <-] [F|F]; discriminate F.
Qed.
Ltac nofault := match goal with
  | H : (_, _, _) = (_, _, ?r), F : buffer_fault ?r |- _ => injection H as <- <- <-; destruct F as [F|F]; discriminate F
  end.
Lemma next_state_no_fault s buf ob s' ob' r : next_state L s buf ob = (s', ob', r) -> ~ buffer_fault r.
Proof.
  intros H F. unfold next_state in H. destruct buf as [|b t]; [nofault|]. set (buf := b :: t) in *. clearbody buf.
  destruct (sd_state L s) eqn:Es; unfold goto in H.
  - destruct (ensure_min L s buf 6); try nofault. destruct (list_eqb d GIF87a); [nofault|]. destruct (list_eqb d GIF89a); nofault.
  - destruct (ensure_min L s buf 7); try nofault. cbn zeta in H. destruct (negb _); nofault.
  - destruct (ensure_min L s buf 9); try nofault. destruct (sd_current L s0); [|nofault]. cbn zeta in H.
    destruct (_ && _); [nofault|]. destruct (negb _); [|nofault]. destruct (match f_palette _ with Some _ => _ | None => _ end). nofault.
  - destruct (0 <? _)%nat; nofault.
  - destruct (_ && _); [nofault|]. destruct (block_from_u8 _) as [[| |]|]; try nofault.
    + cbn zeta in H. destruct (extension_from_u8 _); nofault.
    + destruct (o_allow_unknown_blocks _); nofault.
  - destruct (_ =? _); nofault.
  - nofault.
  - destruct (0 <? _)%nat.
    + cbn zeta in H. destruct (check_size _ _); nofault.
    + destruct (b =? 0); [|nofault]. cbn zeta in H. destruct (extension_from_u8 _) as [[| | |]|]; try nofault.
      destruct (read_control_extension L _) as [s2 y] eqn:Ey. unfold read_control_extension in Ey.
      destruct (negb _); injection Ey as <- <-; nofault.
  - destruct (negb _); [nofault|]. destruct (is_netscape _); nofault.
  - destruct (0 <? _)%nat; [|nofault]. destruct (sd_current L s); nofault.
  - destruct (negb _).
    + destruct (lr_reset L _ _) as [r1 y] eqn:Er. pose proof (reset_no_fault _ _ _ _ Er) as Hr. cbn zeta in H.
      destruct y as [[]|e| |]; try nofault. injection H as <- <- <-. apply Hr. eapply fault_cast. exact F.
    + destruct (check_code_size _); nofault.
  - destruct (o_skip_frame_decoding _); [nofault|]. destruct (0 <? _)%nat.
    + cbn zeta in H. destruct (_ || _); [nofault|].
      destruct (lr_decode_bytes L _ _ ob) as [[r1 ob1] y] eqn:Er. pose proof (decode_bytes_no_fault _ _ _ _ _ _ Er) as Hy.
      destruct y as [[n k]|e| |]; try nofault.
      * destruct (_ <? _)%nat; [nofault|]. destruct (_ =? _)%nat; nofault.
      * injection H as <- <- <-. apply Hy. eapply fault_cast. exact F.
    + destruct (negb _); [nofault|]. destruct (lr_decode_bytes L _ _ ob) as [[r1 ob1] y] eqn:Er.
      pose proof (decode_bytes_no_fault _ _ _ _ _ _ Er) as Hy. destruct y as [[n k]|e| |]; try nofault.
      * destruct (_ =? _)%nat; nofault.
      * injection H as <- <- <-. apply Hy. eapply fault_cast. exact F.
  - destruct (negb _); [nofault|]. destruct (0 <? _)%nat; [|destruct (negb _); nofault]. cbn zeta in H.
    destruct (obuf_append ob _ _) as [ob1 y] eqn:Ea.
    assert (Hy : ~ buffer_fault y).
    { unfold obuf_append in Ea. intros G. destruct ob; [| |];
        [injection Ea as <- <-|destruct (check_size _ _); injection Ea as <- <-|injection Ea as <- <-]; destruct G as [G|G]; discriminate G. }
    destruct y as [[n k]|e| |]; try nofault.
    + destruct (_ <? _)%nat; nofault.
    + injection H as <- <- <-. apply Hy. eapply fault_cast. exact F.
  - destruct (negb _); nofault.
  - nofault.
Qed.
Lemma update_no_fault fuel : forall s buf ob total s' ob' r, update_loop L fuel s buf ob total = (s', ob', r) -> ~ buffer_fault r.
Proof.
  induction fuel as [|fuel IH]; intros s buf ob total s' ob' r H F; cbn [update_loop] in H; (destruct buf as [|b t]; [nofault|]); [nofault|].
  destruct (next_state L s (b :: t) ob) as [[s1 ob1] y] eqn:E. pose proof (next_state_no_fault _ _ _ _ _ _ E) as Hy.
  destruct y as [[n d]|e| |]; try nofault.
  - destruct d; try nofault. exact (IH _ _ _ _ _ _ _ H F).
  - injection H as <- <- <-. apply Hy. eapply fault_cast. exact F.
Qed.
Lemma decode_next_no_fault fuel : forall r ob r' ob' x, decode_next_loop L fuel r ob = (r', ob', x) -> ~ buffer_fault x.
Proof.
  induction fuel as [|fuel IH]; intros r ob r' ob' x H F; cbn [decode_next_loop] in H; (destruct (rd_eof L r); [nofault|]); [nofault|].
  destruct (fill_buf L r) as [r1 [[|b t]|k| |]]; try nofault.
  destruct (update L (rd_dec L r1) (b :: t) ob) as [[d ob1] y] eqn:E. pose proof (update_no_fault _ _ _ _ _ _ _ _ E) as Hy.
  destruct y as [[n ev]|e| |]; try nofault.
  - cbn zeta in H. destruct ev; try nofault; try (exact (IH _ _ _ _ _ H F)); match type of H with context [match ?b with BkImage => _ | _ => _ end] => destruct b end; try nofault; exact (IH _ _ _ _ _ H F).
  - injection H as <- <- <-. apply Hy. eapply fault_cast. exact F.
Qed.
Lemma decode_next_bytes_no_fault r ob r' ob' x : decode_next_bytes L r ob = (r', ob', x) -> ~ buffer_fault x.
Proof.
  unfold decode_next_bytes. destruct (decode_next L r ob) as [[r1 ob1] y] eqn:E. pose proof (decode_next_no_fault _ _ _ _ _ _ E) as Hy.
  intros H F. destruct y as [[ev|]|e| |]; try nofault.
  - destruct ev; nofault.
  - injection H as <- <- <-. apply Hy. eapply fault_cast. exact F.
Qed.
Lemma fd_callback_no_fault x s x' ob' r : fd_callback L x (OSlice s) = (x', ob', r) -> ~ buffer_fault r.
Proof.
  unfold fd_callback. generalize (Datatypes.S (length (snd x))). intros fuel. revert x s x' ob' r.
  enough (G : forall x ob x' ob' r, fd_loop L fuel x ob = (x', ob', r) -> ~ buffer_fault r) by (intros; eapply G; eassumption).
  induction fuel as [|fuel IH]; intros x ob x' ob' r H F; cbn [fd_loop] in H; [nofault|].
  destruct (lr_decode_bytes L (fst x) (snd x) ob) as [[r1 ob1] y] eqn:E. pose proof (decode_bytes_no_fault _ _ _ _ _ _ E) as Hy.
  destruct y as [[n k]|e| |]; try nofault.
  - cbn zeta in H. destruct (_ || _); [nofault|]. exact (IH _ _ _ _ _ H F).
  - injection H as <- <- <-. apply Hy. eapply fault_cast. exact F.
Qed.
End Src.

(** ** Every [Decoder] *)
Section Dec.
Variable L : lzw_codec.
Variable umax : N.
Hypothesis safe : lzw_safe L.
Hypothesis Humax : 2 ^ 32 - 1 <= umax.

(** Without [skip_frame_decoding] frames are decompressed. *)
Lemma info_pixels fuel : forall d d', dcd_good L d -> o_skip_frame_decoding (dopts L d) = false ->
  next_frame_info_loop L fuel d = (d', Ok true) -> dc_ty L d' = FPixels.
Proof.
  induction fuel as [|fuel IH]; intros d d' Hd Hs H; cbn [next_frame_info_loop] in H; [discriminate|].
  destruct (decode_next L (dc_rd L d) ONone) as [[r ob] y] eqn:E. pose proof Hd as (Hr & _).
  pose proof (decode_next_all L safe _ _ _ _ _ Hr E) as (Hr' & Hgn & _ & Hmeta). destruct Hgn as (Hwf & Ho & _).
  assert (Hrec : next_frame_info_loop L fuel (set_rd L d r) = (d', Ok true) -> dc_ty L d' = FPixels).
  { intros E1. apply (IH (set_rd L d r)); [apply set_rd_good; assumption| |exact E1]. unfold dopts in *. cbn [dc_rd set_rd]. congruence. }
  destruct y as [[ev|]|e| | ]; try discriminate H. destruct ev; try (apply Hrec; exact H).
  destruct (sd_current L (rd_dec L r)) as [f|]; [|discriminate H]. cbn [frame_take] in H.
  assert (Ht : t = FPixels).
  { destruct (Hmeta t eq_refl) as (_ & k & [[_ Ht]|(m & Hst & _)]); [exact Ht|]. exfalso. unfold dopts in Hs.
    destruct Hwf as [(_ & _ & _ & Hm) _]. unfold mode_wf in Hm. rewrite Hst in Hm. congruence. }
  destruct (f_palette _); [|destruct (cv_gpal _)]; try discriminate H; injection H as <-; exact Ht.
Qed.

Section Opened.
Variable src : list revent.
Variable o : options.
Hypothesis Hs : src_ok src.
Hypothesis Ha : limit_ok umax (o_limit o).
Notation opened := (opened L umax src o).

Lemma opened_color d : opened d -> cv_color (dc_conv L d) = o_color o /\ frame_ok (dc_cur L d).
Proof.
  intros Hd. destruct (opened_good L umax safe Humax src o Hs d Ha Hd) as ((_ & Hf & _ & Hc & _) & Ho & _). unfold dopts in Ho.
  rewrite Ho in Hc. auto.
Qed.
Theorem announced_sizes d : opened d ->
  dec_line_length L d = f_width (dc_cur L d) * bpp (o_color o) /\
  dec_buffer_size L umax d = in_usize umax (f_width (dc_cur L d) * bpp (o_color o) * f_height (dc_cur L d)).
Proof.
  intros Hd. destruct (opened_color d Hd) as [Hc _]. unfold dec_line_length, dec_buffer_size.
  rewrite line_length_bpp, buffer_size_bpp, Hc. auto.
Qed.

Theorem frame_has_size d d' : opened d -> o_skip_frame_decoding o = false -> read_next_frame L umax d = (d', Ok true) ->
  dec_buffer_size L umax d' = Some (len (f_buffer (dc_cur L d'))).
Proof.
  intros Hd Hsk H. destruct (opened_good L umax safe Humax src o Hs d Ha Hd) as (Hg & Ho & _).
  unfold read_next_frame in H. destruct (next_frame_info L d) as [d1 z] eqn:En. destruct z as [[|]|e| | ]; try discriminate H.
  destruct (next_frame_info_returns L safe umax Humax d d1 _ Hg En) as (_ & Hg1 & [Ho1 _] & _).
  rewrite (info_pixels (ev_fuel L (dc_rd L d)) d d1 Hg) in H; [|rewrite Ho; exact Hsk|exact En].
  pose proof Hg1 as (Hr1 & Hf1 & Hl1 & Hc1 & _). pose proof Hf1 as (_ & _ & _ & _ & Hw & Hh & _).
  destruct (conv_read_frame umax (Reader.rd L) (decode_next_bytes L) (dc_rd L d1) (dc_conv L d1) (dc_cur L d1)) as [[[r c] f] z] eqn:Ec.
  apply (conv_read_frame_ok umax _ _ (fun r => rd_good L r /\ sd_opts L (rd_dec L r) = dopts L d1)) in Ec;
    [|intros; eapply decode_next_bytes_ok; eassumption|exact Hw|exact Hh|exact Humax| |split; [exact Hr1|reflexivity]].
  2:{ rewrite Hl1. unfold dopts in *. rewrite Ho1, Ho. exact Ha. }
  destruct Ec as (_ & Hss & _ & (b & i & ->) & Hlen). destruct z as [[]|e| | ]; try discriminate H. injection H as <-.
  specialize (Hlen eq_refl). destruct Hlen as (Hlen & _ & Hlim).
  unfold dec_buffer_size. cbn [dc_conv dc_cur set_cur set_conv]. rewrite Hlen. unfold buffer_size.
  rewrite <- (line_length_settings _ _ (dc_cur L d1) Hss) in *. unfold line_length in *. cbn [f_width f_height set_interlaced set_buffer] in *.
  destruct (N.leb_spec (match cv_color c with CRgba => f_width (dc_cur L d1) * 4 | CIndexed => f_width (dc_cur L d1) end * f_height (dc_cur L d1)) umax) as [|Hgt]; [reflexivity|].
  exfalso. pose proof (frame_bytes_bound c (dc_cur L d1) Hw Hh) as Hb. unfold line_length in Hb.
  destruct Ha as [Ha1|Ha1]; [lia|]. rewrite Hl1 in Hlim. unfold dopts in *. rewrite Ho1, Ho in Hlim. destruct (o_limit o); lia.
Qed.

(** Giving [read_into_buffer] a buffer. *)
Theorem exact_buffer d buf extra : opened d -> dec_buffer_size L umax d = Some (len buf) ->
  read_into_buffer L umax d (buf ++ extra) = let '(d', b, x) := read_into_buffer L umax d buf in (d', b ++ extra, x).
Proof.
  intros Hd Hn. destruct (opened_good L umax safe Humax src o Hs d Ha Hd) as (Hg & Ho & _). pose proof Hg as (Hr & _).
  unfold read_into_buffer. rewrite (into_extra umax _ (decode_next_bytes L) (fun r => rd_good L r /\ sd_opts L (rd_dec L r) = o)
    (decode_next_bytes_ok L safe umax Humax o)); [|exact (conj Hr Ho)|].
  - destruct (conv_read_into_buffer _ _ _ _ _ _ buf) as [[[r c] b] y]. reflexivity.
  - unfold dec_buffer_size, buffer_size in Hn. destruct (_ <=? _); [|discriminate]. injection Hn as Hn. auto.
Qed.
Theorem enough_buffer d n buf d' b x : opened d -> dec_buffer_size L umax d = Some n -> n <= len buf -> len buf <= umax / 2 ->
  0 < n -> read_into_buffer L umax d buf = (d', b, x) -> ~ buffer_fault x /\ length b = length buf.
Proof.
  intros Hd Hn Hl Hu Hp H. destruct (opened_good L umax safe Humax src o Hs d Ha Hd) as (Hg & Ho & _).
  destruct (read_into_buffer_returns L safe umax Humax d buf d' b x Hg Hu H) as (_ & _ & _ & Hlen). split; [|exact Hlen].
  pose proof Hg as (Hr & _). unfold dec_buffer_size, buffer_size in Hn. destruct (_ <=? _); [|discriminate]. injection Hn as Hn.
  unfold read_into_buffer in H. destruct (conv_read_into_buffer _ _ _ _ _ _ buf) as [[[r c] b1] y] eqn:E. injection H as <- <- <-.
  eapply (into_no_fault umax _ (decode_next_bytes L) (fun r => rd_good L r /\ sd_opts L (rd_dec L r) = o)); [| | | | | |exact E].
  - intros. eapply decode_next_bytes_ok; eassumption.
  - intros. eapply decode_next_bytes_no_fault; eassumption.
  - split; [exact Hr|exact Ho].
  - rewrite line_length_bpp in Hn. destruct (N.eq_0_gt_0_cases (f_width (dc_cur L d) * f_height (dc_cur L d))) as [Hz|]; [|assumption].
    exfalso. apply N.eq_mul_0 in Hz as [Hz|Hz]; rewrite Hz in Hn; lia.
  - lia.
  - set (u := umax / 2) in *. lia.
Qed.
Theorem short_buffer d n buf d' b x : opened d -> dec_buffer_size L umax d = Some n -> len buf < n ->
  read_into_buffer L umax d buf = (d', b, x) ->
  x <> Ok tt /\ (f_interlaced (dc_cur L d) = false -> d' = d /\ b = buf /\ x = Err (DFormat BufferTooSmall)).
Proof.
  intros Hd Hn Hl H. destruct (opened_good L umax safe Humax src o Hs d Ha Hd) as (Hg & Ho & _).
  pose proof Hg as (Hr & _). unfold dec_buffer_size, buffer_size in Hn. destruct (_ <=? _); [|discriminate]. injection Hn as Hn. rewrite <- Hn in Hl.
  unfold read_into_buffer in H. destruct (conv_read_into_buffer _ _ _ _ _ _ buf) as [[[r c] b1] y] eqn:E. injection H as <- <- <-.
  destruct (into_short umax _ (decode_next_bytes L) (fun r => rd_good L r /\ sd_opts L (rd_dec L r) = o) (decode_next_bytes_ok L safe umax Humax o)
    _ _ _ _ _ _ _ _ (conj Hr Ho) Hl E) as [H1 H2]. split; [exact H1|]. intros Hi. destruct (H2 Hi) as (-> & -> & -> & ->).
  split; [|auto]. unfold set_conv, set_rd. cbn [dc_rd dc_conv dc_bg dc_repeat dc_cur dc_ty]. destruct d; reflexivity.
Qed.
End Opened.

(** ** [FrameDecoder] *)
Theorem fd_frame_size fd f fd' f' : u16_ok (f_width f) -> u16_ok (f_height f) -> limit_ok umax (cv_limit (fd_conv L fd)) ->
  decode_lzw_encoded_frame L umax fd f = (fd', f', Ok tt) -> fd_buffer_size L umax fd f = Some (len (f_buffer f')).
Proof.
  intros Hw Hh Hl H. destruct (decode_lzw_encoded_frame_returns L umax safe Humax fd f fd' f' _ Hw Hh Hl H) as (_ & _ & _ & _ & _ & Hn & Hlim).
  unfold fd_buffer_size, buffer_size. rewrite Hn in *. destruct (N.leb_spec (line_length (fd_conv L fd) f * f_height f) umax) as [|Hgt]; [reflexivity|].
  exfalso. pose proof (frame_bytes_bound (fd_conv L fd) f Hw Hh) as Hb. destruct Hl as [Hl|Hl]; [lia|]. destruct (cv_limit (fd_conv L fd)); lia.
Qed.
Theorem fd_exact_buffer fd f buf extra : fd_buffer_size L umax fd f = Some (len buf) ->
  decode_lzw_encoded_frame_into_buffer L umax fd f (buf ++ extra) =
  let '(fd', b, x) := decode_lzw_encoded_frame_into_buffer L umax fd f buf in (fd', b ++ extra, x).
Proof.
  intros Hn. unfold decode_lzw_encoded_frame_into_buffer. destruct (match f_buffer f with [] => (2, []) | m :: data => (m, data) end) as [m data].
  destruct (lr_reset L (fd_lzw L fd) m) as [r y] eqn:Er. destruct (lr_reset_cases L _ _ _ _ Er) as [[-> Hd]| ->]; [|reflexivity].
  rewrite (into_extra umax _ _ (fd_inv L) (fd_callback_ok L umax safe Humax)); [|exact Hd|].
  - destruct (conv_read_into_buffer _ _ _ _ _ _ buf) as [[[[r1 z] c] b] y]. reflexivity.
  - unfold fd_buffer_size, buffer_size in Hn. destruct (_ <=? _); [|discriminate]. injection Hn as Hn. auto.
Qed.
Theorem fd_enough_buffer fd f n buf fd' b x : u16_ok (f_width f) -> fd_buffer_size L umax fd f = Some n -> n <= len buf -> len buf <= umax / 2 -> 0 < n ->
  decode_lzw_encoded_frame_into_buffer L umax fd f buf = (fd', b, x) -> ~ buffer_fault x /\ length b = length buf.
Proof.
  intros Hw Hn Hl Hu Hp H. destruct (decode_into_buffer_returns L umax safe Humax fd f buf fd' b x Hw Hu H) as (_ & Hlen & _). split; [|exact Hlen].
  unfold fd_buffer_size, buffer_size in Hn. destruct (_ <=? _); [|discriminate]. injection Hn as Hn.
  unfold decode_lzw_encoded_frame_into_buffer in H. destruct (match f_buffer f with [] => (2, []) | m :: data => (m, data) end) as [m data].
  destruct (lr_reset L (fd_lzw L fd) m) as [r y] eqn:Er. destruct (lr_reset_cases L _ _ _ _ Er) as [[-> Hd]| ->].
  2:{ injection H as <- <- <-. intros [F|F]; discriminate F. }
  destruct (conv_read_into_buffer _ _ _ _ _ _ buf) as [[[[r1 z] c] b1] y] eqn:E. injection H as <- <- <-.
  eapply (into_no_fault umax _ _ (fd_inv L) (fd_callback_ok L umax safe Humax) (fd_callback_no_fault L)); [| | | |exact E].
  - exact Hd.
  - rewrite line_length_bpp in Hn. destruct (N.eq_0_gt_0_cases (f_width f * f_height f)) as [Hz|]; [|assumption].
    exfalso. apply N.eq_mul_0 in Hz as [Hz|Hz]; rewrite Hz in Hn; lia.
  - lia.
  - set (u := umax / 2) in *. lia.
Qed.
Theorem fd_short_buffer fd f n buf fd' b x : fd_buffer_size L umax fd f = Some n -> len buf < n ->
  decode_lzw_encoded_frame_into_buffer L umax fd f buf = (fd', b, x) ->
  x <> Ok tt /\ (f_interlaced f = false -> b = buf).
Proof.
  intros Hn Hl H. unfold fd_buffer_size, buffer_size in Hn. destruct (_ <=? _); [|discriminate]. injection Hn as Hn. rewrite <- Hn in Hl.
  unfold decode_lzw_encoded_frame_into_buffer in H. destruct (match f_buffer f with [] => (2, []) | m :: data => (m, data) end) as [m data].
  destruct (lr_reset L (fd_lzw L fd) m) as [r y] eqn:Er. destruct (lr_reset_cases L _ _ _ _ Er) as [[-> Hd]| ->].
  2:{ injection H as <- <- <-. split; [discriminate|reflexivity]. }
  destruct (conv_read_into_buffer _ _ _ _ _ _ buf) as [[[[r1 z] c] b1] y] eqn:E. injection H as <- <- <-.
  destruct (into_short umax _ _ (fd_inv L) (fd_callback_ok L umax safe Humax) (r, data) _ _ _ _ _ _ _ Hd Hl E) as [H1 H2].
  split; [exact H1|]. intros Hi. now destruct (H2 Hi) as (_ & _ & -> & _).
Qed.
End Dec.

(** ** On a well-formed file *)
Section File.
Variable L : lzw_codec.
Variable S : lzw_spec L.
Variable umax : N.
Hypothesis Humax : 2 ^ 32 - 1 <= umax.

Lemma announces o g tz (ez := cut_off (g_blocks g) tz) last fin :
  last = Ok false \/ (exists e, last = Err e) -> (forall d, reached L S o g ez d -> over L last fin d) ->
  forall n d c bs, ready L S o g ez d c bs -> (length (controlled c bs) < n)%nat ->
  scannable o ->
  announce_all L umax n d = (map (fun ci => announced umax o g (snd ci)) (controlled c bs), last).
Proof.
  intros Hlast Hend. induction n as [|n IH]; intros d c bs Hr Hn Hm; [lia|]. cbn [announce_all].
  pose proof (next_frame_info_at L S umax Humax o g ez d c bs Hr) as H. destruct (controlled c bs) as [|[c1 i] l] eqn:Ec.
  - destruct (Hend d H) as (d' & E & F). rewrite E. destruct Hlast as [->|[e ->]]; reflexivity.
  - destruct H as (d1 & bs' & E & El & Hi & Hin & Hcur & _). rewrite E.
    pose proof (inimg_ready L S o g ez d1 i bs' Hin Hi Hm) as Hr1. cbn [length] in Hn. subst l.
    rewrite (IH d1 ctl_none bs' Hr1) by (assumption || lia). cbn [map snd]. do 2 f_equal.
    destruct Hin as (F & _). pose proof (fl_quiet _ _ _ _ F) as [(_ & _ & _ & Hco & _) _]. rewrite (fl_opts _ _ _ _ F) in Hco.
    unfold announced, dec_line_length, dec_buffer_size, dec_palette. rewrite line_length_bpp, buffer_size_bpp, Hco, Hcur.
    rewrite (fl_gpal _ _ _ _ F). cbn [meta_frame f_width f_height f_palette]. f_equal. unfold pal_of, gif_palette.
    destruct Hi as (_ & _ & _ & _ & _ & _ & _ & _ & _ & It). destruct (has_table (im_flags i)); [reflexivity|].
    destruct It as [It|It]; [discriminate|]. now rewrite It.
Qed.

Theorem file_announces o g tl src n : gif_ok o g -> delivers src (ser_gif g tl) ->
  scannable o -> (length (gif_images g) < n)%nat ->
  exists d, read_info L src o = Ok d /\
    announce_all L umax n d = (map (fun ci => announced umax o g (snd ci)) (gif_images g), Ok false).
Proof.
  intros Hg Hd Ho Hn.
  destruct (cut_opened L S umax Humax o g (0x3B :: tl) (gif_part_ok _ _ Hg) (done_starts o g tl Hg) (done_opens g tl _) src Hd)
    as (d & c & bs & E & Hr & Ec). exists d. split; [exact E|]. rewrite <- Ec in *.
  apply (announces o g (0x3B :: tl) (Ok false) (finished L g tl) (or_introl eq_refl) (done_over L S umax Humax o g tl) n d c bs Hr Hn Ho).
Qed.
End File.
