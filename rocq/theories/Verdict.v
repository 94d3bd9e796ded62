(** Every image of a file gets its own verdict, whatever went wrong with the images before it. *)
From Verif Require Import Base Common Lzw Encoder Stream Converter Reader StreamInv Steps StepsRev
  ReaderInv Interlace Ranges ConvInv DecoderSafe Canon CanonReader SpecGif DocTrace DocBlocks SpecPixels
  Pixels PixelRead DocRead DocAll Mixed ShortData SpecVerdict.
Open Scope nat_scope.

Section Source.
Variable umax : N.
Variable St : Type.
Variable cb : St -> obuf -> St * obuf * dres nat.
Variable P : St -> list N -> Prop.
Variable Q : St -> Prop.
Hypothesis cb_px : forall x out sl, P x out -> out <> [] -> sl <> [] ->
  exists x' w out', cb x (OSlice sl) = (x', OSlice (w ++ skipn (length w) sl), Ok (length w)) /\
    w <> [] /\ length w <= length sl /\ out = w ++ out' /\ P x' out'.
Hypothesis cb_end : forall x sl, P x [] -> sl <> [] ->
  exists x', cb x (OSlice sl) = (x', OSlice sl, Ok 0) /\ Q x'.

(** The rows of an interlaced image, with a buffer of any size. *)
Lemma rows_verdict f w : N.to_nat (f_width f) = w -> 0 < w ->
  forall rows x c buf out, P x out ->
  (forall r, In r rows -> (N.of_nat (r * (px_bytes (cv_color c) * w)) <= umax)%N) ->
  let k := rows_fit (px_bytes (cv_color c) * w) (length buf) rows in
  exists x' c' buf' res, read_rows umax St cb rows x c f buf = (x', c', buf', res) /\
    same_settings c c' /\ length buf' = length buf /\
    (if length out <? k * w then res = Err (DFormat ImageTruncated) /\ Q x'
     else P x' (skipn (k * w) out) /\ res = (if k =? length rows then Ok tt else Err (DFormat BufferTooSmall))).
Proof.
  intros Ew Hw. induction rows as [|row rows IH]; intros x c buf out Hp Hin k.
  { exists x, c, buf, (Ok tt). cbn [read_rows]. split; [reflexivity|]. split; [apply same_settings_refl|]. split; [reflexivity|].
    subst k. cbn [rows_fit Nat.mul length Nat.eqb skipn Nat.ltb Nat.leb]. auto. }
  set (cs := px_bytes (cv_color c)) in *. assert (Hcs : 0 < cs) by (unfold cs, px_bytes; destruct (cv_color c); lia).
  pose proof (Hin row (or_introl eq_refl)) as Hrow.
  assert (Hll : line_length c f = N.of_nat (cs * w)).
  { unfold line_length, cs, px_bytes. destruct (cv_color c); lia. }
  subst k. cbn [read_rows rows_fit]. cbn zeta. rewrite Hll, <- Nat2N.inj_mul.
  set (start := row * (cs * w)) in *.
  unfold len in *.
  destruct (N.ltb_spec umax (N.of_nat start)) as [Hlt|Hlt]; [lia|].
  destruct (Nat.leb_spec ((row + 1) * (cs * w)) (length buf)) as [Hst|Hst].
  2:{ assert (Hf : ((N.of_nat start <=? N.of_nat (length buf)) && (N.of_nat start + N.of_nat (cs * w) <=? N.of_nat (length buf)))%N = false).
      { apply Bool.andb_false_iff. right. apply N.leb_gt. unfold start. nia. }
      rewrite Hf. exists x, c, buf, (Err (DFormat BufferTooSmall)). split; [reflexivity|]. split; [apply same_settings_refl|].
      split; [reflexivity|]. cbn [Nat.mul skipn length Nat.eqb Nat.ltb Nat.leb]. auto. }
  assert (Hst' : start + cs * w <= length buf) by (unfold start; nia).
  destruct (N.leb_spec (N.of_nat start) (N.of_nat (length buf))) as [_|]; [|lia].
  destruct (N.leb_spec (N.of_nat start + N.of_nat (cs * w)) (N.of_nat (length buf))) as [_|]; [|lia].
  cbn [andb]. rewrite !Nat2N.id.
  assert (Hfl : length (firstn (cs * w) (skipn start buf)) = cs * w) by (rewrite firstn_length, skipn_length; lia).
  destruct (le_lt_dec w (length out)) as [Hge|Hlt'].
  - destruct (fill_spec St cb P cb_px x c f (firstn (cs * w) (skipn start buf)) out w Hp Hw Hfl Hge) as (x1 & c1 & line & E & Hs & Hp1 & Hline & _).
    rewrite E.
    match goal with |- context [read_rows umax St cb rows x1 c1 f ?b] => set (buf1 := b) end.
    assert (Hb1 : length buf1 = length buf) by (unfold buf1; rewrite !app_length, firstn_length, !skipn_length; lia).
    assert (Ecs1 : px_bytes (cv_color c1) = cs) by (unfold cs; destruct Hs as (_ & -> & _); reflexivity).
    destruct (IH x1 c1 buf1 (skipn w out) Hp1) as (x2 & c2 & buf2 & res & E2 & Hs2 & Hb2 & Hr).
    { intros r Hr. rewrite Ecs1. apply Hin. now right. }
    rewrite Ecs1, Hb1 in Hr. set (k := rows_fit (cs * w) (length buf) rows) in *.
    exists x2, c2, buf2, res. split; [exact E2|]. split; [eapply same_settings_trans; eassumption|]. split; [congruence|].
    rewrite skipn_length, skipn_skipn in Hr. cbn [length Nat.eqb].
    replace (S k * w) with (k * w + w) by lia.
    destruct (Nat.ltb_spec (length out - w) (k * w)); destruct (Nat.ltb_spec (length out) (k * w + w)); try lia; exact Hr.
  - destruct (short_fill St cb P Q cb_px cb_end x c f (firstn (cs * w) (skipn start buf)) out w Hp Hfl Hlt') as (x1 & c1 & E & Hs & Hq).
    rewrite E. eexists x1, c1, _, _. split; [reflexivity|]. split; [exact Hs|].
    assert (Hle : length (shown_over (cv_color c) (effective_palette c f) (f_transparent f) out (firstn (cs * w) (skipn start buf)) ++
      skipn (px_bytes (cv_color c) * length out) (firstn (cs * w) (skipn start buf))) = cs * w).
    { rewrite filled_length; [exact Hfl|]. rewrite Hfl. fold cs. nia. }
    split; [rewrite !app_length in *; rewrite firstn_length, !skipn_length in *; fold cs in Hle |- *; lia|].
    match goal with |- context [length out <? ?a] => destruct (Nat.ltb_spec (length out) a) as [_|Hx]; [|nia] end. auto.
Qed.
End Source.

Lemma rows_fit_le wb n rows : rows_fit wb n rows <= length rows.
Proof. induction rows as [|r rows IH]; cbn [rows_fit length]; [lia|]. destruct (_ <=? _); lia. Qed.
Lemma rows_fit_all wb n rows : rows_fit wb n rows = length rows <-> forall r, In r rows -> (r + 1) * wb <= n.
Proof.
  induction rows as [|r rows IH]; cbn [rows_fit length In]; [split; [intros _ r []|reflexivity]|].
  destruct (Nat.leb_spec ((r + 1) * wb) n) as [H|H].
  - rewrite Nat.succ_inj_wd, IH. split; [intros K r' [<-|Hr]; auto|intros K r' Hr; apply K; now right].
  - split; [discriminate|]. intros K. pose proof (K r (or_introl eq_refl)). lia.
Qed.

Open Scope N_scope.
Section SD.
Variable L : lzw_codec.
Variable S : lzw_spec L.
Variable umax : N.
Hypothesis Humax : 2 ^ 32 - 1 <= umax.
Notation dcd := (dcd L).
Notation rd := (rd L).
Variable o : options.
Variable g : gif.
Variable tl : list N.
Notation ready := (ready L S o g (done g tl)).
Notation finished := (finished L g tl).
Notation inpx := (inpx L S o g (done g tl)).
Notation atend := (atend L S o g (done g tl)).
Notation after := (after (done g tl)).
Hypothesis noskip : o_skip_frame_decoding o = false.
Hypothesis nocheck : o_check_for_end_code o = false.
Hypothesis Hlimit : limit_ok umax (o_limit o).

Lemma settings_of d : file_dec L o g d -> cv_color (dc_conv L d) = o_color o /\ cv_limit (dc_conv L d) = o_limit o.
Proof.
  intros F. destruct (fl_quiet _ _ _ _ F) as [(_ & _ & G3 & G4 & _) _]. rewrite G4, G3, (fl_opts _ _ _ _ F). auto.
Qed.

(** A frame that is too large is refused before its data are touched. *)
Lemma frame_too_large d c bs c1 i l out : ready d c bs -> controlled c bs = (c1, i) :: l ->
  lz_pending S (lz_new L (im_mcs i)) (payload (im_subs i)) out ->
  (umax <? N.of_nat (frame_bytes o i)) || match o_limit o with Some l => l <? N.of_nat (frame_bytes o i) | None => false end = true ->
  exists d' bs', read_next_frame L umax d = (d', Err (DIo OutOfMemory)) /\ l = controlled ctl_none bs' /\ inpx d' bs' out.
Proof.
  intros Hr Ec Hp Hbig. pose proof (next_frame_info_doc L S umax Humax o g tl d c bs Hr) as H. rewrite Ec in H.
  destruct H as (d1 & bs' & E & El & Hi & Hin & Hcur & Hty).
  pose proof (inimg_px L S o g (done g tl) d1 i bs' out noskip Hin Hp) as (F & x & Hok & Hpx).
  destruct (settings_of d1 F) as [Eco Eli].
  assert (Ef : conv_read_frame umax rd (decode_next_bytes L) (dc_rd L d1) (dc_conv L d1) (dc_cur L d1)
             = (dc_rd L d1, dc_conv L d1, dc_cur L d1, Err (DIo OutOfMemory))).
  { unfold conv_read_frame, check_buffer_size, limit_buffer_size. rewrite Eco, Eli, Hcur. cbn [f_width f_height meta_frame].
    assert (En : im_w i * im_h i * match o_color o with CRgba => 4 | CIndexed => 1 end = N.of_nat (frame_bytes o i)).
    { unfold frame_bytes, im_pixels, px_bytes. destruct (o_color o); lia. }
    rewrite En. apply Bool.orb_true_iff in Hbig. destruct (N.leb_spec (N.of_nat (frame_bytes o i)) umax) as [Hle|Hle].
    - destruct Hbig as [Hb|Hb]; [apply N.ltb_lt in Hb; lia|]. destruct (o_limit o) as [lim|]; [|discriminate Hb]. rewrite Hb. reflexivity.
    - reflexivity. }
  unfold read_next_frame. rewrite E, Hty. unfold DocBlocks.img_ty. rewrite noskip. rewrite Ef.
  eexists. exists bs'. split; [reflexivity|]. split; [exact El|].
  split; [|exists x; split; [exact Hok|exact Hpx]].
  eapply pxr_file; [exact F|exact Hpx|apply same_settings_refl|]. destruct (fl_quiet _ _ _ _ F) as [(_ & G2 & _) _]. exact G2.
Qed.

Lemma allowed_size i : img_ok o g i ->
  (umax <? N.of_nat (frame_bytes o i)) || match o_limit o with Some l => l <? N.of_nat (frame_bytes o i) | None => false end = false ->
  N.of_nat (frame_bytes o i) <= umax / 2 /\ fits (o_limit o) (N.of_nat (frame_bytes o i)).
Proof.
  intros (_ & _ & Hw & Hh & _) H. apply Bool.orb_false_iff in H. destruct H as [H1 H2]. apply N.ltb_ge in H1. split.
  - destruct Hlimit as [Hl|Hl].
    + assert (N.of_nat (frame_bytes o i) <= 65535 * 65535 * 4); [|lia].
      assert (E : N.of_nat (frame_bytes o i) = im_w i * im_h i * match o_color o with CRgba => 4 | CIndexed => 1 end).
      { unfold frame_bytes, im_pixels, px_bytes. destruct (o_color o); lia. }
      rewrite E. unfold u16_ok in Hw, Hh. destruct (o_color o); nia.
    + destruct (o_limit o) as [lim|]; [|contradiction]. apply N.ltb_ge in H2. lia.
  - unfold fits. destruct (o_limit o) as [lim|]; [|exact I]. apply N.ltb_ge in H2. exact H2.
Qed.

(** [read_into_buffer] with a buffer of any size. *)
Lemma into_told d c1 i bs out buf : inpx d bs out ->
  dc_cur L d = meta_frame c1 i (is_interlaced (im_flags i)) [] ->
  (0 < im_pixels i)%nat -> N.of_nat (frame_bytes o i) <= umax -> len buf <= umax ->
  exists d' b x, read_into_buffer L umax d buf = (d', b, x) /\ dc_cur L d' = dc_cur L d /\
    length b = length buf /\ (atend d' bs \/ exists out', inpx d' bs out') /\
    match into_verdict o i (length out) (length buf) with
    | None => x = Ok tt /\ b = shown_over (o_color o) (pal_of g i) (c_transparent c1) (im_picture i out) buf ++ skipn (frame_bytes o i) buf
    | Some e => x = Err e /\ (is_interlaced (im_flags i) = false -> e = DFormat BufferTooSmall -> b = buf)
    end.
Proof.
  intros Hin Hcur Hpix Hfb Hu. pose proof Hin as (F & x & Hok & Hpx). destruct (settings_of d F) as [Eco Eli].
  assert (Hwh : (0 < N.to_nat (im_w i) /\ 0 < N.to_nat (im_h i))%nat).
  { unfold im_pixels in Hpix. destruct (N.to_nat (im_w i)); destruct (N.to_nat (im_h i)); lia. }
  assert (Hpb : (0 < px_bytes (o_color o))%nat) by (destruct (o_color o); cbn; lia).
  set (w := N.to_nat (im_w i)) in *. set (h := N.to_nat (im_h i)) in *.
  assert (Hsucc : (im_pixels i <= length out)%nat -> (frame_bytes o i <= length buf)%nat ->
    exists d' b, read_into_buffer L umax d buf = (d', b, Ok tt) /\ dc_cur L d' = dc_cur L d /\
      length b = length buf /\ (atend d' bs \/ exists out', inpx d' bs out') /\
      b = shown_over (o_color o) (pal_of g i) (c_transparent c1) (im_picture i out) buf ++ skipn (frame_bytes o i) buf).
  { intros H1 H2. destruct (read_into_buffer_doc L S umax Humax o g (done g tl) noskip nocheck d c1 i bs out buf Hin Hcur (conj Hpix H1) H2 Hu)
      as (d' & E & C & I). eexists d', _. split; [exact E|]. split; [exact C|]. split; [|split; [right; eauto|reflexivity]].
    assert (Hlen : length (im_picture i out) = im_pixels i).
    { unfold im_picture, picture, deinterlace, im_pixels. destruct (is_interlaced (im_flags i)); [now rewrite map_length, seq_length|].
      rewrite firstn_length. fold w h in H1 |- *. unfold im_pixels in H1. fold w h in H1. lia. }
    unfold frame_bytes. rewrite <- Hlen. apply filled_length. rewrite Hlen. exact H2. }
  unfold into_verdict. destruct (is_interlaced (im_flags i)) eqn:Ei.
  - cbn zeta. fold w h. set (k := rows_fit (px_bytes (o_color o) * w) (length buf) (gif_row_order h)).
    assert (Hk : (k <= length (gif_row_order h))%nat) by apply rows_fit_le.
    assert (Hfull : k = length (gif_row_order h) <-> (frame_bytes o i <= length buf)%nat).
    { unfold k. rewrite rows_fit_all. unfold frame_bytes, im_pixels. fold w h. split.
      - intros K. assert (Hlast : In (h - 1)%nat (gif_row_order h)) by (apply gif_row_order_in; lia).
        specialize (K _ Hlast). replace (h - 1 + 1)%nat with h in K by lia. nia.
      - intros K r Hr. apply gif_row_order_in in Hr. assert ((r + 1) * (px_bytes (o_color o) * w) <= h * (px_bytes (o_color o) * w))%nat by nia. nia. }
    rewrite gif_row_order_length in *.
    destruct (rows_verdict umax rd (decode_next_bytes L) (pxr L S o g (after x bs)) (endr L S o g (after x bs))
       (cb_pxr L S o g noskip nocheck (after x bs)) (cb_endr L S o g noskip nocheck (after x bs))
       (dc_cur L d) w) with (rows := gif_row_order h) (x := dc_rd L d) (c := dc_conv L d) (buf := buf) (out := out)
      as (r & c2 & buf' & res & Ef & Hs & Hlb & Hv).
    { rewrite Hcur. reflexivity. } { apply Hwh. } { exact Hpx. }
    { intros r Hr. apply gif_row_order_in in Hr. rewrite Eco. unfold frame_bytes, im_pixels in Hfb. fold w h in Hfb. nia. }
    rewrite Eco in Hv. fold k in Hv. rewrite gif_row_order_length in Hv.
    assert (Er : read_into_buffer L umax d buf =
      (set_cur L (set_conv L (set_rd L d r) c2) (dc_cur L d) (dc_ty L d), buf', res)).
    { unfold read_into_buffer, conv_read_into_buffer. rewrite Hcur at 1. cbn [f_interlaced meta_frame].
      rewrite interlace_rows_order. rewrite Hcur at 1. cbn [f_height meta_frame]. fold h. rewrite Ef. reflexivity. }
    assert (Gf : frame_ok (dc_cur L d)) by (destruct (fl_quiet _ _ _ _ F) as [(_ & G2 & _) _]; exact G2).
    destruct (Nat.ltb_spec (length out) (k * w)) as [Hlt|Hge].
    + destruct Hv as [-> Hend]. eexists _, buf', _. split; [exact Er|]. split; [reflexivity|]. split; [exact Hlb|]. split.
      * left. split; [eapply endr_file; eassumption|]. exists x. split; [exact Hok|].
        cbn [dc_rd set_cur set_conv set_rd]. destruct Hend as (_ & _ & _ & H1 & H2). auto.
      * split; [reflexivity|discriminate].
    + destruct Hv as [Hpx' Hres]. destruct (Nat.eqb_spec k h) as [Ek|Hne].
      * destruct Hsucc as (d' & b & E & C & Hl & Hi & Eb).
        { unfold im_pixels. fold w h. rewrite <- Ek. nia. } { now apply Hfull. }
        exists d', b, (Ok tt). auto 10.
      * subst res. eexists _, buf', _. split; [exact Er|]. split; [reflexivity|]. split; [exact Hlb|]. split.
        -- right. eexists. split; [eapply pxr_file; eassumption|]. exists x. split; [exact Hok|exact Hpx'].
        -- split; [reflexivity|discriminate].
  - assert (Hbs : buffer_size umax (dc_conv L d) (dc_cur L d) = Some (N.of_nat (frame_bytes o i))).
    { unfold buffer_size, line_length. rewrite Eco, Hcur. cbn [f_width f_height meta_frame].
      assert (E : match o_color o with CRgba => im_w i * 4 | CIndexed => im_w i end * im_h i = N.of_nat (frame_bytes o i)).
      { unfold frame_bytes, im_pixels, px_bytes. destruct (o_color o); lia. }
      rewrite E. destruct (N.leb_spec (N.of_nat (frame_bytes o i)) umax); [reflexivity|lia]. }
    destruct (Nat.ltb_spec (length buf) (frame_bytes o i)) as [Hsm|Hbg].
    + exists d, buf, (Err (DFormat BufferTooSmall)).
      assert (Er : read_into_buffer L umax d buf = (d, buf, Err (DFormat BufferTooSmall))).
      { unfold read_into_buffer, conv_read_into_buffer. rewrite Hbs. rewrite Hcur at 1. cbn [f_interlaced meta_frame].
        unfold len. destruct (N.leb_spec (N.of_nat (frame_bytes o i)) (N.of_nat (length buf))); [lia|]. destruct d; reflexivity. }
      split; [exact Er|]. split; [reflexivity|]. split; [reflexivity|]. split; [right; eauto|]. split; [reflexivity|]. reflexivity.
    + destruct (Nat.ltb_spec (length out) (im_pixels i)) as [Hsh|Hen].
      * destruct (short_fill rd (decode_next_bytes L) (pxr L S o g (after x bs)) (endr L S o g (after x bs))
           (cb_pxr L S o g noskip nocheck (after x bs)) (cb_endr L S o g noskip nocheck (after x bs))
           (dc_rd L d) (dc_conv L d) (dc_cur L d) (firstn (frame_bytes o i) buf) out (im_pixels i)) as (r & c2 & Ef & Hs & Hend).
        { exact Hpx. } { rewrite firstn_length, Eco. unfold frame_bytes in *. lia. } { exact Hsh. }
        set (line := shown_over _ _ _ out (firstn (frame_bytes o i) buf) ++ _) in Ef.
        assert (Hline : length line = frame_bytes o i).
        { unfold line. rewrite filled_length; rewrite firstn_length; [lia|]. rewrite Eco. unfold frame_bytes in *. nia. }
        exists (set_cur L (set_conv L (set_rd L d r) c2) (dc_cur L d) (dc_ty L d)), (line ++ skipn (frame_bytes o i) buf), (Err (DFormat ImageTruncated)).
        split.
        { unfold read_into_buffer, conv_read_into_buffer. rewrite Hbs. rewrite Hcur at 1. cbn [f_interlaced meta_frame].
          unfold len. destruct (N.leb_spec (N.of_nat (frame_bytes o i)) (N.of_nat (length buf))); [|lia].
          cbn zeta. rewrite Nat2N.id, Ef. reflexivity. }
        split; [reflexivity|]. split; [rewrite app_length, skipn_length; lia|]. split; [left|].
        { split; [eapply endr_file; [exact F|exact Hend|exact Hs|]|].
          - destruct (fl_quiet _ _ _ _ F) as [(_ & G2 & _) _]; exact G2.
          - exists x. split; [exact Hok|]. cbn [dc_rd set_cur set_conv set_rd]. destruct Hend as (_ & _ & _ & H1 & H2). auto. }
        split; [reflexivity|discriminate].
      * destruct Hsucc as (d' & b & E & C & Hl & Hi & Eb); [lia|lia|]. exists d', b, (Ok tt). auto 10.
Qed.

(** [fill_buffer] on one slice after the other. *)
Lemma pieces_told c1 i bs bufs : forall d out, inpx d bs out ->
  dc_cur L d = meta_frame c1 i (is_interlaced (im_flags i)) [] ->
  Forall (fun b => exists n, (0 < n)%nat /\ length b = (px_bytes (o_color o) * n)%nat) bufs ->
  (px_bytes (o_color o) * length out < length (concat bufs))%nat ->
  exists d' b rest, fill_each L d bufs = (d', b, Ok false) /\ dc_cur L d' = dc_cur L d /\ atend d' bs /\
    (px_bytes (o_color o) * length out <= length b)%nat /\
    b ++ rest = shown_over (o_color o) (pal_of g i) (c_transparent c1) out (concat bufs) ++ skipn (px_bytes (o_color o) * length out) (concat bufs).
Proof.
  set (pb := px_bytes (o_color o)). assert (Hpb : (0 < pb)%nat) by (unfold pb; destruct (o_color o); cbn; lia).
  induction bufs as [|b bufs IH]; intros d out Hin Hcur Hb Hl; [cbn in Hl; lia|].
  inversion Hb as [|? ? (n & Hn & Eb) Hb']; subst. cbn [concat] in *. rewrite app_length in Hl. cbn [fill_each].
  destruct (le_lt_dec n (length out)) as [Hge|Hlt].
  - destruct (fill_buffer_doc L S umax Humax o g (done g tl) noskip nocheck d c1 i bs out b n Hin Hcur (conj Hn Hge) Eb) as (d1 & E1 & C1 & I1).
    rewrite <- C1 in Hcur. destruct (IH d1 (skipn n out) I1 Hcur Hb') as (d2 & b2 & rest & E2 & C2 & I2 & H2 & R2); [rewrite skipn_length; fold pb in Eb; nia|].
    rewrite E1, E2. eexists d2, _, rest. split; [reflexivity|]. split; [congruence|]. split; [exact I2|].
    assert (Hfl : length (firstn n out) = n) by (rewrite firstn_length; lia).
    assert (Hsl : length (shown_over (o_color o) (pal_of g i) (c_transparent c1) (firstn n out) b) = (pb * n)%nat).
    { pose proof (filled_length (o_color o) (pal_of g i) (c_transparent c1) (firstn n out) b) as X. rewrite Hfl in X. fold pb in X, Eb.
      specialize (X ltac:(lia)). rewrite app_length, skipn_length in X. lia. }
    split; [rewrite app_length, Hsl; rewrite skipn_length in H2; nia|].
    rewrite <- (firstn_skipn n out) at 2. rewrite shown_over_app by (rewrite Hfl; exact Eb).
    rewrite <- !app_assoc. f_equal. rewrite R2. f_equal. rewrite skipn_length. fold pb in Eb.
    rewrite skipn_app. replace (skipn (pb * length out) b) with (@nil N) by (symmetry; apply skipn_all2; nia).
    cbn [app]. f_equal. nia.
  - destruct (fill_buffer_short L S o g tl noskip nocheck d c1 i bs out b n Hin Hcur Hlt Eb) as (d1 & E1 & C1 & I1).
    rewrite E1. eexists d1, _, (concat bufs). split; [reflexivity|]. split; [exact C1|]. split; [exact I1|].
    fold pb. fold pb in Eb. split.
    { rewrite (filled_length (o_color o)) by (fold pb; nia). nia. }
    rewrite skipn_app. replace (pb * length out - length b)%nat with O by nia. cbn [skipn]. rewrite app_assoc. f_equal. f_equal.
    unfold shown_over. destruct (o_color o) eqn:Eo; [|reflexivity]. unfold paint. rewrite !flat_map_concat_map. f_equal. apply map_ext_in. intros k Hk. apply in_seq in Hk.
    destruct (rgba_of _ _ _); [reflexivity|]. rewrite skipn_app, firstn_app, skipn_length.
    assert (pb = 4)%nat by (unfold pb; reflexivity).
    replace (4 - (length b - 4 * k))%nat with O by nia. cbn [firstn]. now rewrite app_nil_r.
Qed.

(** One image, any way of reading it. *)
Lemma how_told d c bs c1 i l m out : ready d c bs -> controlled c bs = (c1, i) :: l ->
  (m <> HSkip -> lz_pending S (lz_new L (im_mcs i)) (payload (im_subs i)) out) -> sensible umax o m i ->
  exists d' f b x bs', read_how L umax d m = (d', f, b, x) /\ told umax o g m (c1, i) out (f, b, x) /\
    l = controlled ctl_none bs' /\ ready d' ctl_none bs'.
Proof.
  intros Hr Ec Hpend Hs. pose proof (next_frame_info_doc L S umax Humax o g tl d c bs Hr) as H. rewrite Ec in H.
  destruct H as (d1 & bs' & E & El & Hi & Hin & Hcur & Hty).
  assert (Hpb : (0 < px_bytes (o_color o))%nat) by (destruct (o_color o); cbn; lia).
  destruct m as [|buf|bufs|] eqn:Em; [| | |clear Hpend].
  1-3: assert (Hp : lz_pending S (lz_new L (im_mcs i)) (payload (im_subs i)) out) by (apply Hpend; discriminate); clear Hpend;
    pose proof (inimg_px L S o g (done g tl) d1 i bs' out noskip Hin Hp) as Hpx.
  all: cbn [read_how told sensible fst snd] in *.
  - unfold frame_verdict.
    destruct ((umax <? N.of_nat (frame_bytes o i)) || match o_limit o with Some l => l <? N.of_nat (frame_bytes o i) | None => false end) eqn:Hbig.
    + destruct (frame_too_large d c bs c1 i l out Hr Ec Hp Hbig) as (d2 & bs2 & E2 & El2 & I2). rewrite E2.
      eexists d2, _, _, _, bs2. split; [reflexivity|]. split; [reflexivity|]. split; [exact El2|].
      exact (inpx_ready L S o g (done g tl) d2 bs2 _ nocheck I2).
    + destruct (allowed_size i Hi Hbig) as [M3 M4]. destruct (Nat.ltb_spec (length out) (im_pixels i)) as [Hlt|Hge].
      * destruct (read_next_frame_short L S umax Humax o g tl noskip nocheck d c bs c1 i l out Hr Ec) as (d2 & bs2 & E2 & El2 & _ & I2).
        { repeat (split; [assumption|]). exact M4. } { exact Hlt. }
        rewrite E2. eexists d2, _, _, _, bs2. split; [reflexivity|]. split; [reflexivity|]. split; [exact El2|].
        exact (atend_ready L S o g (done g tl) d2 bs2 I2).
      * pose proof (read_next_frame_doc L S umax Humax o g tl noskip nocheck d c bs Hr) as H. rewrite Ec in H.
        destruct (H out Hp (conj Hs Hge) M3 M4) as (d2 & bs2 & E2 & El2 & Hcur2 & Hpx2).
        rewrite E2, Hcur2. eexists d2, _, _, _, bs2. split; [reflexivity|]. split; [split; reflexivity|]. split; [exact El2|].
        exact (inpx_ready L S o g (done g tl) d2 bs2 _ nocheck Hpx2).
  - destruct Hs as (M1 & M2 & M3). rewrite E.
    destruct (into_told d1 c1 i bs' out buf Hpx Hcur M1 M2 M3) as (d2 & b & x & E2 & C2 & Hlb & Hend & Hv). rewrite E2.
    assert (Hrdy : ready d2 ctl_none bs').
    { destruct Hend as [Hat|(out' & I2)]; [exact (atend_ready L S o g (done g tl) d2 bs' Hat)|exact (inpx_ready L S o g (done g tl) d2 bs' _ nocheck I2)]. }
    eexists d2, _, _, _, bs'. split; [reflexivity|]. split; [|auto].
    split; [rewrite C2, Hcur; reflexivity|]. split; [exact Hlb|].
    destruct (into_verdict o i (length out) (length buf)) as [e|]; destruct Hv as [-> Hv]; auto.
  - rewrite E. destruct (Nat.leb_spec (length (concat bufs)) (px_bytes (o_color o) * length out)) as [Hle|Hgt].
    + destruct (fill_each_doc L S umax Humax o g tl noskip nocheck c1 i bs' bufs d1 out Hpx Hcur Hs Hle) as (d2 & out2 & E2 & C2 & I2). rewrite E2.
      eexists d2, _, _, _, bs'. split; [reflexivity|]. split; [|split; [exact El|exact (inpx_ready L S o g (done g tl) d2 bs' _ nocheck I2)]].
      split; [rewrite C2, Hcur; reflexivity|]. auto.
    + destruct (pieces_told c1 i bs' bufs d1 out Hpx Hcur Hs Hgt) as (d2 & b & rest & E2 & C2 & I2 & H2 & R2). rewrite E2.
      eexists d2, _, _, _, bs'. split; [reflexivity|]. split; [|split; [exact El|exact (atend_ready L S o g (done g tl) d2 bs' I2)]].
      split; [rewrite C2, Hcur; reflexivity|]. split; [reflexivity|]. split; [exact H2|]. exists rest. exact R2.
  - rewrite E. eexists d1, _, _, _, bs'. split; [reflexivity|]. split; [split; [reflexivity|rewrite Hcur; reflexivity]|]. split; [exact El|].
    exact (inimg_ready L S o g (done g tl) d1 i bs' Hin Hi (or_intror nocheck)).
Qed.

Notation asked := (asked L S umax o).

Lemma each_told mos : forall d c bs, ready d c bs -> Forall2 asked (controlled c bs) mos ->
  exists d' rs, read_each L umax d (map fst mos) = (d', rs, Ok false) /\ finished d' /\
    Forall2 (fun cm r => told umax o g (fst (snd cm)) (fst cm) (snd (snd cm)) r) (combine (controlled c bs) mos) rs.
Proof.
  induction mos as [|[m out] mos IH]; intros d c bs Hr Hm.
  - destruct (controlled c bs) as [|ci l] eqn:Ec; [|inversion Hm].
    pose proof (next_frame_info_doc L S umax Humax o g tl d c bs Hr) as H. rewrite Ec in H. destruct H as (d' & E & F).
    exists d', []. cbn [map read_each]. rewrite E. split; [reflexivity|]. split; [exact F|constructor].
  - destruct (controlled c bs) as [|[c1 i] l] eqn:Ec; [inversion Hm|].
    inversion Hm as [|? ? ? ? [Hp Hs] Hm2]; subst. cbn [fst snd] in Hp, Hs.
    destruct (how_told d c bs c1 i l m out Hr Ec Hp Hs) as (d1 & f & b & x & bs' & E & Ht & El & Hr1). rewrite El in *.
    destruct (IH d1 ctl_none bs' Hr1 Hm2) as (d2 & rs & E2 & F2 & T2).
    exists d2, ((f, b, x) :: rs). cbn [map fst read_each]. rewrite E, E2. split; [reflexivity|]. split; [exact F2|].
    cbn [combine]. constructor; [exact Ht|exact T2].
Qed.

Notation one_frame := (one_frame L S).
Notation iter_told := (iter_told umax o g).

Lemma iter_verdicts k : forall l d c bs outs, ready d c bs -> controlled c bs = l -> Forall2 one_frame l outs ->
  exists it, iter_all L umax (length (iter_told l outs) + k) (mk_iter L d false) = (it, iter_told l outs ++ repeat INone k).
Proof.
  induction l as [|[c1 i] l IH]; intros d c bs outs Hr Ec Hm; inversion Hm as [|? out ? outs' Hm1 Hm2]; subst; cbn [iter_told length].
  - cbn [Nat.add app]. destruct k as [|k]; [exists (mk_iter L d false); reflexivity|].
    pose proof (read_next_frame_doc L S umax Humax o g tl noskip nocheck d c bs Hr) as H. rewrite Ec in H.
    destruct H as (d' & E & F). cbn [iter_all]. unfold iter_next. cbn [it_ended it_dec]. rewrite E, iter_ended. eexists. reflexivity.
  - destruct Hm1 as [Hp Hpix]. cbn [fst snd] in *.
    destruct (how_told d c bs c1 i l HFrame out Hr Ec (fun _ => Hp) Hpix) as (d1 & f & b & x & bs' & E & Ht & El & Hr1).
    cbn [read_how] in E. destruct (read_next_frame L umax d) as [d2 x2] eqn:E2. injection E as <- <- <- <-.
    cbn [told snd] in Ht. cbn [snd]. destruct (frame_verdict umax o i (length out)) as [e|] eqn:Ev.
    + subst x2. cbn [length Nat.add iter_all app]. unfold iter_next. cbn [it_ended it_dec]. rewrite E2, iter_ended. eexists. reflexivity.
    + destruct Ht as [-> Hcur]. cbn [length Nat.add iter_all app]. unfold iter_next. cbn [it_ended it_dec]. rewrite E2, Hcur.
      assert (Hne : f_buffer (seen o g (c1, i) out) <> []).
      { cbn [seen fst snd meta_frame f_buffer]. unfold frame_verdict in Ev. destruct (_ || _); [discriminate Ev|].
        destruct (Nat.ltb_spec (length out) (im_pixels i)); [discriminate Ev|].
        intros X. apply (f_equal (@length N)) in X. revert X. unfold seen, meta_frame. cbn [f_buffer fst snd].
        unfold shown. assert (Hlen : length (im_picture i out) = im_pixels i).
        { unfold im_picture, picture, deinterlace, im_pixels in *. destruct (is_interlaced (im_flags i)); [now rewrite map_length, seq_length|].
          rewrite firstn_length. lia. }
        destruct (im_picture i out) as [|p q]; [cbn [length] in Hlen; lia|]. destruct (o_color o); cbn [flat_map length]; [|discriminate].
        rewrite app_length. unfold rgba_of. cbn zeta. destruct (_ <=? _)%nat; cbn [length]; discriminate. }
      destruct (f_buffer (seen o g (c1, i) out)) as [|y z] eqn:Eb; [congruence|]. cbn [is_nil]. unfold frame_take.
      destruct (IH (set_cur L d2 (snd (frame_take (seen o g (c1, i) out))) (dc_ty L d2)) ctl_none bs' outs') as (it & E').
      * apply ready_take; [exact Hr1|]. destruct Hr1 as ([[(_ & G2 & _) _] _ _ _ _ _ _ _] & _). rewrite Hcur in G2.
        destruct G2 as (F1 & F2 & F3 & F4 & F5 & F6 & _). unfold frame_take. cbn [snd].
        split; [exact F1|]. split; [exact F2|]. split; [exact F3|]. split; [exact F4|]. split; [exact F5|]. split; [exact F6|exact I].
      * symmetry. exact El.
      * exact Hm2.
      * unfold frame_take in E'. cbn [snd] in E'. rewrite E'. exists it. reflexivity.
Qed.
End SD.

Section File.
Variable L : lzw_codec.
Variable S : lzw_spec L.
Variable umax : N.
Hypothesis Humax : 2 ^ 32 - 1 <= umax.

Theorem file_verdicts o g tl src mos : gif_ok o g -> delivers src (ser_gif g tl) ->
  o_skip_frame_decoding o = false -> o_check_for_end_code o = false -> limit_ok umax (o_limit o) ->
  Forall2 (asked L S umax o) (gif_images g) mos ->
  exists d d' rs, read_info L src o = Ok d /\ read_each L umax d (map fst mos) = (d', rs, Ok false) /\
    rd_rest L (dc_rd L d') = tl /\
    Forall2 (fun cm r => told umax o g (fst (snd cm)) (fst cm) (snd (snd cm)) r) (combine (gif_images g) mos) rs.
Proof.
  intros Hg (H1 & H2 & H3) N1 N2 Hl Ho. destruct (read_info_doc L S umax Humax o g tl src Hg H1 H2 H3) as (d & c & bs & E & Hr & Ec).
  rewrite <- Ec in Ho. destruct (each_told L S umax Humax o g tl N1 N2 Hl mos d c bs Hr Ho) as (d' & rs & E' & F & T).
  exists d, d', rs. split; [exact E|]. split; [exact E'|]. rewrite <- Ec. split; [apply F|exact T].
Qed.

Theorem file_iter_verdicts o g tl src outs k : gif_ok o g -> delivers src (ser_gif g tl) ->
  o_skip_frame_decoding o = false -> o_check_for_end_code o = false -> limit_ok umax (o_limit o) ->
  Forall2 (one_frame L S) (gif_images g) outs ->
  exists d it, read_info L src o = Ok d /\
    iter_all L umax (length (iter_told umax o g (gif_images g) outs) + k) (mk_iter L d false) =
      (it, iter_told umax o g (gif_images g) outs ++ repeat INone k).
Proof.
  intros Hg (H1 & H2 & H3) N1 N2 Hl Ho. destruct (read_info_doc L S umax Humax o g tl src Hg H1 H2 H3) as (d & c & bs & E & Hr & Ec).
  destruct (iter_verdicts L S umax Humax o g tl N1 N2 Hl k (gif_images g) d c bs outs Hr Ec Ho) as (it & E').
  exists d, it. auto.
Qed.
End File.

(** Compressed frames: one that is over the limit is refused. *)
Section Raw.
Variable L : lzw_codec.
Variable S : lzw_spec L.
Notation safe := (lz_is_safe L S).
Variable umax : N.
Hypothesis Humax : 2 ^ 32 - 1 <= umax.

Lemma copy_over n : forall s str data rest k v, (length str <= n)%nat -> sd_wf L s ->
  sd_state L s = CopySubBlock k -> inblk k str data rest -> data <> [] ->
  check_size (o_limit (sd_opts L s)) (len v + N.of_nat (length data)) = false ->
  cn L s str (OVec v) (CErr L (DFormat MemoryLimitReached)).
Proof.
  induction n as [|n IH]; intros s str data rest k v Hl Hw Hst Hi Hne Hf.
  { destruct Hi as (cur & subs & -> & _). rewrite !app_length in Hl. cbn in Hl. lia. }
  apply inblk_cases in Hi. destruct Hi as [(cur & tl & Hk & -> & Hcur & data' & -> & Hi)|(-> & [(b & t & -> & Hb & Hi)|(-> & ->)])].
  - rewrite app_length in Hl, Hf.
    destruct (check_size (o_limit (sd_opts L s)) (len v + N.of_nat (length cur))) eqn:Hf1.
    2:{ eapply cn_cp_limit; [apply safe|exact Hw|exact Hst|lia|exact Hf1]. }
    assert (Ek : (k - length cur)%nat = O) by lia.
    assert (W : sd_wf L (set_state L s (CopySubBlock 0))).
    { destruct Hw as (W1 & W2 & W3 & W4). unfold gct_wf, cur_wf, mode_wf in *. rewrite Hst in *.
      split; [exact W1|]. split; [exact W2|]. split; [exact W3|exact W4]. }
    eapply cn_cp; [apply safe|exact Hw|exact Hst|lia|reflexivity|exact Hf1|]. rewrite Ek. cbn [ob_app].
    eapply (IH _ tl data' rest 0%nat); [lia|exact W|reflexivity|exact Hi| |].
    + intros ->. cbn [length] in Hf. rewrite Nat.add_0_r in Hf. congruence.
    + cbn [sd_opts set_state]. rewrite <- Hf. f_equal. unfold len. rewrite app_length. lia.
  - pose proof (N_cp_next L s [b] (OVec v) b [] Hst eq_refl Hb) as Hn.
    eapply cn_nst1; [exact Hw|exact Hn| |lia]. cbn [silent skipn].
    eapply (IH _ t data rest); [cbn in Hl; lia| |reflexivity|exact Hi|exact Hne|exact Hf].
    eapply wf_step; [apply safe|exact Hw| |exact Hn]. intros E. rewrite Hst in E. discriminate.
  - congruence.
Qed.

Variable o : options.
Variable g : gif.
Variable ez : ending.
Hypothesis raw : o_skip_frame_decoding o = true.

Definition too_large (i : img) : Prop := ~ fits (o_limit o) (1 + len (payload (im_subs i))).

Lemma read_over d c bs c1 i l : ready L S o g ez d c bs -> controlled c bs = (c1, i) :: l ->
  payload (im_subs i) <> [] -> too_large i ->
  exists d', read_next_frame L umax d = (d', Err (DFormat MemoryLimitReached)).
Proof.
  intros Hr Ec Hne Hlim. pose proof (next_frame_info_at L S umax Humax o g ez d c bs Hr) as H. rewrite Ec in H.
  destruct H as (d1 & bs' & E & El & Hi & Hin & Hcur & Hty).
  unfold read_next_frame. rewrite E, Hty. unfold DocBlocks.img_ty. rewrite raw.
  destruct Hin as (F & x0 & Hok & M & _). pose proof F as [[G Q] Feof Fo Fw Fh Fg Fb Fr]. pose proof G as (Gr & Gf & _).
  destruct M as [M1 M2 M3 M4 M5 M6 M7 (k & Hib & Hk)]. rewrite raw in Hk.
  assert (Hcn : cn L (rd_dec L (dc_rd L d1)) (rd_rest L (dc_rd L d1)) (OVec [im_mcs i]) (CErr L (DFormat MemoryLimitReached))).
  { eapply copy_over; [apply Nat.le_refl|exact M1|exact Hk|exact Hib|exact Hne|]. rewrite M2.
    unfold too_large, fits in Hlim. unfold check_size. destruct (o_limit o) as [lim|]; [|tauto].
    unfold len in *. cbn [length]. apply N.leb_gt. lia. }
  unfold copy_lzw_into_buffer. cbn [app].
  destruct (copy_lzw_loop L (ev_fuel L (dc_rd L d1)) (dc_rd L d1) [im_mcs i]) as [[r v] x] eqn:Ec'.
  pose proof (copy_lzw_loop_returns L safe umax Humax _ _ _ Gr (rmeas_fuel L umax Humax _) _ _ _ Ec') as (Rt & Gr' & Ko & _).
  pose proof (copy_loop_rel L safe _ _ _ _ _ _ Gr Feof Ec') as Hc.
  unfold copy_rel in Hc.
  destruct x as [[]|e| | ]; try easy.
  - exfalso. destruct Hc as [_ Hc]. pose proof (cn_det L _ _ _ _ Hc _ Hcn) as Eq. discriminate.
  - assert (Ee : e = DFormat MemoryLimitReached).
    { destruct Hc as [(_ & s1 & str1 & ob1 & dd & Hd & Hc)|[Hc|[[_ Hc]|Hc]]].
      - pose proof (cn_det L _ _ _ _ Hc _ Hcn) as Eq. discriminate.
      - pose proof (cn_det L _ _ _ _ Hc _ Hcn) as Eq. congruence.
      - pose proof (cn_det L _ _ _ _ Hc _ Hcn) as Eq. discriminate.
      - exfalso. eapply cut_good; eassumption. }
    subst e. eexists. reflexivity.
Qed.

Lemma read_all_over pre ci post n : forall d c bs, ready L S o g ez d c bs ->
  controlled c bs = pre ++ ci :: post -> (length pre < n)%nat ->
  Forall (fun ci => fits (o_limit o) (1 + len (payload (im_subs (snd ci))))) pre ->
  payload (im_subs (snd ci)) <> [] -> too_large (snd ci) ->
  exists d', read_all L umax n d = (d', map raw_seen pre, Err (DFormat MemoryLimitReached)).
Proof.
  revert n. induction pre as [|[c1 i] pre IH]; intros n d c bs Hr Ec Hn Hm Hne Hl; (destruct n as [|n]; [cbn in Hn; lia|]); cbn [read_all].
  - cbn [app] in Ec. destruct ci as [c1 i]. destruct (read_over d c bs c1 i post Hr Ec Hne Hl) as [d' E].
    rewrite E. exists d'. reflexivity.
  - pose proof (read_next_frame_raw_at L S umax Humax o g ez d c bs raw Hr) as H. rewrite Ec in H. cbn [app] in H.
    inversion Hm as [|? ? Hm1 Hm2]; subst. destruct (H Hm1) as (d1 & bs' & E & El & Hi & Hcur & Hr1). rewrite E.
    cbn [length] in Hn. destruct (IH n d1 ctl_none bs' Hr1) as (d' & E'); [congruence|lia|exact Hm2|exact Hne|exact Hl|].
    exists d'. rewrite E'. cbn [map]. now rewrite Hcur.
Qed.
End Raw.

Theorem file_raw_over L (S : lzw_spec L) umax (Humax : 2 ^ 32 - 1 <= umax) o g tl src pre ci post n :
  gif_ok o g -> delivers src (ser_gif g tl) -> o_skip_frame_decoding o = true ->
  gif_images g = pre ++ ci :: post -> (length pre < n)%nat ->
  Forall (fun ci => fits (o_limit o) (1 + len (payload (im_subs (snd ci))))) pre ->
  payload (im_subs (snd ci)) <> [] -> ~ fits (o_limit o) (1 + len (payload (im_subs (snd ci)))) ->
  exists d d', read_info L src o = Ok d /\ read_all L umax n d = (d', map raw_seen pre, Err (DFormat MemoryLimitReached)).
Proof.
  intros Hg Hd Hraw Ei Hn Hm Hne Hl.
  destruct (cut_opened L S umax Humax o g (0x3B :: tl) (gif_part_ok _ _ Hg) (done_starts o g tl Hg) (done_opens g tl _) src Hd)
    as (d & c & bs & E & Hr & Ec).
  rewrite Ei in Ec. destruct (read_all_over L S umax Humax o g _ Hraw pre ci post n d c bs Hr Ec Hn Hm Hne Hl) as (d' & E').
  exists d, d'. split; [exact E|exact E'].
Qed.
