(** Image data that hold fewer pixels than the image has: the frame is reported as truncated, the frames after
    it are read as if nothing had happened (C51). *)
From Verif Require Import Base Common Lzw Encoder Stream Converter Reader StreamInv Steps StepsRev
  ReaderInv Interlace Ranges ConvInv DecoderSafe Canon CanonReader SpecGif DocTrace DocBlocks SpecPixels
  Pixels PixelRead DocRead DocAll.
Open Scope nat_scope.

Lemma paint_expand pal t px buf : 4 * length px <= length buf ->
  expand pal t px buf = shown_over CRgba pal t px buf ++ skipn (4 * length px) buf.
Proof.
  intros H. assert (E : expand pal t px buf = expand pal t px (firstn (length px * 4) buf) ++ skipn (length px * 4) buf).
  { rewrite <- (app_nil_r px) at 1. rewrite expand_app by lia. reflexivity. }
  assert (Hf : length (firstn (length px * 4) buf) = 4 * length px) by (rewrite firstn_length; lia).
  apply (shown_over_cells CRgba pal t px buf (expand pal t px buf)); cbn [px_bytes].
  - exact H.
  - rewrite E, app_length, expand_length, skipn_length by lia. lia.
  - intros k Hk. rewrite E. rewrite cell_app1 by (rewrite expand_length by lia; lia).
    rewrite expand_cells by lia. f_equal. rewrite Nat.mul_comm.
    pose proof (cell_slice 4 0 (length px) k buf Hk) as Hc. rewrite Nat.mul_0_r in Hc. cbn [skipn Nat.add] in Hc. exact Hc.
  - rewrite E. rewrite skipn_app, (skipn_all2 (expand _ _ _ _)) by (rewrite expand_length by lia; lia).
    rewrite expand_length by lia. replace (4 * length px - length (firstn (length px * 4) buf)) with 0 by lia.
    cbn [app skipn]. f_equal. lia.
Qed.

Lemma filled_length c pal t px buf : px_bytes c * length px <= length buf ->
  length (shown_over c pal t px buf ++ skipn (px_bytes c * length px) buf) = length buf.
Proof.
  intros H. destruct c; cbn [px_bytes] in *.
  - rewrite <- paint_expand by lia. apply expand_length. lia.
  - cbn [shown_over]. rewrite app_length, skipn_length. lia.
Qed.

Section Source.
Variable umax : N.
Variable St : Type.
Variable cb : St -> obuf -> St * obuf * dres nat.
Variable P : St -> list N -> Prop.
(** .. and the source at its end. *)
Variable Q : St -> Prop.
Hypothesis cb_px : forall x out sl, P x out -> out <> [] -> sl <> [] ->
  exists x' w out', cb x (OSlice sl) = (x', OSlice (w ++ skipn (length w) sl), Ok (length w)) /\
    w <> [] /\ length w <= length sl /\ out = w ++ out' /\ P x' out'.
Hypothesis cb_end : forall x sl, P x [] -> sl <> [] ->
  exists x', cb x (OSlice sl) = (x', OSlice sl, Ok 0) /\ Q x'.

Lemma short_indexed f : forall fuel x c done buf out, cv_color c = CIndexed -> P x out ->
  length out < length buf -> length buf < fuel ->
  exists x', fill_loop St cb fuel x c f done buf = (x', c, done ++ out ++ skipn (length out) buf, Ok false) /\ Q x'.
Proof.
  induction fuel as [|fuel IH]; intros x c done buf out Hc Hp Hl Hf; [lia|].
  assert (Hb : buf <> []) by (intros ->; cbn in Hl; lia).
  cbn [fill_loop]. rewrite Hc. destruct (list_eq_dec N.eq_dec out []) as [->|Ho].
  { destruct (cb_end x buf Hp Hb) as (x' & E & Hq). rewrite E. cbn [obuf_bytes]. exists x'. auto. }
  destruct (cb_px x out buf Hp Ho Hb) as (x1 & w & out' & E & Hw & Hwl & -> & Hp1).
  rewrite E. cbn [obuf_bytes].
  destruct w as [|b w]; [congruence|]. remember (b :: w) as ww eqn:Eww.
  assert (Hn : length ww = S (length w)) by (subst; reflexivity).
  destruct (length ww) as [|m0] eqn:Em; [lia|]. cbv beta iota. rewrite <- Em in *. clear m0 Em Hn E.
  assert (Hn : 0 < length ww) by (subst ww; cbn; lia).
  assert (Hlen : length (ww ++ skipn (length ww) buf) = length buf).
  { rewrite app_length, skipn_length. lia. }
  rewrite Hlen. destruct (Nat.ltb_spec (length buf) (length ww)); [lia|].
  rewrite firstn_app, Nat.sub_diag, firstn_all, skipn_app, skipn_all, Nat.sub_diag.
  cbn [firstn skipn app]. rewrite app_nil_r. rewrite app_length in Hl.
  destruct (is_nil (skipn (length ww) buf)) eqn:En.
  { apply is_nil_true in En. apply (f_equal (@length N)) in En. rewrite skipn_length in En. cbn [length] in En. lia. }
  destruct (IH x1 c (done ++ ww) (skipn (length ww) buf) out' Hc Hp1) as (x2 & E2 & Hq).
  { rewrite skipn_length. lia. } { rewrite skipn_length. lia. }
  rewrite E2. exists x2. split; [|exact Hq]. rewrite app_length, <- !app_assoc. rewrite skipn_skipn, (Nat.add_comm (length ww)). reflexivity.
Qed.

Lemma short_rgba f : forall fuel x c done buf out n, cv_color c = CRgba -> P x out ->
  length buf = 4 * n -> length out < n -> length buf < fuel ->
  exists x' c', fill_loop St cb fuel x c f done buf =
      (x', c', done ++ expand (effective_palette c f) (f_transparent f) out buf, Ok false) /\
    same_settings c c' /\ Q x'.
Proof.
  induction fuel as [|fuel IH]; intros x c done buf out n Hc Hp Hb Hl Hf; [lia|].
  cbn [fill_loop]. rewrite Hc.
  assert (Es : length buf / 4 = n) by (rewrite Hb, Nat.mul_comm; apply Nat.div_mul; lia).
  rewrite Es. destruct (Nat.eqb_spec n 0); [lia|]. cbn zeta.
  set (scratch := if length (cv_buffer c) <? n then grow (cv_buffer c) n else cv_buffer c).
  assert (Hs : n <= length scratch).
  { unfold scratch. destruct (Nat.ltb_spec (length (cv_buffer c)) n); [rewrite grow_length; lia|lia]. }
  assert (Hfs : length (firstn n scratch) = n) by (rewrite firstn_length; lia).
  assert (Hsl : firstn n scratch <> []) by (intros E; rewrite E in Hfs; cbn in Hfs; lia).
  destruct (list_eq_dec N.eq_dec out []) as [->|Ho].
  { destruct (cb_end x _ Hp Hsl) as (x' & E & Hq). rewrite E. cbn [expand]. eexists x', _. split; [reflexivity|].
    split; [repeat split; reflexivity|exact Hq]. }
  destruct (cb_px x out _ Hp Ho Hsl) as (x1 & w & out' & E & Hw & Hwl & -> & Hp1).
  rewrite E. cbn [obuf_bytes]. rewrite Hfs in Hwl.
  destruct w as [|b w]; [congruence|]. remember (b :: w) as ww eqn:Eww.
  assert (Hwn : length ww = S (length w)) by (subst; reflexivity).
  destruct (length ww) as [|m0] eqn:Em; [lia|]. cbv beta iota zeta. rewrite <- Em in *. clear m0 Em Hwn E.
  assert (Hwn : 0 < length ww) by (subst ww; cbn; lia).
  match goal with |- context [with_cbuf c ?s] => set (scr1 := s) in * end.
  set (c1 := with_cbuf c scr1).
  assert (Hset : same_settings c c1) by (repeat split; reflexivity).
  assert (Ef1 : firstn (length ww) scr1 = ww).
  { unfold scr1. rewrite <- !app_assoc, firstn_app, Nat.sub_diag, firstn_all. cbn [firstn]. apply app_nil_r. }
  change (effective_palette c1 f) with (effective_palette c f). rewrite Ef1.
  rewrite app_length in Hl.
  destruct (Nat.ltb_spec (length buf) (length ww * 4)); [lia|].
  destruct (is_nil (skipn (length ww * 4) buf)) eqn:En.
  { apply is_nil_true in En. apply (f_equal (@length N)) in En. rewrite skipn_length in En. cbn [length] in En. lia. }
  match goal with |- context [fill_loop St cb fuel x1 c1 f ?d ?bb] =>
    destruct (IH x1 c1 d bb out' (n - length ww)) as (x2 & c2 & E2 & Hset2 & Hq) end;
    [exact Hc|exact Hp1|rewrite skipn_length; lia|lia|rewrite skipn_length; lia|].
  rewrite E2. exists x2, c2. split; [|split; [exact (same_settings_trans _ _ _ Hset Hset2)|exact Hq]].
  rewrite expand_app by lia. rewrite <- app_assoc. reflexivity.
Qed.

(** [fill_buffer] on a buffer of [n] cells when fewer pixels are left. *)
Lemma short_fill x c f buf out n : P x out -> length buf = px_bytes (cv_color c) * n -> length out < n ->
  exists x' c', conv_fill_buffer St cb x c f buf =
      (x', c', shown_over (cv_color c) (effective_palette c f) (f_transparent f) out buf ++ skipn (px_bytes (cv_color c) * length out) buf, Ok false) /\
    same_settings c c' /\ Q x'.
Proof.
  intros Hp Hb Hl. unfold conv_fill_buffer. destruct (cv_color c) eqn:Ec; cbn [px_bytes] in *.
  - destruct (short_rgba f (S (length buf)) x c [] buf out n Ec Hp Hb Hl ltac:(lia)) as (x' & c' & E & Hs & Hq).
    exists x', c'. rewrite E. rewrite paint_expand by lia. auto.
  - destruct (short_indexed f (S (length buf)) x c [] buf out Ec Hp ltac:(lia) ltac:(lia)) as (x' & E & Hq).
    exists x', c. rewrite E. cbn [app shown_over]. rewrite Nat.mul_1_l. split; [reflexivity|]. split; [apply same_settings_refl|exact Hq].
Qed.

Lemma short_rows f w : N.to_nat (f_width f) = w -> 0 < w ->
  forall rows x c buf out h, P x out -> length out < length rows * w ->
  (forall r, In r rows -> r < h) -> px_bytes (cv_color c) * (h * w) <= length buf ->
  (len buf <= umax)%N ->
  exists x' c' buf', read_rows umax St cb rows x c f buf = (x', c', buf', Err (DFormat ImageTruncated)) /\
    same_settings c c' /\ Q x' /\ length buf' = length buf.
Proof.
  intros Ew Hw. induction rows as [|row rows IH]; intros x c buf out h Hp Hl Hin Hb Hu; [cbn [length] in Hl; lia|].
  set (cs := px_bytes (cv_color c)) in *. assert (Hcs : 0 < cs) by (unfold cs, px_bytes; destruct (cv_color c); lia).
  cbn [length] in Hl. pose proof (Hin row (or_introl eq_refl)) as Hrow.
  assert (Hll : line_length c f = N.of_nat (cs * w)).
  { unfold line_length, cs, px_bytes. destruct (cv_color c); lia. }
  cbn [read_rows]. cbn zeta. rewrite Hll, <- Nat2N.inj_mul.
  set (start := row * (cs * w)) in *.
  assert (Hst : start + cs * w <= length buf).
  { unfold start. assert (S row * (cs * w) <= cs * (h * w)) by nia. nia. }
  unfold len in *.
  destruct (N.ltb_spec umax (N.of_nat start)) as [Hlt|Hlt]; [lia|].
  destruct (N.leb_spec (N.of_nat start) (N.of_nat (length buf))) as [_|]; [|lia].
  destruct (N.leb_spec (N.of_nat start + N.of_nat (cs * w)) (N.of_nat (length buf))) as [_|]; [|lia].
  cbn [andb]. rewrite !Nat2N.id.
  assert (Hfl : length (firstn (cs * w) (skipn start buf)) = cs * w) by (rewrite firstn_length, skipn_length; lia).
  destruct (le_lt_dec w (length out)) as [Hge|Hlt'].
  - destruct (fill_spec St cb P cb_px x c f (firstn (cs * w) (skipn start buf)) out w Hp Hw Hfl Hge) as (x1 & c1 & line & E & Hs & Hp1 & Hline & _).
    rewrite E.
    match goal with |- context [read_rows umax St cb rows x1 c1 f ?b] => set (buf1 := b) end.
    assert (Hb1 : length buf1 = length buf) by (unfold buf1; rewrite !app_length, firstn_length, !skipn_length; lia).
    assert (Ecs1 : px_bytes (cv_color c1) = cs) by (unfold cs; destruct Hs as (_ & -> & _); reflexivity).
    destruct (IH x1 c1 buf1 (skipn w out) h Hp1) as (x2 & c2 & buf2 & E2 & Hs2 & Hq & Hb2).
    { rewrite skipn_length. lia. } { intros r Hr. apply Hin. now right. }
    { rewrite Ecs1, Hb1. exact Hb. } { rewrite Hb1. exact Hu. }
    exists x2, c2, buf2. split; [exact E2|]. split; [eapply same_settings_trans; eassumption|]. split; [exact Hq|congruence].
  - destruct (short_fill x c f (firstn (cs * w) (skipn start buf)) out w Hp Hfl Hlt') as (x1 & c1 & E & Hs & Hq).
    rewrite E. eexists x1, c1, _. split; [reflexivity|]. split; [exact Hs|]. split; [exact Hq|].
    assert (Hle : length (shown_over (cv_color c) (effective_palette c f) (f_transparent f) out (firstn (cs * w) (skipn start buf)) ++
      skipn (px_bytes (cv_color c) * length out) (firstn (cs * w) (skipn start buf))) = cs * w).
    { rewrite filled_length; [exact Hfl|]. rewrite Hfl. fold cs. nia. }
    rewrite !app_length in *. rewrite firstn_length, !skipn_length in *. fold cs in Hle |- *. lia.
Qed.

Lemma short_into x c f buf out w h : N.to_nat (f_width f) = w -> N.to_nat (f_height f) = h ->
  P x out -> length out < w * h -> px_bytes (cv_color c) * (w * h) <= length buf -> (len buf <= umax)%N ->
  exists x' c' buf', conv_read_into_buffer umax St cb x c f buf = (x', c', buf', Err (DFormat ImageTruncated)) /\
    same_settings c c' /\ Q x'.
Proof.
  intros Ew Eh Hp Hl Hb Hu. unfold conv_read_into_buffer.
  set (cs := px_bytes (cv_color c)) in *. assert (Hcs : 0 < cs) by (unfold cs, px_bytes; destruct (cv_color c); lia).
  assert (Hbs : buffer_size umax c f = Some (N.of_nat (cs * (w * h)))).
  { unfold buffer_size, line_length.
    assert (E : (match cv_color c with CIndexed => f_width f | CRgba => f_width f * 4 end * f_height f =
             N.of_nat (cs * (w * h)))%N) by (unfold cs, px_bytes; destruct (cv_color c); lia).
    rewrite E. unfold len in Hu. destruct (N.leb_spec (N.of_nat (cs * (w * h))) umax); [reflexivity|lia]. }
  destruct (f_interlaced f).
  - rewrite interlace_rows_order, Eh.
    destruct (short_rows f w Ew ltac:(nia) (gif_row_order h) x c buf out h Hp) as (x' & c' & b' & E & Hs & Hq & _).
    { rewrite gif_row_order_length. lia. }
    { intros r Hr. now apply gif_row_order_in. }
    { fold cs. nia. }
    { exact Hu. }
    exists x', c', b'. auto.
  - rewrite Hbs. unfold len. destruct (N.leb_spec (N.of_nat (cs * (w * h))) (N.of_nat (length buf))) as [_|]; [|unfold len in *; lia].
    rewrite Nat2N.id.
    destruct (short_fill x c f (firstn (cs * (w * h)) buf) out (w * h) Hp) as (x1 & c1 & E & Hs & Hq).
    { rewrite firstn_length. fold cs. lia. } { exact Hl. }
    rewrite E. eexists x1, c1, _. auto.
Qed.

Lemma short_frame x c f out w h : N.to_nat (f_width f) = w -> N.to_nat (f_height f) = h ->
  P x out -> length out < w * h -> f_buffer f = [] ->
  (N.of_nat (px_bytes (cv_color c) * (w * h)) <= umax / 2)%N ->
  match cv_limit c with Some l => (N.of_nat (px_bytes (cv_color c) * (w * h)) <= l)%N | None => True end ->
  exists x' c', conv_read_frame umax St cb x c f = (x', c', set_buffer f [], Err (DFormat ImageTruncated)) /\
    same_settings c c' /\ Q x'.
Proof.
  intros Ew Eh Hp Hl Hbuf Hu Hlim. unfold conv_read_frame, check_buffer_size, limit_buffer_size, buffer_size, line_length.
  set (n := N.of_nat (px_bytes (cv_color c) * (w * h))) in *.
  assert (Hnu : (n <= umax)%N).
  { pose proof (N.div_le_upper_bound umax 2 umax ltac:(lia) ltac:(lia)). lia. }
  assert (E1 : (f_width f * f_height f * match cv_color c with CRgba => 4 | CIndexed => 1 end = n)%N).
  { unfold n, px_bytes. destruct (cv_color c); lia. }
  assert (E2 : (match cv_color c with CRgba => f_width f * 4 | CIndexed => f_width f end * f_height f = n)%N).
  { unfold n, px_bytes. destruct (cv_color c); lia. }
  rewrite E1, E2. destruct (N.leb_spec n umax); [|lia].
  assert (E3 : match cv_limit c with Some l => if (l <? n)%N then None else Some n | None => Some n end = Some n).
  { destruct (cv_limit c) as [l|]; [|reflexivity]. destruct (N.ltb_spec l n); [lia|reflexivity]. }
  rewrite E3, N.eqb_refl. cbn zeta. destruct (N.ltb_spec (umax / 2) n); [lia|].
  rewrite Hbuf, firstn_nil. set (m := px_bytes (cv_color c) * (w * h)) in *.
  assert (Em : N.to_nat n = m) by (unfold n; lia). rewrite Em.
  assert (Eg : grow [] m = repeat 0%N m) by (unfold grow; cbn [length app]; now rewrite Nat.sub_0_r).
  rewrite Eg.
  destruct (short_into x c (set_buffer f []) (repeat 0%N m) out w h Ew Eh Hp Hl) as (x' & c' & b' & E & Hs & Hq).
  { rewrite repeat_length. fold m. lia. }
  { unfold len. rewrite repeat_length. fold n. exact Hnu. }
  rewrite E. exists x', c'. auto.
Qed.
End Source.

(** ** Files *)
Open Scope N_scope.

(** [while let ..]: a caller that goes on after a truncated frame ([None] in the list). *)
Fixpoint read_on (L : lzw_codec) (umax : N) (n : nat) (d : dcd L) : dcd L * list (option frame) * dres bool :=
  match n with
  | O => (d, [], Ok true)
  | S n' =>
    let '(d1, x) := read_next_frame L umax d in
    match x with
    | Ok true => let '(d2, fs, y) := read_on L umax n' d1 in (d2, Some (dc_cur L d1) :: fs, y)
    | Err (DFormat ImageTruncated) => let '(d2, fs, y) := read_on L umax n' d1 in (d2, None :: fs, y)
    | _ => (d1, [], x)
    end
  end.

Section SD.
Variable L : lzw_codec.
Variable S : lzw_spec L.
Variable umax : N.
Hypothesis Humax : 2 ^ 32 - 1 <= umax.
Notation dcd := (dcd L).
Notation rd := (rd L).
Variable o : options.
Variable g : gif.
Variable tl : list N.
Notation ready := (ready L S o g (done g tl)).
Notation finished := (finished L g tl).
Notation inpx := (inpx L S o g (done g tl)).
Notation atend := (atend L S o g (done g tl)).
Notation after := (after (done g tl)).
Hypothesis noskip : o_skip_frame_decoding o = false.
Hypothesis nocheck : o_check_for_end_code o = false.

Lemma cb_endr rest r sl : pxr L S o g rest r [] -> sl <> [] ->
  exists r', decode_next_bytes L r (OSlice sl) = (r', OSlice sl, Ok O) /\ endr L S o g rest r'.
Proof.
  intros Hp Hsl. destruct (bytes_px L S o g noskip nocheck rest r [] sl Hp Hsl) as (r' & w & out' & E & Hl & Eo & H).
  assert (w = []) as -> by (destruct w; [reflexivity|discriminate]). exists r'. split; [exact E|].
  destruct H as [[H _]|(_ & _ & H)]; [congruence|exact H].
Qed.

Lemma endr_file d r c f t x bs : file_dec L o g d -> endr L S o g (after x bs) r -> same_settings (dc_conv L d) c -> frame_ok f ->
  file_dec L o g (set_cur L (set_conv L (set_rd L d r) c) f t).
Proof.
  intros F (G & Q & E & (D & _) & _) Hs Hf. apply file_set; try assumption; apply D.
Qed.

(** [out]: the pixels in the image data of image [ci], perhaps too few. *)
Definition sized (ci : ctl * img) (out : list N) : Prop :=
  let i := snd ci in
  lz_pending S (lz_new L (im_mcs i)) (payload (im_subs i)) out /\ (0 < im_pixels i)%nat /\
  N.of_nat (frame_bytes o i) <= umax / 2 /\ fits (o_limit o) (N.of_nat (frame_bytes o i)).
(** The frame reported for it, if any. *)
Definition view (ci : ctl * img) (out : list N) : option frame :=
  if (im_pixels (snd ci) <=? length out)%nat then Some (seen o g ci out) else None.

Theorem read_next_frame_short d c bs c1 i l out : ready d c bs -> controlled c bs = (c1, i) :: l ->
  sized (c1, i) out -> (length out < im_pixels i)%nat ->
  exists d' bs', read_next_frame L umax d = (d', Err (DFormat ImageTruncated)) /\ l = controlled ctl_none bs' /\
    dc_cur L d' = meta_frame c1 i (is_interlaced (im_flags i)) [] /\ atend d' bs'.
Proof.
  intros Hr Ec (Hp & _ & Hu & Hlim) Hl. cbn [snd] in *. pose proof (next_frame_info_doc L S umax Humax o g tl d c bs Hr) as H. rewrite Ec in H.
  destruct H as (d1 & bs' & E & El & Hi & Hin & Hcur & Hty).
  pose proof (inimg_px L S o g (done g tl) d1 i bs' out noskip Hin Hp) as (F & x & Hok & Hpx).
  assert (Eco : cv_color (dc_conv L d1) = o_color o).
  { destruct (fl_quiet _ _ _ _ F) as [(_ & _ & _ & G4 & _) _]. rewrite G4, (fl_opts _ _ _ _ F). reflexivity. }
  assert (Eli : cv_limit (dc_conv L d1) = o_limit o).
  { destruct (fl_quiet _ _ _ _ F) as [(_ & _ & G3 & _) _]. rewrite G3, (fl_opts _ _ _ _ F). reflexivity. }
  destruct (short_frame umax rd (decode_next_bytes L) (pxr L S o g (after x bs')) (endr L S o g (after x bs'))
     (cb_pxr L S o g noskip nocheck (after x bs')) (cb_endr (after x bs'))
     (dc_rd L d1) (dc_conv L d1) (dc_cur L d1) out (N.to_nat (im_w i)) (N.to_nat (im_h i)))
    as (r & c2 & Ef & Hs & Hend).
  { rewrite Hcur. reflexivity. } { rewrite Hcur. reflexivity. } { exact Hpx. } { exact Hl. } { rewrite Hcur. reflexivity. }
  { rewrite Eco. exact Hu. } { rewrite Eco, Eli. exact Hlim. }
  unfold read_next_frame. rewrite E, Hty. unfold DocBlocks.img_ty. rewrite noskip. rewrite Ef.
  eexists. exists bs'. split; [reflexivity|]. split; [exact El|]. split; [cbn [dc_cur set_cur]; rewrite Hcur; reflexivity|].
  assert (Hf : frame_ok (set_buffer (dc_cur L d1) [])).
  { destruct (fl_quiet _ _ _ _ F) as [(_ & G2 & _) _]. rewrite Hcur in *. exact G2. }
  split; [eapply endr_file; eassumption|]. exists x. split; [exact Hok|].
  cbn [dc_rd set_cur set_conv set_rd]. destruct Hend as (_ & _ & _ & H1 & H2). auto.
Qed.

(** [read_into_buffer] after [next_frame_info]. *)
Theorem read_into_buffer_short d c1 i bs out buf : inpx d bs out ->
  dc_cur L d = meta_frame c1 i (is_interlaced (im_flags i)) [] ->
  (length out < im_pixels i)%nat -> (frame_bytes o i <= length buf)%nat -> len buf <= umax ->
  exists d' buf', read_into_buffer L umax d buf = (d', buf', Err (DFormat ImageTruncated)) /\
    dc_cur L d' = dc_cur L d /\ atend d' bs.
Proof.
  intros (F & x & Hok & Hpx) Hcur Hl Hb Hu.
  assert (Eco : cv_color (dc_conv L d) = o_color o).
  { destruct (fl_quiet _ _ _ _ F) as [(_ & _ & _ & G4 & _) _]. rewrite G4, (fl_opts _ _ _ _ F). reflexivity. }
  destruct (short_into umax rd (decode_next_bytes L) (pxr L S o g (after x bs)) (endr L S o g (after x bs))
     (cb_pxr L S o g noskip nocheck (after x bs)) (cb_endr (after x bs))
     (dc_rd L d) (dc_conv L d) (dc_cur L d) buf out (N.to_nat (im_w i)) (N.to_nat (im_h i)))
    as (r & c2 & buf' & Ef & Hs & Hend).
  { rewrite Hcur. reflexivity. } { rewrite Hcur. reflexivity. } { exact Hpx. } { exact Hl. } { rewrite Eco. exact Hb. } { exact Hu. }
  unfold read_into_buffer. rewrite Ef. eexists. exists buf'. split; [reflexivity|]. split; [reflexivity|].
  assert (F' : file_dec L o g (set_cur L (set_conv L (set_rd L d r) c2) (dc_cur L d) (dc_ty L d))).
  { eapply endr_file; [exact F|exact Hend|exact Hs|]. destruct (fl_quiet _ _ _ _ F) as [(_ & G2 & _) _]. exact G2. }
  split; [exact F'|]. exists x. split; [exact Hok|]. destruct Hend as (_ & _ & _ & H1 & H2). auto.
Qed.

(** [fill_buffer] when fewer pixels are left than fit the slice. *)
Theorem fill_buffer_short d c1 i bs out buf n : inpx d bs out ->
  dc_cur L d = meta_frame c1 i (is_interlaced (im_flags i)) [] ->
  (length out < n)%nat -> length buf = (px_bytes (o_color o) * n)%nat ->
  exists d', fill_buffer L d buf =
      (d', shown_over (o_color o) (pal_of g i) (c_transparent c1) out buf ++ skipn (px_bytes (o_color o) * length out) buf, Ok false) /\
    dc_cur L d' = dc_cur L d /\ atend d' bs.
Proof.
  intros (F & x & Hok & Hpx) Hcur Hl Hb.
  assert (Eco : cv_color (dc_conv L d) = o_color o).
  { destruct (fl_quiet _ _ _ _ F) as [(_ & _ & _ & G4 & _) _]. rewrite G4, (fl_opts _ _ _ _ F). reflexivity. }
  destruct (short_fill rd (decode_next_bytes L) (pxr L S o g (after x bs)) (endr L S o g (after x bs))
     (cb_pxr L S o g noskip nocheck (after x bs)) (cb_endr (after x bs))
     (dc_rd L d) (dc_conv L d) (dc_cur L d) buf out n) as (r & c2 & Ef & Hs & Hend).
  { exact Hpx. } { rewrite Eco. exact Hb. } { exact Hl. }
  unfold fill_buffer. rewrite Ef. rewrite Eco, Hcur, (effective_pal_of L o g d c1 i _ _ F).
  eexists. split; [reflexivity|]. split; [exact Hcur|].
  assert (F' : file_dec L o g (set_cur L (set_conv L (set_rd L d r) c2) (dc_cur L d) (dc_ty L d))).
  { eapply endr_file; [exact F|exact Hend|exact Hs|]. destruct (fl_quiet _ _ _ _ F) as [(_ & G2 & _) _]. exact G2. }
  split; [exact F'|]. exists x. split; [exact Hok|]. destruct Hend as (_ & _ & _ & H1 & H2). auto.
Qed.

Definition views (l : list (ctl * img)) (outs : list (list N)) : list (option frame) :=
  map (fun p => view (fst p) (snd p)) (combine l outs).

Lemma read_on_doc n : forall d c bs outs, ready d c bs -> (length outs < n)%nat ->
  Forall2 sized (controlled c bs) outs ->
  exists d', read_on L umax n d = (d', views (controlled c bs) outs, Ok false) /\ finished d'.
Proof.
  induction n as [|n IH]; intros d c bs outs Hr Hn Hm; [lia|]. cbn [read_on].
  destruct (controlled c bs) as [|[c1 i] l] eqn:Ec.
  - pose proof (read_next_frame_doc L S umax Humax o g tl noskip nocheck d c bs Hr) as H. rewrite Ec in H.
    inversion Hm; subst. destruct H as (d' & E & F). rewrite E. exists d'. auto.
  - inversion Hm as [|? out ? outs' Hm1 Hm2]; subst. cbn [length] in Hn.
    cbn [views combine map fst snd]. unfold view at 1. cbn [snd].
    destruct (Nat.leb_spec (im_pixels i) (length out)) as [Hge|Hlt].
    + pose proof (read_next_frame_doc L S umax Humax o g tl noskip nocheck d c bs Hr) as H. rewrite Ec in H.
      destruct Hm1 as (M1 & M2 & M3 & M4). cbn [snd] in *.
      destruct (H out M1 (conj M2 Hge) M3 M4) as (d1 & bs' & E & El & Hcur & Hpx). rewrite E.
      pose proof (inpx_ready L S o g (done g tl) d1 bs' _ nocheck Hpx) as Hr1.
      rewrite El in *. destruct (IH d1 ctl_none bs' outs' Hr1) as (d' & E' & F'); [lia|exact Hm2|].
      exists d'. rewrite E'. split; [|exact F']. rewrite Hcur. reflexivity.
    + destruct (read_next_frame_short d c bs c1 i l out Hr Ec Hm1 Hlt) as (d1 & bs' & E & El & _ & Hat). rewrite E.
      rewrite El in *. destruct (IH d1 ctl_none bs' outs' (atend_ready L S o g (done g tl) d1 bs' Hat)) as (d' & E' & F'); [lia|exact Hm2|].
      exists d'. rewrite E'. split; [reflexivity|exact F'].
Qed.

(** The iterator stops at the first truncated frame. *)
Lemma iter_short k : forall l1 d c bs outs c1 i out l2, ready d c bs -> controlled c bs = l1 ++ (c1, i) :: l2 ->
  Forall2 (holds L S umax o) l1 outs -> sized (c1, i) out -> (length out < im_pixels i)%nat ->
  exists it, iter_all L umax (length outs + Datatypes.S k) (mk_iter L d false) =
     (it, map IFrame (all_seen o g l1 outs) ++ IErr (DFormat ImageTruncated) :: repeat INone k).
Proof.
  induction l1 as [|[c0 i0] l1 IH]; intros d c bs outs c1 i out l2 Hr Ec Hm Hs Hl.
  - inversion Hm; subst. cbn [length Nat.add app] in *.
    destruct (read_next_frame_short d c bs c1 i l2 out Hr Ec Hs Hl) as (d1 & bs' & E & El & _ & Hat).
    cbn [iter_all]. unfold iter_next. cbn [it_ended it_dec]. rewrite E. rewrite iter_ended.
    eexists. reflexivity.
  - inversion Hm as [|? out0 ? outs' Hm1 Hm2]; subst. cbn [app] in Ec.
    pose proof (read_next_frame_doc L S umax Humax o g tl noskip nocheck d c bs Hr) as H. rewrite Ec in H.
    pose proof Hm1 as (M1 & M2 & M3 & M4).
    destruct (H out0 M1 M2 M3 M4) as (d1 & bs' & E & El & Hcur & Hpx).
    pose proof (inpx_ready L S o g (done g tl) d1 bs' _ nocheck Hpx) as Hr1.
    change (meta_frame c0 i0 false _) with (seen o g (c0, i0) out0) in Hcur.
    cbn [length Nat.add iter_all]. unfold iter_next. cbn [it_ended it_dec]. rewrite E, Hcur.
    pose proof (seen_nonempty L S umax Humax o g (c0, i0) out0 Hm1) as Hne. destruct (f_buffer (seen o g (c0, i0) out0)) as [|x y] eqn:Eb; [congruence|].
    cbn [is_nil]. unfold frame_take.
    destruct (IH (set_cur L d1 (snd (frame_take (seen o g (c0, i0) out0))) (dc_ty L d1)) ctl_none bs' outs' c1 i out l2) as (it & E').
    + apply ready_take; [exact Hr1|]. destruct Hr1 as ([[(_ & G2 & _) _] _ _ _ _ _ _ _] & _). rewrite Hcur in G2.
      destruct G2 as (F1 & F2 & F3 & F4 & F5 & F6 & _). unfold frame_take. cbn [snd].
      split; [exact F1|]. split; [exact F2|]. split; [exact F3|]. split; [exact F4|]. split; [exact F5|]. split; [exact F6|exact I].
    + symmetry. exact El.
    + exact Hm2.
    + exact Hs.
    + exact Hl.
    + unfold frame_take in E'. cbn [snd] in E'. rewrite E'. exists it. reflexivity.
Qed.
End SD.

Section File.
Variable L : lzw_codec.
Variable S : lzw_spec L.
Variable umax : N.
Hypothesis Humax : 2 ^ 32 - 1 <= umax.

Theorem file_short o g tl src outs n : gif_ok o g -> delivers src (ser_gif g tl) ->
  o_skip_frame_decoding o = false -> o_check_for_end_code o = false ->
  Forall2 (sized L S umax o) (gif_images g) outs -> (length outs < n)%nat ->
  exists d d', read_info L src o = Ok d /\ read_on L umax n d = (d', views o g (gif_images g) outs, Ok false) /\
    rd_rest L (dc_rd L d') = tl.
Proof.
  intros Hg (H1 & H2 & H3) N1 N2 Ho Hn. destruct (read_info_doc L S umax Humax o g tl src Hg H1 H2 H3) as (d & c & bs & E & Hr & Ec).
  rewrite <- Ec in Ho. destruct (read_on_doc L S umax Humax o g tl N1 N2 n d c bs outs Hr Hn Ho) as (d' & E' & F).
  exists d, d'. split; [exact E|]. rewrite E', Ec. split; [reflexivity|apply F].
Qed.

Theorem file_short_iter o g tl src l1 ci l2 outs out k : gif_ok o g -> delivers src (ser_gif g tl) ->
  o_skip_frame_decoding o = false -> o_check_for_end_code o = false ->
  gif_images g = l1 ++ ci :: l2 -> Forall2 (holds L S umax o) l1 outs -> sized L S umax o ci out ->
  (length out < im_pixels (snd ci))%nat ->
  exists d it, read_info L src o = Ok d /\
    iter_all L umax (length outs + Datatypes.S k) (mk_iter L d false) =
      (it, map IFrame (all_seen o g l1 outs) ++ IErr (DFormat ImageTruncated) :: repeat INone k).
Proof.
  intros Hg (H1 & H2 & H3) N1 N2 Hi Ho Hs Hl. destruct (read_info_doc L S umax Humax o g tl src Hg H1 H2 H3) as (d & c & bs & E & Hr & Ec).
  destruct ci as [c1 i]. rewrite Hi in Ec.
  destruct (iter_short L S umax Humax o g tl N1 N2 k l1 d c bs outs c1 i out l2 Hr Ec Ho Hs Hl) as (it & E').
  exists d, it. auto.
Qed.

(** Row by row, or in slices of any sizes: what is left is delivered, then [false]. *)
Theorem file_fill_short o g tl src c1 i l out buf n : gif_ok o g -> delivers src (ser_gif g tl) ->
  o_skip_frame_decoding o = false -> o_check_for_end_code o = false ->
  gif_images g = (c1, i) :: l -> lz_pending S (lz_new L (im_mcs i)) (payload (im_subs i)) out ->
  (length out < n)%nat -> length buf = (px_bytes (o_color o) * n)%nat ->
  exists d d1 d2, read_info L src o = Ok d /\ next_frame_info L d = (d1, Ok true) /\
    fill_buffer L d1 buf =
      (d2, shown_over (o_color o) (pal_of g i) (c_transparent c1) out buf ++ skipn (px_bytes (o_color o) * length out) buf, Ok false).
Proof.
  intros Hg (H1 & H2 & H3) N1 N2 Hi Hp Hl Hb. destruct (read_info_doc L S umax Humax o g tl src Hg H1 H2 H3) as (d & c & bs & E & Hr & Ec).
  rewrite Hi in Ec. pose proof (next_frame_info_doc L S umax Humax o g tl d c bs Hr) as H. rewrite Ec in H.
  destruct H as (d1 & bs' & E1 & El & _ & Hin & Hcur & Hty).
  pose proof (inimg_px L S o g (done g tl) d1 i bs' out N1 Hin Hp) as Hpx.
  destruct (fill_buffer_short L S o g tl N1 N2 d1 c1 i bs' out buf n Hpx Hcur Hl Hb) as (d2 & E2 & _).
  exists d, d1, d2. auto.
Qed.
End File.
