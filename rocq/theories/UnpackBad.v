(** [FrameDecoder] with a buffer of the caller's and data that contain an invalid code. *)
From Verif Require Import Base Common Lzw LzwErrs Encoder Stream Converter Reader StreamInv ConvInv DecoderSafe Interlace SpecGif SpecPixels
  Pixels Corrupt SpecVerdict Verdict FrameInv SpecUnpack Unpack.
Open Scope nat_scope.

Section Rows.
Variable umax : N.
Variable St : Type.
Variable cb : St -> obuf -> St * obuf * dres nat.
Variable e0 : derr.
Variable P : St -> list N -> Prop.
Hypothesis cb_bad : forall x out sl, P x out -> sl <> [] ->
  (exists x' ob', cb x (OSlice sl) = (x', ob', Err e0) /\ length out <= length sl) \/
  (exists x' w out', cb x (OSlice sl) = (x', OSlice (w ++ skipn (length w) sl), Ok (length w)) /\
    w <> [] /\ length w <= length sl /\ out = w ++ out' /\ P x' out').

(** The rows of an interlaced image, with a buffer of any size: the error comes only while a row that fits is filled. *)
Lemma rows_bad f w : N.to_nat (f_width f) = w -> 0 < w ->
  forall rows x c buf out, P x out ->
  (forall r, In r rows -> (N.of_nat (r * (px_bytes (cv_color c) * w)) <= umax)%N) ->
  let k := rows_fit (px_bytes (cv_color c) * w) (length buf) rows in
  exists x' c' buf' res, read_rows umax St cb rows x c f buf = (x', c', buf', res) /\
    (res = Err e0 /\ 0 < k /\ length out <= k * w \/
     res = (if k =? length rows then Ok tt else Err (DFormat BufferTooSmall)) /\ k * w <= length out).
Proof.
  intros Ew Hw. induction rows as [|row rows IH]; intros x c buf out Hp Hin k.
  { exists x, c, buf, (Ok tt). cbn [read_rows]. split; [reflexivity|]. right. subst k. cbn. split; [reflexivity|lia]. }
  set (cs := px_bytes (cv_color c)) in *. assert (Hcs : 0 < cs) by (unfold cs, px_bytes; destruct (cv_color c); lia).
  pose proof (Hin row (or_introl eq_refl)) as Hrow.
  assert (Hll : line_length c f = N.of_nat (cs * w)).
  { unfold line_length, cs, px_bytes. destruct (cv_color c); lia. }
  subst k. cbn [read_rows rows_fit]. cbn zeta. rewrite Hll, <- Nat2N.inj_mul.
  set (start := row * (cs * w)) in *.
  unfold len in *.
  destruct (N.ltb_spec umax (N.of_nat start)) as [Hlt|Hlt]; [lia|].
  destruct (Nat.leb_spec ((row + 1) * (cs * w)) (length buf)) as [Hst|Hst].
  2:{ assert (Hf : ((N.of_nat start <=? N.of_nat (length buf)) && (N.of_nat start + N.of_nat (cs * w) <=? N.of_nat (length buf)))%N = false).
      { apply Bool.andb_false_iff. right. apply N.leb_gt. unfold start. nia. }
      rewrite Hf. exists x, c, buf, (Err (DFormat BufferTooSmall)). split; [reflexivity|]. right. cbn [Nat.mul length Nat.eqb]. split; [reflexivity|lia]. }
  assert (Hst' : start + cs * w <= length buf) by (unfold start; nia).
  destruct (N.leb_spec (N.of_nat start) (N.of_nat (length buf))) as [_|]; [|lia].
  destruct (N.leb_spec (N.of_nat start + N.of_nat (cs * w)) (N.of_nat (length buf))) as [_|]; [|lia].
  cbn [andb]. rewrite !Nat2N.id.
  assert (Hfl : length (firstn (cs * w) (skipn start buf)) = cs * w) by (rewrite firstn_length, skipn_length; lia).
  destruct (bad_fill St cb e0 P cb_bad x c f (firstn (cs * w) (skipn start buf)) out w Hp Hw Hfl)
    as [(x1 & c1 & b1 & E & Hl)|(x1 & c1 & line & E & Hl & Hs & Hp1 & Hline & _)]; rewrite E.
  { eexists x1, c1, _, _. split; [reflexivity|]. left. split; [reflexivity|]. cbn [Nat.mul]. lia. }
  match goal with |- context [read_rows umax St cb rows x1 c1 f ?b] => set (buf1 := b) end.
  assert (Hb1 : length buf1 = length buf) by (unfold buf1; rewrite !app_length, firstn_length, !skipn_length; lia).
  assert (Ecs1 : px_bytes (cv_color c1) = cs) by (unfold cs; destruct Hs as (_ & -> & _); reflexivity).
  destruct (IH x1 c1 buf1 (skipn w out) Hp1) as (x2 & c2 & buf2 & res & E2 & Hr).
  { intros r Hr. rewrite Ecs1. apply Hin. now right. }
  rewrite Ecs1, Hb1, skipn_length in Hr. set (k := rows_fit (cs * w) (length buf) rows) in *.
  exists x2, c2, buf2, res. split; [exact E2|]. cbn [length Nat.eqb Nat.mul].
  destruct Hr as [(-> & Hk & Hr)|(-> & Hr)]; [left|right]; (split; [reflexivity|]); lia.
Qed.
End Rows.

Open Scope N_scope.
Section U.
Variable L : lzw_codec.
Variable S : lzw_spec L.
Variable Z : lzw_errs S.
Variable umax : N.
Hypothesis alert : lzw_alert Z.
Hypothesis Humax : 2 ^ 32 - 1 <= umax.
Notation fd_fit := (fd_fit L S).

Theorem unpack_into_bad fd f out buf : fd_fit fd -> u16_ok (f_width f) -> 0 < frame_px f ->
  N.of_nat (px_bytes (cv_color (fd_conv L fd))) * frame_px f <= umax -> len buf <= umax / 2 ->
  (1 <= code_size f <= 11 -> stands_for Z f out true) ->
  exists fd' b y, decode_lzw_encoded_frame_into_buffer L umax fd f buf = (fd', b, y) /\
    fd_fit fd' /\ same_settings (fd_conv L fd) (fd_conv L fd') /\ length b = length buf /\
    let color := cv_color (fd_conv L fd) in
    let v := unpack_into_verdict color f (length out) (length buf) in
    (y = Err (DIo InvalidData) /\ 1 <= code_size f <= 11 /\ (0 < into_wants color f (length buf))%nat /\
     (length out <= into_wants color f (length buf))%nat \/
     y = v /\ v <> Err (DFormat ImageTruncated) /\
     (v = Ok tt ->
      b = shown_over color (effective_palette (fd_conv L fd) f) (f_transparent f)
            (picture (N.to_nat (f_width f)) (N.to_nat (f_height f)) (f_interlaced f) out) buf
          ++ skipn (px_bytes color * (N.to_nat (f_width f) * N.to_nat (f_height f))) buf)).
Proof.
  intros Hf Hw Hpx Hsz Hl Hst. set (c := fd_conv L fd).
  destruct (decode_lzw_encoded_frame_into_buffer L umax fd f buf) as [[fd1 b] y] eqn:E.
  pose proof (into_fit L S umax Humax _ _ _ _ _ _ Hf Hw Hl E) as (Hf1 & Hs1 & Hb1).
  exists fd1, b, y. split; [reflexivity|]. split; [exact Hf1|]. split; [exact Hs1|]. split; [exact Hb1|]. cbn zeta.
  set (w := N.to_nat (f_width f)). set (h := N.to_nat (f_height f)).
  assert (Hwh : (0 < w /\ 0 < h)%nat) by (unfold frame_px in Hpx; unfold w, h; nia).
  assert (Hpb : (0 < px_bytes (cv_color c))%nat) by (destruct (cv_color c); cbn; lia).
  assert (Hsz' : N.of_nat (px_bytes (cv_color c) * (w * h)) <= umax) by (unfold frame_px in Hsz; fold c in Hsz; unfold w, h; lia).
  assert (Hlu : len buf <= umax).
  { pose proof (N.div_le_upper_bound umax 2 umax ltac:(lia) ltac:(lia)). lia. }
  unfold decode_lzw_encoded_frame_into_buffer in E.
  replace (match f_buffer f with [] => (2, []) | m :: data => (m, data) end) with (code_size f, code_data f) in E
    by (unfold code_size, code_data; destruct (f_buffer f); reflexivity).
  unfold unpack_into_verdict, into_wants. fold w h.
  destruct ((code_size f <? 1) || (11 <? code_size f)) eqn:Em.
  { rewrite reset_refused in E by exact Em. injection E as <- <- <-. right. split; [reflexivity|]. split; discriminate. }
  apply Bool.orb_false_iff in Em. destruct Em as [M1 M2]. apply N.ltb_ge in M1, M2. specialize (Hst (conj M1 M2)). unfold stands_for in Hst.
  destruct (reset_fit L S umax Humax fd (code_size f) Hf (conj M1 M2)) as (r & z & Er & Rz & Rc & Rs & Rb). rewrite Er in E. fold c in E.
  assert (Hp : fdb L S Z (r, code_data f) out).
  { split; [exact Rc|]. exists z. split; [exact Rz|]. exact (begun_fails L S Z _ _ _ _ Rb Hst). }
  pose proof (fd_callback_bad L S Z umax alert Humax) as Hcb.
  destruct (le_lt_dec (px_bytes (cv_color c) * (w * h)) (length buf)) as [Hbig|Hsmall].
  - (* the picture fits *)
    assert (Hfit : rows_fit (px_bytes (cv_color c) * w) (length buf) (gif_row_order h) = h).
    { rewrite <- (gif_row_order_length h) at 2. apply rows_fit_all. intros r0 Hr0. apply gif_row_order_in in Hr0. nia. }
    assert (Hsm : (length buf <? px_bytes (cv_color c) * (w * h))%nat = false) by (apply Nat.ltb_ge; lia).
    rewrite Hfit, Hsm, Nat.eqb_refl, (Nat.mul_comm h w).
    replace (if f_interlaced f then (w * h)%nat else (w * h)%nat) with (w * h)%nat by (destruct (f_interlaced f); reflexivity).
    destruct (bad_into umax _ (fd_callback L) (DIo InvalidData) (fdb L S Z) Hcb (r, code_data f) c f buf out w h)
      as [([x1 d1] & c1 & b1 & E1 & Hlo)|([x1 d1] & c1 & E1 & Hlo & _)]; try reflexivity; try assumption; try apply Hwh;
      rewrite E1 in E; injection E as <- <- <-.
    + left. split; [reflexivity|]. split; [lia|]. split; [nia|exact Hlo].
    + right. assert (Hen : (length out <? w * h)%nat = false) by (apply Nat.ltb_ge; lia). rewrite Hen.
      destruct (f_interlaced f); (split; [reflexivity|]; split; [discriminate|]; intros _; reflexivity).
  - assert (Hsm : (length buf <? px_bytes (cv_color c) * (w * h))%nat = true) by (apply Nat.ltb_lt; lia). rewrite Hsm.
    unfold conv_read_into_buffer in E. destruct (f_interlaced f).
    + rewrite interlace_rows_order in E. fold h in E. set (k := rows_fit (px_bytes (cv_color c) * w) (length buf) (gif_row_order h)).
      destruct (rows_bad umax _ (fd_callback L) (DIo InvalidData) (fdb L S Z) Hcb f w eq_refl (proj1 Hwh) (gif_row_order h) (r, code_data f) c buf out Hp)
        as ([x1 d1] & c1 & b1 & res & E1 & Hv).
      { intros r0 Hr0. apply gif_row_order_in in Hr0. nia. }
      fold k in Hv. rewrite gif_row_order_length in Hv. rewrite E1 in E. injection E as <- <- <-.
      destruct Hv as [(-> & Hk & Hlo)|(-> & Hlo)].
      * left. split; [reflexivity|]. split; [lia|]. split; [nia|exact Hlo].
      * right. assert (Hen : (length out <? k * w)%nat = false) by (apply Nat.ltb_ge; lia). rewrite Hen.
        destruct (Nat.eqb_spec k h) as [Ek|Nk]; [|split; [reflexivity|]; split; discriminate].
        exfalso. unfold k in Ek. rewrite <- (gif_row_order_length h) in Ek at 2. rewrite rows_fit_all in Ek.
        assert (Hlast : In (h - 1)%nat (gif_row_order h)) by (apply gif_row_order_in; lia).
        specialize (Ek _ Hlast). replace (h - 1 + 1)%nat with h in Ek by lia. nia.
    + right. split; [|split; discriminate].
      assert (Hbs : buffer_size umax c f = Some (N.of_nat (px_bytes (cv_color c) * (w * h)))).
      { unfold buffer_size, line_length.
        assert (E0 : match cv_color c with CRgba => f_width f * 4 | CIndexed => f_width f end * f_height f = N.of_nat (px_bytes (cv_color c) * (w * h))).
        { unfold px_bytes, w, h. destruct (cv_color c); lia. }
        rewrite E0. destruct (N.leb_spec (N.of_nat (px_bytes (cv_color c) * (w * h))) umax); [reflexivity|lia]. }
      rewrite Hbs in E. unfold len in E. destruct (N.leb_spec (N.of_nat (px_bytes (cv_color c) * (w * h))) (N.of_nat (length buf))); [lia|].
      injection E as <- <- <-. reflexivity.
Qed.
End U.
