(** What a [Decoder] does with images of no pixels, and when its iterator stops early. *)
From Verif Require Import Base Common Lzw Encoder Stream Converter Reader
  StreamInv Steps ReaderInv SpecPixels Interlace Ranges ConvInv DecoderSafe DecInv DecProps.
Open Scope N_scope.

Section Conv.
Variable umax : N.
Variable St : Type.
Variable cb : St -> obuf -> St * obuf * dres nat.
Variable Inv : St -> Prop.
Hypothesis cb_ok : forall x s x' ob' r, Inv x -> cb x (OSlice s) = (x', ob', r) ->
  Inv x' /\ (exists s', ob' = OSlice s' /\ length s' = length s) /\
  match r with Ok n => (n <= length s)%nat | Err _ => True | Panic | Hang => False end.

(** A buffer without room is never filled. *)
Lemma fill_empty x c f : Inv x -> exists x' c' r, conv_fill_buffer St cb x c f [] = (x', c', [], r) /\
  match cv_color c with
  | CRgba => r = Err (DFormat OddSizedBuffer)
  | CIndexed => r = Ok false \/ exists e, r = Err e
  end.
Proof.
  intros Hx. unfold conv_fill_buffer. cbn [fill_loop length].
  destruct (cv_color c) eqn:Ec.
  - cbn. eexists _, _, _. split; reflexivity.
  - destruct (cb x (OSlice [])) as [[x1 ob] r] eqn:E. destruct (cb_ok _ _ _ _ _ Hx E) as (_ & (s' & -> & Hs) & Hr).
    destruct s'; [|discriminate Hs]. cbn [obuf_bytes app].
    destruct r as [n|e| | ]; try easy.
    + cbn in Hr. assert (n = 0%nat) as -> by lia. eexists _, _, _. split; [reflexivity|]. now left.
    + eexists _, _, _. split; [reflexivity|]. right. now exists e.
Qed.

Definition zero_err (c : color_output) (e : derr) : Prop :=
  match c with CRgba => e = DFormat OddSizedBuffer | CIndexed => True end.

Lemma read_into_zero x c f : Inv x -> f_width f * f_height f = 0 ->
  exists x' c' r, conv_read_into_buffer umax St cb x c f [] = (x', c', [], r) /\
  match r with
  | Ok _ => f_interlaced f = true /\ f_height f = 0
  | Err e => ~ (f_interlaced f = true /\ f_height f = 0) /\ zero_err (cv_color c) e
  | Panic | Hang => False
  end.
Proof.
  intros Hx Hz. destruct (fill_empty x c f Hx) as (x1 & c1 & r & E & Hr).
  unfold conv_read_into_buffer. destruct (f_interlaced f) eqn:Ei.
  - destruct (N.eqb_spec (f_height f) 0) as [Eh|Nh].
    + rewrite Eh. cbn. eexists _, _, _. split; [reflexivity|]. split; reflexivity.
    + rewrite interlace_rows_order.
      destruct (gif_row_order (N.to_nat (f_height f))) as [|row rows] eqn:Er.
      { exfalso. pose proof (gif_row_order_length (N.to_nat (f_height f))) as Hl. rewrite Er in Hl. cbn in Hl. lia. }
      assert (Ew : line_length c f = 0) by (unfold line_length; destruct (cv_color c); nia).
      cbn [read_rows]. rewrite Ew, N.mul_0_r. cbn [firstn skipn N.to_nat].
      replace (umax <? 0) with false by (symmetry; apply N.ltb_ge; lia).
      change ((0 <=? len []) && (0 + 0 <=? len [])) with true. cbn iota.
      rewrite E. cbn [app]. unfold zero_err.
      destruct (cv_color c); [subst r|destruct Hr as [->|[e ->]]]; eexists _, _, _; (split; [reflexivity|]); (split; [intros [_ H]; congruence|]); auto.
  - assert (Eb : buffer_size umax c f = Some 0).
    { unfold buffer_size, line_length. replace (_ * f_height f) with 0 by (destruct (cv_color c); nia). replace (0 <=? umax) with true by (symmetry; apply N.leb_le; lia). reflexivity. }
    rewrite Eb. change (0 <=? len []) with true. cbn zeta iota. cbn [N.to_nat firstn skipn]. rewrite E, app_nil_r.
    unfold zero_err.
    destruct (cv_color c); [subst r|destruct Hr as [->|[e ->]]]; eexists _, _, _; (split; [reflexivity|]); (split; [intros [H _]; discriminate H|]); auto.
Qed.

Lemma read_frame_zero x c f : Inv x -> f_width f * f_height f = 0 -> f_buffer f = [] ->
  exists x' c' f' r, conv_read_frame umax St cb x c f = (x', c', f', r) /\ f_buffer f' = [] /\
  match r with
  | Ok _ => f_interlaced f = true /\ f_height f = 0
  | Err e => ~ (f_interlaced f = true /\ f_height f = 0) /\ zero_err (cv_color c) e
  | Panic | Hang => False
  end.
Proof.
  intros Hx Hz Hb.
  destruct (read_into_zero x c (set_buffer f []) Hx Hz) as (x1 & c1 & r & E & Hr).
  assert (Ec : check_buffer_size umax c f = Ok 0).
  { unfold check_buffer_size, limit_buffer_size, buffer_size, line_length. rewrite Hz.
    replace (match cv_color c with CRgba => f_width f * 4 | CIndexed => f_width f end * f_height f) with 0
      by (destruct (cv_color c); nia).
    rewrite N.mul_0_l. replace (0 <=? umax) with true by (symmetry; apply N.leb_le; lia).
    destruct (cv_limit c) as [l|]; [|reflexivity]. replace (l <? 0) with false by (symmetry; apply N.ltb_ge; lia). reflexivity. }
  unfold conv_read_frame. rewrite Ec, Hb. cbn zeta.
  replace (umax / 2 <? 0) with false by (symmetry; apply N.ltb_ge; apply N.le_0_l).
  change (grow (firstn (N.to_nat 0) []) (N.to_nat 0)) with (@nil N). rewrite E.
  cbn [f_interlaced f_height set_buffer] in Hr.
  destruct r as [u|e| | ]; try easy; eexists _, _, _, _; (split; [reflexivity|]); (split; [reflexivity|]); exact Hr.
Qed.
End Conv.

Section Dec.
Variable L : lzw_codec.
Variable umax : N.
Hypothesis safe : lzw_safe L.
Hypothesis Humax : 2 ^ 32 - 1 <= umax.
Variable src : list revent.
Variable o : options.
Hypothesis Hsrc : src_ok src.
Hypothesis Hlim : limit_ok umax (o_limit o).

(** The next image, if any, announces these sizes. *)
Lemma zero_frame d d1 : opened L umax src o d -> next_frame_info L d = (d1, Ok true) -> dc_ty L d1 = FPixels ->
  f_width (dc_cur L d1) * f_height (dc_cur L d1) = 0 ->
  exists d2 r, read_next_frame L umax d = (d2, r) /\ f_buffer (dc_cur L d2) = [] /\
    if f_interlaced (dc_cur L d1) && (f_height (dc_cur L d1) =? 0) then r = Ok true
    else exists e, r = Err e /\ zero_err (o_color o) e.
Proof.
  intros Ho E Ht Hz.
  destruct (opened_good L umax safe Humax src o Hsrc d Hlim Ho) as (Hd & Hop & _).
  destruct (next_frame_info_returns L safe umax Humax d d1 _ Hd E) as (_ & Hd1 & [Hk1 Hk2] & Hb).
  destruct (Hb eq_refl) as [Hb1 _].
  pose proof Hd1 as (Hr & _ & _ & Hco & _).
  destruct (read_frame_zero umax (Reader.rd L) (decode_next_bytes L)
    (fun r => rd_good L r /\ sd_opts L (rd_dec L r) = o)
    (fun x s x' ob' r => decode_next_bytes_ok L safe umax Humax o x s x' ob' r)
    (dc_rd L d1) (dc_conv L d1) (dc_cur L d1)) as (r1 & c1 & f1 & r & Er & Hf & Hc); [|exact Hz|exact Hb1|].
  { split; [exact Hr|]. unfold dopts in *. congruence. }
  unfold read_next_frame. rewrite E, Ht, Er.
  assert (Ec : cv_color (dc_conv L d1) = o_color o) by (unfold dopts in *; congruence).
  rewrite Ec in Hc.
  destruct r as [u|e| | ]; try easy; eexists _, _; (split; [reflexivity|]); (split; [exact Hf|]).
  - destruct Hc as [-> ->]. reflexivity.
  - destruct Hc as [Hn He]. destruct (f_interlaced (dc_cur L d1)); [|now exists e].
    destruct (N.eqb_spec (f_height (dc_cur L d1)) 0); [exfalso; auto|]. now exists e.
Qed.

(** A frame that was read has exactly the bytes its sizes ask for. *)
Lemma read_next_frame_size d d1 d2 : opened L umax src o d -> next_frame_info L d = (d1, Ok true) ->
  read_next_frame L umax d = (d2, Ok true) ->
  match dc_ty L d1 with
  | FPixels => len (f_buffer (dc_cur L d2)) = f_width (dc_cur L d1) * f_height (dc_cur L d1) * match o_color o with CIndexed => 1 | CRgba => 4 end
  | FLzw m => exists w, f_buffer (dc_cur L d2) = m :: w
  end.
Proof.
  intros Ho E Er.
  destruct (opened_good L umax safe Humax src o Hsrc d Hlim Ho) as (Hd & Hop & _).
  destruct (next_frame_info_returns L safe umax Humax d d1 _ Hd E) as (_ & Hd1 & [Hk1 Hk2] & _).
  pose proof Hd1 as (Hr & Hfr & Hl & Hco & _). pose proof Hfr as (_ & _ & _ & _ & Hw & Hh & _).
  unfold read_next_frame in Er. rewrite E in Er.
  destruct (dc_ty L d1) as [|m].
  - destruct (conv_read_frame umax (Reader.rd L) (decode_next_bytes L) (dc_rd L d1) (dc_conv L d1) (dc_cur L d1))
      as [[[r c] f] z] eqn:Ec.
    apply (conv_read_frame_ok umax _ _ (fun r => rd_good L r /\ sd_opts L (rd_dec L r) = dopts L d1)) in Ec.
    2:{ intros. eapply decode_next_bytes_ok; eassumption. }
    2:{ exact Hw. } 2:{ exact Hh. } 2:{ exact Humax. }
    2:{ rewrite Hl. unfold dopts in *. rewrite Hk1, Hop. exact Hlim. }
    2:{ split; [exact Hr|reflexivity]. }
    destruct Ec as (_ & _ & _ & _ & Hok). destruct z as [u|e| | ]; try discriminate Er.
    injection Er as <-. destruct u. destruct (Hok eq_refl) as (Hn & _ & _). cbn [dc_cur set_cur]. rewrite Hn.
    unfold line_length. rewrite Hco. unfold dopts in *. rewrite Hk1, Hop. destruct (o_color o); nia.
  - unfold copy_lzw_into_buffer in Er.
    destruct (copy_lzw_loop L (ev_fuel L (dc_rd L d1)) (dc_rd L d1) ([] ++ [m])) as [[r v] z] eqn:Ec.
    apply (copy_lzw_loop_returns L safe umax Humax) in Ec; [|exact Hr|apply (rmeas_fuel L umax Humax)].
    destruct Ec as (_ & _ & _ & w & ->). destruct z as [u|e| | ]; try discriminate Er.
    injection Er as <-. cbn. now exists w.
Qed.

(** When the iterator says [None] and when it is not the end. *)
Definition rowless (d : dcd L) : Prop := exists d1, next_frame_info L d = (d1, Ok true) /\
  dc_ty L d1 = FPixels /\ f_interlaced (dc_cur L d1) = true /\ f_height (dc_cur L d1) = 0.

Theorem iter_none d it : opened L umax src o d ->
  iter_next L umax (mk_iter L d false) = (it, INone) ->
  (it_ended L it = true /\ exists d1, next_frame_info L d = (d1, Ok false)) \/ (it_ended L it = false /\ rowless d).
Proof.
  intros Ho H. unfold iter_next in H. cbn [it_ended it_dec] in H.
  destruct (read_next_frame L umax d) as [d2 x] eqn:E.
  destruct x as [[|]|e| | ]; try discriminate H.
  - destruct (is_nil (f_buffer (dc_cur L d2))) eqn:En; [|discriminate H]. injection H as <-.
    right. split; [reflexivity|].
    destruct (next_frame_info L d) as [d1 y] eqn:Ey.
    assert (y = Ok true) as ->.
    { unfold read_next_frame in E. rewrite Ey in E. destruct y as [[|]|e| | ]; try discriminate E. reflexivity. }
    pose proof (read_next_frame_size d d1 d2 Ho Ey E) as Hs.
    destruct (f_buffer (dc_cur L d2)) as [|b bs] eqn:Eb; [|discriminate En].
    destruct (dc_ty L d1) as [|m] eqn:Et; [|destruct Hs as [w Hw]; discriminate Hw].
    assert (Hz : f_width (dc_cur L d1) * f_height (dc_cur L d1) = 0).
    { change (len []) with 0 in Hs. destruct (o_color o); lia. }
    destruct (zero_frame d d1 Ho Ey Et Hz) as (d3 & r & Er & _ & Hr). rewrite E in Er. injection Er as <- <-.
    destruct (f_interlaced (dc_cur L d1)) eqn:Ei; cbn [andb] in Hr; [|destruct Hr as (e & Hr & _); discriminate Hr].
    destruct (N.eqb_spec (f_height (dc_cur L d1)) 0) as [Eh|]; [|destruct Hr as (e & Hr & _); discriminate Hr].
    exists d1. auto.
  - injection H as <-. left. split; [reflexivity|].
    unfold read_next_frame in E. destruct (next_frame_info L d) as [d1 y]. destruct y as [[|]|e| | ]; try discriminate E.
    + destruct (dc_ty L d1).
      * destruct (conv_read_frame _ _ _ _ _ _) as [[[? ?] ?] z]; destruct z; discriminate E.
      * destruct (copy_lzw_into_buffer _ _ _ _) as [[? ?] z]; destruct z; discriminate E.
    + now exists d1.
Qed.

Theorem iter_rowless d : opened L umax src o d -> rowless d ->
  exists it, iter_next L umax (mk_iter L d false) = (it, INone) /\ it_ended L it = false.
Proof.
  intros Ho (d1 & E & Et & Ei & Eh).
  destruct (zero_frame d d1 Ho E Et) as (d2 & r & Er & Hb & Hr); [rewrite Eh; lia|].
  rewrite Ei, Eh in Hr. cbn in Hr. subst r.
  unfold iter_next. cbn [it_ended it_dec]. rewrite Er, Hb. cbn [is_nil]. eexists. split; reflexivity.
Qed.
End Dec.

Theorem iter_ended L umax it n : it_ended L it = true -> iter_calls L umax it n = (it, repeat INone n).
Proof.
  intros He. induction n as [|n IH]; [reflexivity|]. cbn [iter_calls repeat]. unfold iter_next. rewrite He, IH. reflexivity.
Qed.
