(** The iterator is the loop over [read_next_frame], whatever the input. *)
From Verif Require Import Base Common Lzw Encoder Stream Converter Reader StreamInv ConvInv DecoderSafe DecInv Pixels DocAll DecProps ExtSrc ZeroSize Several SpecIter.
Open Scope nat_scope.

Section It.
Variable L : lzw_codec.
Variable umax : N.
Notation dcd := (dcd L).

(** Decoders that differ in the current frame only. *)
Definition alike (d e : dcd) : Prop := exists f t, e = set_cur L d f t.
Lemma alike_refl d : alike d d.
Proof. exists (dc_cur L d), (dc_ty L d). destruct d; reflexivity. Qed.
Lemma alike_info fuel : forall d e d1 x, alike d e -> next_frame_info_loop L fuel d = (d1, x) ->
  exists e1, next_frame_info_loop L fuel e = (e1, x) /\ alike d1 e1 /\ (x = Ok true -> e1 = d1).
Proof.
  induction fuel as [|fuel IH]; intros d e d1 x (f & t & ->) H; cbn [next_frame_info_loop] in *.
  { injection H as <- <-. eexists. split; [reflexivity|]. split; [now exists f, t|discriminate]. }
  cbn [set_cur dc_rd] in *. destruct (decode_next L (dc_rd L d) ONone) as [[r ob] y].
  assert (Hstop : alike (set_rd L d r) (set_rd L (set_cur L d f t) r)) by (exists f, t; reflexivity).
  destruct y as [[ev|]|er| | ].
  2-5: injection H as <- <-; eexists; (split; [reflexivity|]); (split; [exact Hstop|discriminate]).
  destruct ev; try (eapply IH; [exact Hstop|exact H]).
  destruct (sd_current L (rd_dec L r)) as [f0|].
  2:{ injection H as <- <-. eexists. split; [reflexivity|]. split; [exact Hstop|discriminate]. }
  cbn [frame_take set_cur set_rd dc_conv dc_rd dc_bg dc_repeat] in *.
  match type of H with (match ?a with _ => _ end) = _ => destruct a; [|match type of H with (match ?b with _ => _ end) = _ => destruct b end] end;
    injection H as <- <-; eexists; (split; [reflexivity|]); (split; [apply alike_refl|reflexivity]).
Qed.
Lemma alike_frame d e d1 x : alike d e -> read_next_frame L umax d = (d1, x) ->
  exists e1, read_next_frame L umax e = (e1, x) /\ (x = Ok true -> e1 = d1).
Proof.
  intros Ha H. unfold read_next_frame, next_frame_info in *.
  assert (Er : dc_rd L e = dc_rd L d) by (destruct Ha as (f & t & ->); reflexivity). rewrite Er.
  destruct (next_frame_info_loop L (ev_fuel L (dc_rd L d)) d) as [d0 y] eqn:E.
  destruct (alike_info _ _ _ _ _ Ha E) as (e0 & E' & _ & Hy). rewrite E'.
  destruct y as [[|]|er| | ]; try (injection H as <- <-; eexists; split; [reflexivity|discriminate]).
  rewrite (Hy eq_refl). exists d1. auto.
Qed.

Lemma nones n : forall d, iter_all L umax n (mk_iter L d true) = (mk_iter L d true, repeat INone n).
Proof. induction n as [|n IH]; intros d; [reflexivity|]. cbn [iter_all iter_next it_ended]. rewrite IH. reflexivity. Qed.
Lemma items_first n k fs x : items (S n) (k :: fs) x = yielded k :: items n fs x.
Proof.
  unfold items. cbn [map app firstn]. f_equal. rewrite !app_assoc. generalize (map yielded fs ++ match x with Err e => [IErr e] | _ => [] end). intros l.
  rewrite !firstn_app. f_equal. rewrite !firstn_repeat by lia. reflexivity.
Qed.

Lemma iter_from n : forall d e d' fs x, alike d e -> read_all L umax n d = (d', fs, x) -> x <> Panic -> x <> Hang ->
  snd (iter_all L umax n (mk_iter L e false)) = items n fs x.
Proof.
  induction n as [|n IH]; intros d e d' fs x Ha H Hp Hh; [reflexivity|]. cbn [read_all iter_all] in *. unfold iter_next. cbn [it_ended it_dec].
  destruct (read_next_frame L umax d) as [d1 y] eqn:E. destruct (alike_frame _ _ _ _ Ha E) as (e1 & E' & Hy). rewrite E'.
  destruct y as [[|]|er| | ].
  - rewrite (Hy eq_refl). destruct (read_all L umax n d1) as [[d2 fs2] y2] eqn:E2. injection H as <- <- <-. rewrite items_first. unfold yielded.
    destruct (f_buffer (dc_cur L d1)) as [|b0 bs] eqn:Eb; cbn [is_nil frame_take].
    + specialize (IH d1 d1 d2 fs2 y2 (alike_refl d1) E2 Hp Hh). destruct (iter_all L umax n (mk_iter L d1 false)) as [it xs]. cbn [snd] in *. now rewrite IH.
    + match goal with |- context [iter_all L umax n (mk_iter L ?d0 false)] => assert (Hd0 : alike d1 d0) by (eexists; eexists; reflexivity);
        specialize (IH d1 d0 d2 fs2 y2 Hd0 E2 Hp Hh); destruct (iter_all L umax n (mk_iter L d0 false)) as [it xs] end.
      cbn [snd] in *. now rewrite IH.
  - injection H as <- <- <-. rewrite nones. unfold items. cbn [snd map app repeat firstn]. now rewrite firstn_repeat by lia.
  - injection H as <- <- <-. rewrite nones. unfold items. cbn [snd map app repeat firstn].
    change (INone :: repeat INone n) with (repeat INone (S n)). now rewrite firstn_repeat by lia.
  - injection H as <- <- <-. congruence.
  - injection H as <- <- <-. congruence.
Qed.

Theorem iter_loop n d d' fs x : read_all L umax n d = (d', fs, x) -> x <> Panic -> x <> Hang ->
  snd (iter_all L umax n (mk_iter L d false)) = items n fs x.
Proof. apply iter_from, alike_refl. Qed.

(** How many frames a loop gets tells how it ended. *)
Lemma read_all_full n : forall d d' fs x, read_all L umax n d = (d', fs, x) -> length fs <= n /\ (length fs < n <-> x <> Ok true).
Proof.
  induction n as [|n IH]; intros d d' fs x H; cbn [read_all] in H.
  { injection H as <- <- <-. cbn. split; [lia|]. split; [lia|congruence]. }
  destruct (read_next_frame L umax d) as [d1 y]. destruct y as [[|]|er| | ]; try (injection H as <- <- <-; cbn; split; [lia|]; split; [discriminate|lia]).
  destruct (read_all L umax n d1) as [[d2 fs2] y2] eqn:E2. injection H as <- <- <-. specialize (IH _ _ _ _ E2). cbn [length]. split; [lia|].
  destruct IH as [_ IH]. split; intros Q; [apply IH; lia|]. apply IH in Q. lia.
Qed.
(** The last frame of a loop. *)
Lemma read_all_last fs : forall n d d' f, read_all L umax n d = (d', fs ++ [f], Ok true) ->
  exists d0 fs0, read_all L umax (length fs) d = (d0, fs0, Ok true) /\ read_next_frame L umax d0 = (d', Ok true) /\ f = dc_cur L d'.
Proof.
  induction fs as [|f0 fs IH]; intros n d d' f H; destruct n as [|n]; cbn [read_all app] in H; try discriminate H.
  - destruct (read_next_frame L umax d) as [d1 y] eqn:E. destruct y as [[|]|er| | ]; try discriminate H.
    destruct (read_all L umax n d1) as [[d2 fs2] y2] eqn:E2. injection H as <- <- -> ->.
    destruct n as [|n]; [|destruct (read_all_full _ _ _ _ _ E2) as [_ [_ Q]]; cbn [length] in Q].
    + cbn [read_all] in E2. injection E2 as <-. exists d, []. auto.
    + exfalso. destruct (read_all_full _ _ _ _ _ E2) as [_ [Q1 _]]. cbn [length] in Q1. apply Q1; [lia|reflexivity].
  - destruct (read_next_frame L umax d) as [d1 y] eqn:E. destruct y as [[|]|er| | ]; try discriminate H.
    destruct (read_all L umax n d1) as [[d2 fs2] y2] eqn:E2. injection H as <- <- -> ->.
    destruct (IH _ _ _ _ E2) as (d0 & fs0 & A & B & C). exists d0, (dc_cur L d1 :: fs0). cbn [length read_all]. rewrite E, A. auto.
Qed.

Lemma items_loop fs : forall fs0 x z, length fs0 <= S (length fs) -> (length fs0 < S (length fs) <-> x <> Ok true) ->
  (z = INone \/ exists e, z = IErr e) ->
  items (S (length fs)) fs0 x = map IFrame fs ++ [z] ->
  (fs0 = fs /\ x <> Ok true /\ z = match x with Err e => IErr e | _ => INone end) \/
  (exists f, fs0 = fs ++ [f] /\ f_buffer f = [] /\ x = Ok true /\ z = INone).
Proof.
  induction fs as [|f fs IH]; intros fs0 x z Hl Hx Hz H.
  - destruct fs0 as [|f0 fs0].
    + left. assert (Hn : x <> Ok true) by (apply Hx; cbn; lia). split; [reflexivity|]. split; [exact Hn|].
      unfold items in H. cbn in H. destruct x; cbn in H; injection H as <-; reflexivity.
    + cbn [length] in *. rewrite items_first in H. destruct fs0; [|cbn [length] in Hl; lia].
      right. exists f0. split; [reflexivity|]. cbn [map app] in H. unfold yielded in H.
      assert (x = Ok true) as -> by (destruct x as [[|]| | | ]; try reflexivity; exfalso; assert (Q : 1 < 1) by (apply Hx; discriminate); lia).
      destruct (f_buffer f0); injection H as Hz0; [auto|]. destruct Hz as [->|[e ->]]; discriminate Hz0.
  - destruct fs0 as [|f0 fs0].
    + exfalso. unfold items in H. cbn in H. destruct x; cbn in H; discriminate H.
    + cbn [length map app] in *. rewrite items_first in H. injection H as Hf H.
      assert (f0 = f) as -> by (unfold yielded in Hf; destruct (f_buffer f0); [discriminate Hf|now injection Hf]).
      destruct (IH fs0 x z ltac:(lia)) as [(-> & Q)|(f1 & -> & Q)]; [split; [intros Q; apply Hx; lia|intros Q; apply Hx in Q; lia]|exact Hz|exact H|left; auto|right; eauto].
Qed.

Lemma frame_height St cb x c f x1 c1 f1 r : conv_read_frame umax St cb x c f = (x1, c1, f1, r) -> f_height f1 = f_height f.
Proof.
  unfold conv_read_frame. destruct (check_buffer_size umax c f) as [n|e| | ]; try (intros H; injection H as _ _ <- _; reflexivity).
  cbn zeta. destruct (umax / 2 <? n)%N; [intros H; injection H as _ _ <- _; reflexivity|].
  match goal with |- context [conv_read_into_buffer ?a ?b ?c ?d ?e ?f ?g] => destruct (conv_read_into_buffer a b c d e f g) as [[[x2 c2] b2] y] end.
  destruct y; intros H; injection H as _ _ <- _; reflexivity.
Qed.

(** ** Every decoder that a user can have *)
Hypothesis safe : lzw_safe L.
Hypothesis Humax : (2 ^ 32 - 1 <= umax)%N.
Variable src : list revent.
Variable o : options.
Hypothesis Hsrc : src_ok src.
Hypothesis Hlim : limit_ok umax (o_limit o).
Theorem iter_is_loop d n : opened L umax src o d ->
  exists d' fs x, read_all L umax n d = (d', fs, x) /\ snd (iter_all L umax n (mk_iter L d false)) = items n fs x.
Proof.
  intros Ho. destruct (opened_good L umax safe Humax src o Hsrc d Hlim Ho) as (Hg & Hop & _).
  pose proof (read_all_returns L umax safe Humax n d Hg) as Hr. destruct (read_all L umax n d) as [[d' fs] x] eqn:E. exists d', fs, x. split; [reflexivity|].
  assert (Q : returns x) by (apply Hr; unfold alloc_ok; now rewrite Hop). eapply iter_loop; [exact E| |]; intros ->; exact Q.
Qed.
Theorem loop_ends d fs it : opened L umax src o d ->
  iter_all L umax (S (length fs)) (mk_iter L d false) = (it, map IFrame fs ++ [INone]) ->
  exists d', read_all L umax (S (length fs)) d = (d', fs, Ok false) \/
    exists f, read_all L umax (S (length fs)) d = (d', fs ++ [f], Ok true) /\ f_buffer f = [] /\ f_height f = 0%N.
Proof.
  intros Ho H. destruct (iter_is_loop d (S (length fs)) Ho) as (d' & fs0 & x & E & Ei). rewrite H in Ei. cbn [snd] in Ei.
  destruct (opened_good L umax safe Humax src o Hsrc d Hlim Ho) as (Hg & Hop & _).
  assert (Hr : returns x).
  { pose proof (read_all_returns L umax safe Humax (S (length fs)) d Hg) as Q. rewrite E in Q. apply Q. unfold alloc_ok. now rewrite Hop. }
  destruct (read_all_full _ _ _ _ _ E) as [F1 F2].
  exists d'. destruct (items_loop fs fs0 x INone F1 F2 (or_introl eq_refl) (eq_sym Ei)) as [(-> & Hx & Hz)|(f & -> & Hb & -> & _)].
  { left. destruct x as [[|]|e| | ]; try congruence; first [exact E|exfalso; exact Hr]. }
  right. exists f. split; [exact E|]. split; [exact Hb|].
  destruct (read_all_last _ _ _ _ _ E) as (d0 & fs1 & A & B & ->).
  assert (Ho0 : opened L umax src o d0) by (eapply read_all_opened; eassumption).
  pose proof B as B'. unfold read_next_frame in B'. destruct (next_frame_info L d0) as [d1 y] eqn:En. destruct y as [[|]|er| | ]; try discriminate B'.
  pose proof (read_next_frame_size L umax safe Humax src o Hsrc Hlim d0 d1 d' Ho0 En B) as Hs. rewrite Hb in Hs.
  destruct (dc_ty L d1) eqn:Et; [|destruct Hs; discriminate].
  assert (Hz : (f_width (dc_cur L d1) * f_height (dc_cur L d1) = 0)%N) by (change (len []) with 0%N in Hs; destruct (o_color o); lia).
  destruct (zero_frame L umax safe Humax src o Hsrc Hlim d0 d1 Ho0 En Et Hz) as (d2 & r & E2 & _ & Hv). rewrite B in E2. injection E2 as <- <-.
  destruct (conv_read_frame _ _ _ _ _ _) as [[[r1 c1] f1] y1] eqn:Ec. apply frame_height in Ec.
  assert (Hcur : dc_cur L d' = f1) by (destruct y1; injection B' as <-; reflexivity).
  rewrite Hcur, Ec. destruct (f_interlaced (dc_cur L d1)); cbn [andb] in Hv; [|destruct Hv as (? & Q & _); discriminate Q].
  destruct (N.eqb_spec (f_height (dc_cur L d1)) 0) as [Q|]; [exact Q|destruct Hv as (? & Q & _); discriminate Q].
Qed.
Theorem loop_fails d fs e it : opened L umax src o d ->
  iter_all L umax (S (length fs)) (mk_iter L d false) = (it, map IFrame fs ++ [IErr e]) ->
  exists d', read_all L umax (S (length fs)) d = (d', fs, Err e).
Proof.
  intros Ho H. destruct (iter_is_loop d (S (length fs)) Ho) as (d' & fs0 & x & E & Ei). rewrite H in Ei. cbn [snd] in Ei.
  destruct (read_all_full _ _ _ _ _ E) as [F1 F2]. exists d'.
  destruct (items_loop fs fs0 x (IErr e) F1 F2 (or_intror (ex_intro _ e eq_refl)) (eq_sym Ei)) as [(-> & _ & Hz)|(f & _ & _ & _ & Q)]; [|discriminate Q].
  destruct x; try discriminate Hz. injection Hz as <-. exact E.
Qed.
End It.
