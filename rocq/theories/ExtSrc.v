(** More input never changes what was already reported, and a file that was cut off ends with an
    error. *)
From Verif Require Import Base Common Lzw Encoder Stream Converter Reader ConvInv DecoderSafe CanonReader SpecGif SpecPixels
  DocBlocks DocRead DocAll DecInv.
Open Scope N_scope.

(** Results that depend on where the input ends. *)
Definition final {A} (x : dres A) : Prop := x <> Hang /\ x <> Err (DIo UnexpectedEof).
Definition out_final (y : dout) : Prop :=
  match y with OutBool x => final x | OutInto _ x => final x | OutFill _ x => final x end.

Lemma final_ok {A} (a : A) : final (Ok a).
Proof. split; discriminate. Qed.
Lemma final_err {A B} e : @final A (Err e) -> @final B (Err e).
Proof. intros [_ H]. split; [discriminate|]. congruence. Qed.
Lemma final_hang {A} : ~ @final A Hang.
Proof. intros [H _]. congruence. Qed.
Lemma final_panic {A} : @final A Panic.
Proof. split; discriminate. Qed.
#[local] Hint Resolve final_ok final_panic : core.

(** ** Pixel conversion *)
Section CX.
Variable umax : N.
Variable St : Type.
Variable cb : St -> obuf -> St * obuf * dres nat.
Variable g : St -> St.
Hypothesis cb_g : forall x ob x' ob' r, cb x ob = (x', ob', r) -> final r -> cb (g x) ob = (g x', ob', r).

Ltac fin :=
  match goal with
  | H : final Hang |- _ => destruct (final_hang H)
  | |- final (Ok _) => apply final_ok
  | |- final Panic => apply final_panic
  | |- final (Err _) => eapply final_err; eassumption
  end.

Lemma fill_loop_g fuel : forall x c f done buf x' c' b r, fill_loop St cb fuel x c f done buf = (x', c', b, r) -> final r ->
  fill_loop St cb fuel (g x) c f done buf = (g x', c', b, r).
Proof.
  induction fuel as [|fuel IH]; intros x c f done buf x' c' b r H Hr; cbn [fill_loop] in *.
  { injection H as <- <- <- <-. fin. }
  destruct (cv_color c).
  - destruct ((length buf / 4 =? 0)%nat); [injection H as <- <- <- <-; reflexivity|].
    set (scratch := if (length (cv_buffer c) <? length buf / 4)%nat then _ else _) in *. clearbody scratch.
    destruct (cb x (OSlice (firstn (length buf / 4) scratch))) as [[x1 ob] y] eqn:E.
    assert (Hy : final y -> cb (g x) (OSlice (firstn (length buf / 4) scratch)) = (g x1, ob, y)) by (intros; eapply cb_g; eassumption).
    destruct y as [n|e| |]; try (injection H as <- <- <- <-; rewrite Hy by fin; reflexivity).
    rewrite Hy by fin. destruct n as [|n]; [injection H as <- <- <- <-; reflexivity|].
    destruct (_ <? _)%nat; [injection H as <- <- <- <-; reflexivity|].
    destruct (is_nil _); [injection H as <- <- <- <-; reflexivity|]. now apply IH.
  - destruct (cb x (OSlice buf)) as [[x1 ob] y] eqn:E.
    assert (Hy : final y -> cb (g x) (OSlice buf) = (g x1, ob, y)) by (intros; eapply cb_g; eassumption).
    destruct y as [n|e| |]; try (injection H as <- <- <- <-; rewrite Hy by fin; reflexivity).
    rewrite Hy by fin. destruct n as [|n]; [injection H as <- <- <- <-; reflexivity|].
    destruct (_ <? _)%nat; [injection H as <- <- <- <-; reflexivity|].
    destruct (is_nil _); [injection H as <- <- <- <-; reflexivity|]. now apply IH.
Qed.
Lemma conv_fill_g x c f buf x' c' b r : conv_fill_buffer St cb x c f buf = (x', c', b, r) -> final r ->
  conv_fill_buffer St cb (g x) c f buf = (g x', c', b, r).
Proof. apply fill_loop_g. Qed.

Lemma read_rows_g rows : forall x c f buf x' c' b r, read_rows umax St cb rows x c f buf = (x', c', b, r) -> final r ->
  read_rows umax St cb rows (g x) c f buf = (g x', c', b, r).
Proof.
  induction rows as [|row rows IH]; intros x c f buf x' c' b r H Hr; cbn [read_rows] in *; [injection H as <- <- <- <-; reflexivity|].
  destruct (umax <? _); [injection H as <- <- <- <-; reflexivity|].
  destruct (_ && _); [|injection H as <- <- <- <-; reflexivity].
  destruct (conv_fill_buffer St cb x c f _) as [[[x1 c1] line] y] eqn:E.
  assert (Hy : final y -> conv_fill_buffer St cb (g x) c f (firstn (N.to_nat (line_length c f)) (skipn (N.to_nat (N.of_nat row * line_length c f)) buf)) = (g x1, c1, line, y))
    by (intros; eapply conv_fill_g; eassumption).
  destruct y as [[|]|e| |]; try (injection H as <- <- <- <-; rewrite Hy by fin; reflexivity).
  rewrite Hy by fin. now apply IH.
Qed.
Lemma conv_into_g x c f buf x' c' b r : conv_read_into_buffer umax St cb x c f buf = (x', c', b, r) -> final r ->
  conv_read_into_buffer umax St cb (g x) c f buf = (g x', c', b, r).
Proof.
  unfold conv_read_into_buffer. destruct (f_interlaced f); [apply read_rows_g|].
  intros H Hr. destruct (buffer_size umax c f) as [n|]; [|injection H as <- <- <- <-; reflexivity].
  destruct (n <=? len buf); [|injection H as <- <- <- <-; reflexivity].
  destruct (conv_fill_buffer St cb x c f (firstn (N.to_nat n) buf)) as [[[x1 c1] line] y] eqn:E.
  assert (Hy : final y -> conv_fill_buffer St cb (g x) c f (firstn (N.to_nat n) buf) = (g x1, c1, line, y))
    by (intros; eapply conv_fill_g; eassumption).
  destruct y as [[|]|e| |]; injection H as <- <- <- <-; rewrite Hy by fin; reflexivity.
Qed.
Lemma conv_frame_g x c f x' c' f' r : conv_read_frame umax St cb x c f = (x', c', f', r) -> final r ->
  conv_read_frame umax St cb (g x) c f = (g x', c', f', r).
Proof.
  unfold conv_read_frame. intros H Hr. destruct (check_buffer_size umax c f) as [n|e| |]; try (injection H as <- <- <- <-; reflexivity).
  destruct (umax / 2 <? n); [injection H as <- <- <- <-; reflexivity|].
  destruct (conv_read_into_buffer umax St cb x c (set_buffer f []) _) as [[[x1 c1] b] y] eqn:E.
  assert (Hy : final y -> conv_read_into_buffer umax St cb (g x) c (set_buffer f []) (grow (firstn (N.to_nat n) (f_buffer f)) (N.to_nat n)) = (g x1, c1, b, y))
    by (intros; eapply conv_into_g; eassumption).
  destruct y as [u|e| |]; injection H as <- <- <- <-; rewrite Hy by fin; reflexivity.
Qed.
End CX.

(** ** The reader *)
Section EX.
Variable L : lzw_codec.
Variable umax : N.
Variable more : list revent.
Notation rd := (rd L).
Notation dcd := (dcd L).

Definition rext (r : rd) : rd := mk_rd L (rd_buf L r) (rd_src L r ++ more) (rd_dec L r) (rd_eof L r).
Definition dext (d : dcd) : dcd := set_rd L d (rext (dc_rd L d)).

Ltac fin :=
  match goal with
  | H : final Hang |- _ => destruct (final_hang H)
  | |- final (Ok _) => apply final_ok
  | |- final Panic => apply final_panic
  | |- final (Err _) => eapply final_err; eassumption
  end.

Lemma fill_buf_ext r r1 b bs : fill_buf L r = (r1, Ok (b :: bs)) -> fill_buf L (rext r) = (rext r1, Ok (b :: bs)).
Proof.
  unfold fill_buf, rext. destruct r as [buf src dec eof]. cbn [rd_buf rd_src rd_dec rd_eof]. destruct buf as [|x buf].
  - destruct src as [|[y|k] src]; cbn [app]; intros H; try discriminate H; injection H as <- <-; reflexivity.
  - intros [= <- <- <-]. reflexivity.
Qed.
Lemma fill_buf_ext_err r r1 k : fill_buf L r = (r1, Err k) -> fill_buf L (rext r) = (rext r1, Err k).
Proof.
  unfold fill_buf, rext. destruct r as [buf src dec eof]. cbn [rd_buf rd_src rd_dec rd_eof]. destruct buf as [|x buf]; [|discriminate].
  destruct src as [|[y|k'] src]; cbn [app]; intros H; try discriminate H. injection H as <- <-. reflexivity.
Qed.

Lemma decode_next_loop_ext fuel : forall fuel2 r ob r' ob' x, decode_next_loop L fuel r ob = (r', ob', x) -> final x ->
  (fuel <= fuel2)%nat -> decode_next_loop L fuel2 (rext r) ob = (rext r', ob', x).
Proof.
  induction fuel as [|fuel IH]; intros fuel2 r ob r' ob' x H Hx Hf.
  - cbn [decode_next_loop] in H. destruct (rd_eof L r) eqn:Ee; injection H as <- <- <-; [|fin].
    destruct fuel2; cbn [decode_next_loop]; change (rd_eof L (rext r)) with (rd_eof L r); rewrite Ee; reflexivity.
  - destruct fuel2 as [|fuel2]; [lia|]. cbn [decode_next_loop] in *. change (rd_eof L (rext r)) with (rd_eof L r).
    destruct (rd_eof L r) eqn:Ee; [injection H as <- <- <-; reflexivity|].
    destruct (fill_buf L r) as [r1 y] eqn:Ef. destruct y as [[|b bs]|k| |].
    + injection H as <- <- <-. destruct Hx as [_ Hx]. congruence.
    + rewrite (fill_buf_ext _ _ _ _ Ef). change (rd_dec L (rext r1)) with (rd_dec L r1).
      destruct (update L (rd_dec L r1) (b :: bs) ob) as [[d ob1] z]. destruct z as [[n ev]|e| |];
        try (injection H as <- <- <-; reflexivity).
      destruct ev as [ | | | | |bk| | | | | | ]; try (injection H as <- <- <-; reflexivity).
      all: try (apply (IH fuel2) in H; [exact H|exact Hx|lia]).
      destruct bk; try (injection H as <- <- <-; reflexivity).
      apply (IH fuel2) in H; [exact H|exact Hx|lia].
    + rewrite (fill_buf_ext_err _ _ _ Ef). injection H as <- <- <-. reflexivity.
    + exfalso. unfold fill_buf in Ef. destruct (rd_buf L r); [destruct (rd_src L r) as [|[|] ?]|]; discriminate Ef.
    + exfalso. unfold fill_buf in Ef. destruct (rd_buf L r); [destruct (rd_src L r) as [|[|] ?]|]; discriminate Ef.
Qed.
Lemma decode_next_ext r ob r' ob' x : decode_next L r ob = (r', ob', x) -> final x ->
  decode_next L (rext r) ob = (rext r', ob', x).
Proof.
  intros H Hx. unfold decode_next in *. eapply decode_next_loop_ext; [exact H|exact Hx|].
  cbn [rext rd_src]. rewrite app_length. lia.
Qed.
Lemma decode_next_bytes_ext r ob r' ob' x : decode_next_bytes L r ob = (r', ob', x) -> final x ->
  decode_next_bytes L (rext r) ob = (rext r', ob', x).
Proof.
  unfold decode_next_bytes. intros H Hx. destruct (decode_next L r ob) as [[r1 ob1] y] eqn:E.
  assert (Hy : final y -> decode_next L (rext r) ob = (rext r1, ob1, y)) by (intros; eapply decode_next_ext; eassumption).
  destruct y as [[ev|]|e| |]; try (injection H as <- <- <-; rewrite Hy by fin; reflexivity).
  rewrite Hy by fin. destruct ev; injection H as <- <- <-; reflexivity.
Qed.

Lemma rest_ext r : (length (rd_rest L r) <= length (rd_rest L (rext r)))%nat.
Proof. unfold rd_rest, rext. cbn [rd_buf rd_src]. rewrite map_app, concat_app, !app_length. lia. Qed.
Lemma fuel_ext r : (ev_fuel L r <= ev_fuel L (rext r))%nat.
Proof. unfold ev_fuel. pose proof (rest_ext r). lia. Qed.

Lemma init_loop_ext fuel : forall fuel2 d x, init_loop L fuel d = x -> final x -> (fuel <= fuel2)%nat ->
  init_loop L fuel2 (dext d) = match x with Ok d' => Ok (dext d') | _ => x end.
Proof.
  induction fuel as [|fuel IH]; intros fuel2 d x H Hx Hf; [cbn [init_loop] in H; subst x; fin|].
  destruct fuel2 as [|fuel2]; [lia|]. cbn [init_loop] in *. change (dc_rd L (dext d)) with (rext (dc_rd L d)).
  destruct (decode_next L (dc_rd L d) ONone) as [[r ob] y] eqn:E.
  assert (Hy : final y -> decode_next L (rext (dc_rd L d)) ONone = (rext r, ob, y)) by (intros; eapply decode_next_ext; eassumption).
  destruct y as [[ev|]|e| |].
  - rewrite Hy by fin. destruct ev; try (apply (IH fuel2) in H; [exact H|exact Hx|lia]).
    subst x. f_equal. unfold fix_bg. cbn [dext set_rd dc_conv dc_bg]. destruct (cv_gpal (dc_conv L d)); [|reflexivity].
    destruct (_ <=? _); reflexivity.
  - rewrite Hy by fin. subst x. reflexivity.
  - subst x. rewrite Hy by fin. reflexivity.
  - subst x. rewrite Hy by fin. reflexivity.
  - subst x. fin.
Qed.
Theorem read_info_ext src o x : read_info L src o = x -> final x ->
  read_info L (src ++ more) o = match x with Ok d => Ok (dext d) | _ => x end.
Proof.
  unfold read_info. intros H Hx. change (with_no_init L (src ++ more) o) with (dext (with_no_init L src o)).
  eapply init_loop_ext; [exact H|exact Hx|apply fuel_ext].
Qed.

Lemma next_frame_info_loop_ext fuel : forall fuel2 d d' x, next_frame_info_loop L fuel d = (d', x) -> final x ->
  (fuel <= fuel2)%nat -> next_frame_info_loop L fuel2 (dext d) = (dext d', x).
Proof.
  induction fuel as [|fuel IH]; intros fuel2 d d' x H Hx Hf; [cbn [next_frame_info_loop] in H; injection H as <- <-; fin|].
  destruct fuel2 as [|fuel2]; [lia|]. cbn [next_frame_info_loop] in *. change (dc_rd L (dext d)) with (rext (dc_rd L d)).
  destruct (decode_next L (dc_rd L d) ONone) as [[r ob] y] eqn:E.
  assert (Hy : final y -> decode_next L (rext (dc_rd L d)) ONone = (rext r, ob, y)) by (intros; eapply decode_next_ext; eassumption).
  destruct y as [[ev|]|e| |]; try (injection H as <- <-; rewrite Hy by fin; reflexivity).
  rewrite Hy by fin. destruct ev; try (apply (IH fuel2) in H; [exact H|exact Hx|lia]).
  change (rd_dec L (rext r)) with (rd_dec L r). destruct (sd_current L (rd_dec L r)) as [f|]; [|injection H as <- <-; reflexivity].
  destruct (frame_take f) as [taken leftover]. cbn [dext set_rd set_cur dc_conv] in *.
  destruct (f_palette taken); [injection H as <- <-; reflexivity|].
  destruct (cv_gpal (dc_conv L d)); injection H as <- <-; reflexivity.
Qed.
Lemma next_frame_info_ext d d' x : next_frame_info L d = (d', x) -> final x -> next_frame_info L (dext d) = (dext d', x).
Proof. unfold next_frame_info. intros H Hx. eapply next_frame_info_loop_ext; [exact H|exact Hx|apply fuel_ext]. Qed.

Lemma copy_lzw_loop_ext fuel : forall fuel2 r v r' v' x, copy_lzw_loop L fuel r v = (r', v', x) -> final x ->
  (fuel <= fuel2)%nat -> copy_lzw_loop L fuel2 (rext r) v = (rext r', v', x).
Proof.
  induction fuel as [|fuel IH]; intros fuel2 r v r' v' x H Hx Hf; [cbn [copy_lzw_loop] in H; injection H as <- <- <-; fin|].
  destruct fuel2 as [|fuel2]; [lia|]. cbn [copy_lzw_loop] in *.
  destruct (decode_next L r (OVec v)) as [[r1 ob] y] eqn:E.
  assert (Hy : final y -> decode_next L (rext r) (OVec v) = (rext r1, ob, y)) by (intros; eapply decode_next_ext; eassumption).
  destruct y as [[ev|]|e| |]; try (injection H as <- <- <-; rewrite Hy by fin; reflexivity).
  rewrite Hy by fin. destruct ev; try (injection H as <- <- <-; reflexivity).
  apply (IH fuel2) in H; [exact H|exact Hx|lia].
Qed.
Lemma copy_lzw_ext r m v r' v' x : copy_lzw_into_buffer L r m v = (r', v', x) -> final x ->
  copy_lzw_into_buffer L (rext r) m v = (rext r', v', x).
Proof. unfold copy_lzw_into_buffer. intros H Hx. eapply copy_lzw_loop_ext; [exact H|exact Hx|apply fuel_ext]. Qed.

Lemma read_next_frame_ext d d' x : read_next_frame L umax d = (d', x) -> final x ->
  read_next_frame L umax (dext d) = (dext d', x).
Proof.
  unfold read_next_frame. intros H Hx. destruct (next_frame_info L d) as [d1 y] eqn:E.
  assert (Hy : final y -> next_frame_info L (dext d) = (dext d1, y)) by (intros; eapply next_frame_info_ext; eassumption).
  destruct y as [[|]|e| |]; try (injection H as <- <-; rewrite Hy by fin; reflexivity).
  rewrite Hy by fin. cbn [dext set_rd dc_ty dc_rd dc_conv dc_cur] in *. destruct (dc_ty L d1) as [|m].
  - destruct (conv_read_frame umax rd (decode_next_bytes L) (dc_rd L d1) (dc_conv L d1) (dc_cur L d1)) as [[[r c] f] z] eqn:Ec.
    assert (Hz : final z -> conv_read_frame umax rd (decode_next_bytes L) (rext (dc_rd L d1)) (dc_conv L d1) (dc_cur L d1) = (rext r, c, f, z)).
    { intros Hz. eapply (conv_frame_g umax rd (decode_next_bytes L) rext); [|exact Ec|exact Hz]. intros. now apply decode_next_bytes_ext. }
    destruct z as [u|e| |]; injection H as <- <-; rewrite Hz by fin; reflexivity.
  - destruct (copy_lzw_into_buffer L (dc_rd L d1) m []) as [[r v] z] eqn:Ec.
    assert (Hz : final z -> copy_lzw_into_buffer L (rext (dc_rd L d1)) m [] = (rext r, v, z)) by (intros; eapply copy_lzw_ext; eassumption).
    destruct z as [u|e| |]; injection H as <- <-; rewrite Hz by fin; reflexivity.
Qed.
Lemma read_into_buffer_ext d buf d' b x : read_into_buffer L umax d buf = (d', b, x) -> final x ->
  read_into_buffer L umax (dext d) buf = (dext d', b, x).
Proof.
  unfold read_into_buffer. intros H Hx. cbn [dext set_rd dc_rd dc_conv dc_cur].
  destruct (conv_read_into_buffer umax rd (decode_next_bytes L) (dc_rd L d) (dc_conv L d) (dc_cur L d) buf) as [[[r c] b1] y] eqn:E.
  injection H as <- <- <-.
  rewrite (conv_into_g umax rd (decode_next_bytes L) rext decode_next_bytes_ext _ _ _ _ _ _ _ _ E Hx). reflexivity.
Qed.
Lemma fill_buffer_ext d buf d' b x : fill_buffer L d buf = (d', b, x) -> final x ->
  fill_buffer L (dext d) buf = (dext d', b, x).
Proof.
  unfold fill_buffer. intros H Hx. cbn [dext set_rd dc_rd dc_conv dc_cur].
  destruct (conv_fill_buffer rd (decode_next_bytes L) (dc_rd L d) (dc_conv L d) (dc_cur L d) buf) as [[[r c] b1] y] eqn:E.
  injection H as <- <- <-.
  rewrite (conv_fill_g rd (decode_next_bytes L) rext decode_next_bytes_ext _ _ _ _ _ _ _ _ E Hx). reflexivity.
Qed.
Lemma run_dop_ext d o d' y : run_dop L umax d o = (d', y) -> out_final y -> run_dop L umax (dext d) o = (dext d', y).
Proof.
  destruct o as [ | |buf|buf]; cbn [run_dop]; intros H Hy.
  - destruct (next_frame_info L d) as [d1 x] eqn:E. injection H as <- <-. now rewrite (next_frame_info_ext _ _ _ E Hy).
  - destruct (read_next_frame L umax d) as [d1 x] eqn:E. injection H as <- <-. now rewrite (read_next_frame_ext _ _ _ E Hy).
  - destruct (read_into_buffer L umax d buf) as [[d1 b] x] eqn:E. injection H as <- <-. now rewrite (read_into_buffer_ext _ _ _ _ _ E Hy).
  - destruct (fill_buffer L d buf) as [[d1 b] x] eqn:E. injection H as <- <-. now rewrite (fill_buffer_ext _ _ _ _ _ E Hy).
Qed.
Lemma run_dops_ext os : forall d d' ys, run_dops L umax d os = (d', ys) -> Forall out_final ys ->
  run_dops L umax (dext d) os = (dext d', ys).
Proof.
  induction os as [|o os IH]; intros d d' ys H Hy; cbn [run_dops] in *; [injection H as <- <-; reflexivity|].
  destruct (run_dop L umax d o) as [d1 y] eqn:E. destruct (run_dops L umax d1 os) as [d2 ys2] eqn:E2. injection H as <- <-.
  inversion Hy as [|? ? Y1 Y2]; subst. rewrite (run_dop_ext _ _ _ _ E Y1), (IH _ _ _ E2 Y2). reflexivity.
Qed.
Lemma read_all_ext n : forall d d' fs x, read_all L umax n d = (d', fs, x) -> final x ->
  read_all L umax n (dext d) = (dext d', fs, x).
Proof.
  induction n as [|n IH]; intros d d' fs x H Hx; cbn [read_all] in *; [injection H as <- <- <-; reflexivity|].
  destruct (read_next_frame L umax d) as [d1 y] eqn:E. destruct y as [[|]|e| |];
    try (injection H as <- <- <-; rewrite (read_next_frame_ext _ _ _ E) by fin; reflexivity).
  rewrite (read_next_frame_ext _ _ _ E) by fin. destruct (read_all L umax n d1) as [[d2 fs2] z] eqn:E2. injection H as <- <- <-.
  rewrite (IH _ _ _ _ E2 Hx). reflexivity.
Qed.
Lemma scan_all_ext n : forall d d' fs x, scan_all L n d = (d', fs, x) -> final x ->
  scan_all L n (dext d) = (dext d', fs, x).
Proof.
  induction n as [|n IH]; intros d d' fs x H Hx; cbn [scan_all] in *; [injection H as <- <- <-; reflexivity|].
  destruct (next_frame_info L d) as [d1 y] eqn:E. destruct y as [[|]|e| |];
    try (injection H as <- <- <-; rewrite (next_frame_info_ext _ _ _ E) by fin; reflexivity).
  rewrite (next_frame_info_ext _ _ _ E) by fin. destruct (scan_all L n d1) as [[d2 fs2] z] eqn:E2. injection H as <- <- <-.
  rewrite (IH _ _ _ _ E2 Hx). reflexivity.
Qed.
(** Without the condition on the last result, what was read before it is kept. *)
Lemma read_all_prefix n : forall d d' fs x, read_all L umax n d = (d', fs, x) ->
  exists d2 fs2 x2, read_all L umax n (dext d) = (d2, fs ++ fs2, x2).
Proof.
  induction n as [|n IH]; intros d d' fs x H; cbn [read_all] in *; [injection H as <- <- <-; exists (dext d), [], (Ok true); reflexivity|].
  destruct (read_next_frame L umax d) as [d1 y] eqn:E.
  destruct y as [[|]|e| |]; try (injection H as <- <- <-; cbn [app]; destruct (read_next_frame L umax (dext d)) as [d3 z];
    destruct z as [[|]|e2| |]; [destruct (read_all L umax n d3) as [[d4 l] z]|..]; eexists _, _, _; reflexivity).
  rewrite (read_next_frame_ext _ _ _ E) by fin. destruct (read_all L umax n d1) as [[d2 fs2] z] eqn:E2. injection H as <- <- <-.
  destruct (IH _ _ _ _ E2) as (d3 & fs3 & x3 & ->). exists d3, fs3, x3. reflexivity.
Qed.
Lemma scan_all_prefix n : forall d d' fs x, scan_all L n d = (d', fs, x) ->
  exists d2 fs2 x2, scan_all L n (dext d) = (d2, fs ++ fs2, x2).
Proof.
  induction n as [|n IH]; intros d d' fs x H; cbn [scan_all] in *; [injection H as <- <- <-; exists (dext d), [], (Ok true); reflexivity|].
  destruct (next_frame_info L d) as [d1 y] eqn:E.
  destruct y as [[|]|e| |]; try (injection H as <- <- <-; cbn [app]; destruct (next_frame_info L (dext d)) as [d3 z];
    destruct z as [[|]|e2| |]; [destruct (scan_all L n d3) as [[d4 l] z]|..]; eexists _, _, _; reflexivity).
  rewrite (next_frame_info_ext _ _ _ E) by fin. destruct (scan_all L n d1) as [[d2 fs2] z] eqn:E2. injection H as <- <- <-.
  destruct (IH _ _ _ _ E2) as (d3 & fs3 & x3 & ->). exists d3, fs3, x3. reflexivity.
Qed.
Lemma dext_rest d : rd_rest L (dc_rd L (dext d)) = rd_rest L (dc_rd L d) ++ concat (map ev_bytes more).
Proof. unfold rd_rest. cbn [dext set_rd dc_rd rext rd_buf rd_src]. now rewrite map_app, concat_app, app_assoc. Qed.
End EX.

(** ** Theorems *)
Section TH.
Variable L : lzw_codec.
Variable umax : N.
Hypothesis safe : lzw_safe L.
Hypothesis Humax : 2 ^ 32 - 1 <= umax.

(** Not the error for the end of the input. *)
Definition not_eof {A} (x : dres A) : Prop := x <> Err (DIo UnexpectedEof).
Definition out_not_eof (y : dout) : Prop :=
  match y with OutBool x => not_eof x | OutInto _ x => not_eof x | OutFill _ x => not_eof x end.

Lemma returns_final {A} (x : dres A) : returns x -> not_eof x -> final x.
Proof. intros H1 H2. split; [|exact H2]. intros ->. exact H1. Qed.

Theorem longer_input src more o d os d' ys : src_ok src -> limit_ok umax (o_limit o) -> Forall (op_ok umax) os ->
  read_info L src o = Ok d -> run_dops L umax d os = (d', ys) -> Forall out_not_eof ys ->
  exists d2 d2', read_info L (src ++ more) o = Ok d2 /\ run_dops L umax d2 os = (d2', ys) /\
    dec_into_inner L d2' = (fst (dec_into_inner L d'), snd (dec_into_inner L d') ++ more).
Proof.
  intros Hs Hl Ho E R Hy. destruct (read_info_returns L safe umax Humax src o Hs) as [_ H2].
  destruct (H2 d E) as [Hg Hd].
  destruct (run_dops_returns L safe umax Humax os d Hg) as [H _]; [unfold alloc_ok; now rewrite Hd|exact Ho|].
  rewrite R in H. cbn [snd] in H.
  assert (Hf : Forall out_final ys).
  { apply Forall_forall. intros y Hin. pose proof (proj1 (Forall_forall _ _) H _ Hin) as A.
    pose proof (proj1 (Forall_forall _ _) Hy _ Hin) as B. destruct y; now apply returns_final. }
  exists (dext L more d), (dext L more d').
  split; [exact (read_info_ext L more src o _ E (final_ok d))|]. split; [exact (run_dops_ext L umax more os _ _ _ R Hf)|]. reflexivity.
Qed.
Theorem longer_input_info src more o e : src_ok src -> e <> DIo UnexpectedEof ->
  read_info L src o = Err e -> read_info L (src ++ more) o = Err e.
Proof.
  intros Hs He E. apply (read_info_ext L more src o _ E). split; [discriminate|]. congruence.
Qed.

Lemma read_all_returns n : forall d, dcd_good L d -> alloc_ok L umax d -> returns (snd (read_all L umax n d)).
Proof.
  induction n as [|n IH]; intros d Hg Ha; cbn [read_all]; [exact I|].
  destruct (read_next_frame L umax d) as [d1 x] eqn:E.
  destruct (read_next_frame_returns L safe umax Humax d d1 x Hg Ha E) as (H1 & H2 & H3 & _).
  destruct x as [[|]|e| |]; try exact H1.
  specialize (IH d1 H2 (alloc_ok_kept L umax _ _ H3 Ha)). destruct (read_all L umax n d1) as [[d2 fs] z]. exact IH.
Qed.
Lemma scan_all_returns n : forall d, dcd_good L d -> returns (snd (scan_all L n d)).
Proof.
  induction n as [|n IH]; intros d Hg; cbn [scan_all]; [exact I|].
  destruct (next_frame_info L d) as [d1 x] eqn:E.
  pose proof (next_frame_info_returns L safe umax Humax d d1 x Hg E) as (H1 & H2 & _).
  destruct x as [[|]|e| |]; try exact H1.
  specialize (IH d1 H2). destruct (scan_all L n d1) as [[d2 fs] z]. exact IH.
Qed.
End TH.

(** ** Files that were cut off *)
Section TR.
Variable L : lzw_codec.
Variable S : lzw_spec L.
Variable umax : N.
Hypothesis Humax : 2 ^ 32 - 1 <= umax.
Let safe : lzw_safe L := lz_is_safe L S.

Lemma delivers_app src p q : delivers src p -> bytes_ok q -> q <> [] -> delivers (src ++ [RChunk q]) (p ++ q).
Proof.
  intros (H1 & H2 & H3) Hq Hn. split; [apply Forall_app; split; [exact H1|repeat constructor; exact Hq]|].
  split; [apply Forall_app; split; [exact H2|constructor; [destruct q; [congruence|exact I]|constructor]]|].
  rewrite map_app, concat_app, H3. cbn [map ev_bytes concat]. now rewrite app_nil_r.
Qed.

Lemma word_ok n : u16_ok n -> bytes_ok (word n).
Proof. unfold u16_ok. intros H. repeat constructor; unfold byte_ok; lia. Qed.
Lemma ser_subs_bytes subs : subs_ok subs -> bytes_ok (ser_subs subs).
Proof.
  intros [_ H]. unfold ser_subs. apply Forall_app. split; [|repeat constructor; unfold byte_ok; lia].
  induction H as [|b subs [H1 H2] _ IH]; [constructor|]. cbn [map concat]. apply Forall_app. split; [|exact IH].
  constructor; [unfold byte_ok; lia|exact H2].
Qed.
Lemma ser_gif_bytes o g : gif_ok o g -> bytes_ok (ser_gif g []).
Proof.
  intros (H1 & H2 & H3 & H4 & H5 & [H6 _] & _ & H7 & _). unfold ser_gif, ser_head.
  repeat (apply Forall_app; split).
  - destruct (g_89a g); repeat constructor; unfold byte_ok; lia.
  - now apply word_ok.
  - now apply word_ok.
  - repeat constructor; assumption.
  - exact H6.
  - unfold ser_blocks. induction H7 as [|b bs Hb _ IH]; [constructor|]. cbn [map concat]. apply Forall_app. split; [|exact IH].
    destruct b as [l subs|i|t subs]; cbn [ser_blk].
    + destruct Hb as (K & Hs & _). constructor; [unfold byte_ok; lia|].
      constructor; [destruct K as [->|[->|[->| ->]]]; unfold byte_ok; lia|]. now apply ser_subs_bytes.
    + destruct Hb as (I1 & I2 & I3 & I4 & I5 & [I6 _] & I7 & I8 & _). constructor; [unfold byte_ok; lia|].
      repeat (apply Forall_app; split); try (now apply word_ok); [repeat constructor; assumption|exact I6|].
      constructor; [unfold byte_ok; lia|]. now apply ser_subs_bytes.
    + destruct Hb as (U1 & _ & _ & _ & U2 & _). constructor; [exact U1|]. now apply ser_subs_bytes.
  - repeat constructor; unfold byte_ok; lia.
Qed.
Lemma tail_bytes o g p q : gif_ok o g -> ser_gif g [] = p ++ q -> bytes_ok q.
Proof. intros H E. apply ser_gif_bytes in H. rewrite E in H. apply Forall_app in H. apply H. Qed.

Lemma app_tail_neq (r q : list N) : q <> [] -> r ++ q <> [].
Proof. intros H E. apply app_eq_nil in E. tauto. Qed.

(** [outs] are the pixels of the images of the complete file. *)
Theorem truncated_frames o g p q src outs n : gif_ok o g -> limit_ok umax (o_limit o) -> ser_gif g [] = p ++ q -> q <> [] ->
  delivers src p -> o_skip_frame_decoding o = false -> o_check_for_end_code o = false ->
  Forall2 (holds L S umax o) (gif_images g) outs -> (length outs < n)%nat ->
  read_info L src o = Err (DIo UnexpectedEof) \/
  exists d d' fs missing, read_info L src o = Ok d /\ read_all L umax n d = (d', fs, Err (DIo UnexpectedEof)) /\
    all_seen o g (gif_images g) outs = fs ++ missing.
Proof.
  intros Hg Hl Es Hq D N1 N2 Ho Hn. pose proof (tail_bytes o g p q Hg Es) as Hb. pose proof (delivers_app src p q D Hb Hq) as Df. rewrite <- Es in Df.
  destruct (file_frames L S umax Humax o g [] _ outs n Hg Df N1 N2 Ho Hn) as (df & df' & E & R & T).
  destruct (read_info_returns L safe umax Humax src o (proj1 D)) as [Hr Hd].
  destruct (read_info L src o) as [d|e| |] eqn:Ei; try destruct Hr.
  - right. destruct (Hd d eq_refl) as [Hgd Hdo]. destruct (read_all L umax n d) as [[d' fs] x] eqn:Er.
    pose proof (read_info_ext L [RChunk q] src o _ Ei (final_ok d)) as Ex. cbn beta iota in Ex. rewrite E in Ex. injection Ex as ->.
    pose proof (read_all_returns L umax safe Humax n d Hgd) as Hx. rewrite Er in Hx. cbn [snd] in Hx.
    assert (Hx' : returns x) by (apply Hx; unfold alloc_ok; now rewrite Hdo). clear Hx.
    assert (Hcase : x = Err (DIo UnexpectedEof) \/ final x).
    { destruct x as [b|e| |]; try destruct Hx'; [right; apply final_ok|]. destruct e; try (right; split; discriminate).
      destruct k; first [left; reflexivity|right; split; discriminate]. }
    destruct Hcase as [->|Hf].
    + destruct (read_all_prefix L umax [RChunk q] n _ _ _ _ Er) as (d2 & fs2 & x2 & E2). rewrite R in E2. injection E2 as _ Ef _.
      exists d, d', fs, fs2. auto.
    + exfalso. pose proof (read_all_ext L umax [RChunk q] n _ _ _ _ Er Hf) as E2. rewrite R in E2. injection E2 as -> _ _.
      rewrite dext_rest in T. cbn [map ev_bytes concat] in T. rewrite app_nil_r in T. exact (app_tail_neq _ _ Hq T).
  - left. assert (Hcase : e = DIo UnexpectedEof \/ @final (dcd L) (Err e)).
    { destruct e; try (right; split; discriminate). destruct k; first [left; reflexivity|right; split; discriminate]. }
    destruct Hcase as [->|Hf]; [reflexivity|]. exfalso.
    pose proof (read_info_ext L [RChunk q] src o _ Ei Hf) as Ex. cbn beta iota in Ex. rewrite E in Ex. discriminate.
Qed.

Theorem truncated_scan o g p q src n : gif_ok o g -> ser_gif g [] = p ++ q -> q <> [] ->
  delivers src p -> scannable o -> (length (gif_images g) < n)%nat ->
  read_info L src o = Err (DIo UnexpectedEof) \/
  exists d d' fs missing, read_info L src o = Ok d /\ scan_all L n d = (d', fs, Err (DIo UnexpectedEof)) /\
    map meta_seen (gif_images g) = fs ++ missing.
Proof.
  intros Hg Es Hq D Ho Hn. pose proof (tail_bytes o g p q Hg Es) as Hb. pose proof (delivers_app src p q D Hb Hq) as Df. rewrite <- Es in Df.
  destruct (file_scan L S umax Humax o g [] _ n Hg Df Ho Hn) as (df & df' & E & R & T).
  destruct (read_info_returns L safe umax Humax src o (proj1 D)) as [Hr Hd].
  destruct (read_info L src o) as [d|e| |] eqn:Ei; try destruct Hr.
  - right. destruct (Hd d eq_refl) as [Hgd Hdo]. destruct (scan_all L n d) as [[d' fs] x] eqn:Er.
    pose proof (read_info_ext L [RChunk q] src o _ Ei (final_ok d)) as Ex. cbn beta iota in Ex. rewrite E in Ex. injection Ex as ->.
    pose proof (scan_all_returns L umax safe Humax n d Hgd) as Hx'. rewrite Er in Hx'. cbn [snd] in Hx'.
    assert (Hcase : x = Err (DIo UnexpectedEof) \/ final x).
    { destruct x as [b|e| |]; try destruct Hx'; [right; apply final_ok|]. destruct e; try (right; split; discriminate).
      destruct k; first [left; reflexivity|right; split; discriminate]. }
    destruct Hcase as [->|Hf].
    + destruct (scan_all_prefix L [RChunk q] n _ _ _ _ Er) as (d2 & fs2 & x2 & E2). rewrite R in E2. injection E2 as _ Ef _.
      exists d, d', fs, fs2. auto.
    + exfalso. pose proof (scan_all_ext L [RChunk q] n _ _ _ _ Er Hf) as E2. rewrite R in E2. injection E2 as -> _ _.
      rewrite dext_rest in T. cbn [map ev_bytes concat] in T. rewrite app_nil_r in T. exact (app_tail_neq _ _ Hq T).
  - left. assert (Hcase : e = DIo UnexpectedEof \/ @final (dcd L) (Err e)).
    { destruct e; try (right; split; discriminate). destruct k; first [left; reflexivity|right; split; discriminate]. }
    destruct Hcase as [->|Hf]; [reflexivity|]. exfalso.
    pose proof (read_info_ext L [RChunk q] src o _ Ei Hf) as Ex. cbn beta iota in Ex. rewrite E in Ex. discriminate.
Qed.
End TR.
