(** Every frame costs at least 13 bytes of input: an account of the bytes read. *)
From Verif Require Import Base Common Lzw Encoder Stream StreamInv Steps Converter Reader ReaderInv ConvInv DecoderSafe DecInv DecProps DocAll ExtSrc SpecCount Programs.
Open Scope N_scope.

Section Account.
Variable L : lzw_codec.
Hypothesis safe : lzw_safe L.
Notation sd := (sd L).

(** Bytes that a decoder in this state has read, without 13 for each frame announced so far (at least). *)
Definition spent (s : sd) : nat :=
  match sd_state L s with
  | Magic => length (sd_ibuf L s)
  | ScreenDescriptor => 6 + length (sd_ibuf L s)
  | BlockStart c => if (c =? 0x3B)%N then 13 else 14
  | ImageBlockStart => 14 + length (sd_ibuf L s)
  | LocalPalette _ => 23
  | LzwInit _ => 24
  | DecodeSubBlock _ | CopySubBlock _ | FrameDecoded => 12
  | _ => 13
  end%nat.
Definition is_frame (d : decoded) : nat := match d with DFrameMetadata _ => 1 | _ => 0 end%nat.

Lemma nst_spent s buf ob s' ob' n d : sd_wf L s -> nst L s buf ob s' ob' (Ok (n, d)) ->
  (spent s' + 13 * is_frame d <= spent s + n)%nat.
Proof.
  intros (Hi & _) H. inversion H; subst; unfold spent, hn, after_screen, after_image in *; clear H.
  all: repeat match goal with E : sd_state L _ = _ |- _ => rewrite E in *; clear E end.
  all: change (44 =? 59)%N with false; cbn zeta; sdcbn; try change (59 =? 59)%N with true; cbn iota.
  all: try (sdcbn; cbn [need is_frame length] in *; rewrite ?app_length in *; lia).
  all: try (sdcbn; repeat match goal with |- context [if ?c then _ else _] => destruct c end; sdcbn; cbn [need is_frame length] in *; lia).
  destruct (sd_state L s); rewrite ?app_length; cbn [is_frame]; lia.
Qed.

Notation rd := (rd L).
Notation dcd := (dcd L).
Definition account (r : rd) : nat := (spent (rd_dec L r) + length (rd_rest L r))%nat.

Lemma rest_length n buf src s s' eof eof' : (n <= length buf)%nat ->
  length (rd_rest L (mk_rd L buf src s eof)) = (n + length (rd_rest L (mk_rd L (skipn n buf) src s' eof')))%nat.
Proof. intros H. unfold rd_rest. cbn [rd_buf rd_src]. rewrite !app_length, skipn_length. lia. Qed.

Lemma dnext_account r ob r' ob' x : dnext L r ob r' ob' x -> rd_wf L r ->
  match x with
  | Ok (Some d) => (account r' + 13 * is_frame d <= account r)%nat
  | Ok None => (account r' <= account r)%nat
  | _ => True
  end.
Proof.
  induction 1 as [buf src s ob|k src s ob|s ob|src s ob|bs src s ob r' ob' x Hb Hn IH
    |buf src s ob s1 ob1 n r' ob' x Hb He Hn IH|buf src s ob s1 ob1 n Hb He
    |buf src s ob s1 ob1 n d Hb He Hd1 Hd2|pr buf src s ob s1 ob1 e Hb He]; intros Hwf; try exact I.
  - apply le_n.
  - destruct Hwf as [H1 H2]. cbn in H1, H2. destruct (H2 eq_refl) as [H3 H4]. apply IH.
    split; [exact H1|]. intros _. cbn. split; [|exact H4]. intros E. destruct (H3 E) as [t Ht]. discriminate.
  - destruct Hwf as [H1 H2]. cbn in H1, H2. destruct (H2 eq_refl) as [H3 H4].
    pose proof (next_state_good L safe s buf ob H1 H3 Hb) as Hg. rewrite He in Hg.
    destruct Hg as (_ & _ & Hg1 & Hg2 & Hg3 & Hg4 & _).
    apply (next_state_nst L safe) in He; [|assumption..]. apply nst_spent in He; [|exact H1]. cbn [is_frame] in He.
    assert (Ha : (account (mk_rd L (skipn n buf) src s1 false) <= account (mk_rd L buf src s false))%nat).
    { unfold account. rewrite (rest_length n buf src s s1 false false Hg1). cbn [rd_dec]. lia. }
    assert (Hw : rd_wf L (mk_rd L (skipn n buf) src s1 false)).
    { split; [exact Hg2|]. intros _. cbn. split; [exact Hg3|]. intros E. destruct (Hg4 E); [congruence|discriminate]. }
    specialize (IH Hw). destruct x as [[d|]|e| | ]; try exact I; lia.
  - destruct Hwf as [H1 H2]. cbn in H1, H2. destruct (H2 eq_refl) as [H3 H4].
    pose proof (next_state_good L safe s buf ob H1 H3 Hb) as Hg. rewrite He in Hg. destruct Hg as (_ & _ & Hg1 & _).
    apply (next_state_nst L safe) in He; [|assumption..]. apply nst_spent in He; [|exact H1]. cbn [is_frame] in He.
    unfold account. rewrite (rest_length n buf src s s1 false true Hg1). cbn [rd_dec]. lia.
  - destruct Hwf as [H1 H2]. cbn in H1, H2. destruct (H2 eq_refl) as [H3 H4].
    pose proof (next_state_good L safe s buf ob H1 H3 Hb) as Hg. rewrite He in Hg. destruct Hg as (_ & _ & Hg1 & _).
    apply (next_state_nst L safe) in He; [|assumption..]. apply nst_spent in He; [|exact H1].
    unfold account. rewrite (rest_length n buf src s s1 false false Hg1). cbn [rd_dec]. lia.
Qed.

Lemma decode_next_account r ob r' ob' x : rd_good L r -> decode_next L r ob = (r', ob', x) ->
  match x with
  | Ok (Some d) => (account r' + 13 * is_frame d <= account r)%nat
  | Ok None => (account r' <= account r)%nat
  | _ => True
  end.
Proof. intros (Hw & _) H. apply (dnext_account _ _ _ _ _ (decode_next_dnext L safe _ _ _ _ _ Hw H) Hw). Qed.
End Account.

(** ** The pixel converter moves its input only through the callback *)
Section Cb.
Variable umax : N.
Variable St : Type.
Variable cb : St -> obuf -> St * obuf * dres nat.
Variable Inv : St -> Prop.
Hypothesis cb_ok : forall x s x' ob' r, Inv x -> cb x (OSlice s) = (x', ob', r) ->
  Inv x' /\ (exists s', ob' = OSlice s' /\ length s' = length s) /\
  match r with Ok n => (n <= length s)%nat | Err _ => True | Panic | Hang => False end.
Variable m : St -> nat.
Hypothesis cb_m : forall x s x' ob' n, Inv x -> cb x (OSlice s) = (x', ob', Ok n) -> (m x' <= m x)%nat.

Lemma fill_m f : forall fuel x c done buf x' c' b' y, Inv x ->
  fill_loop St cb fuel x c f done buf = (x', c', b', Ok y) -> (m x' <= m x)%nat.
Proof.
  induction fuel as [|fuel IH]; intros x c done buf x' c' b' y Hx H; [discriminate H|].
  cbn [fill_loop] in H. destruct (cv_color c) eqn:Ec.
  - destruct (length buf / 4 =? 0)%nat; [discriminate H|]. cbn zeta in H.
    match type of H with context [cb x (OSlice ?s)] => destruct (cb x (OSlice s)) as [[x1 ob] r] eqn:Ecb end.
    destruct r as [n|e| | ]; try discriminate H.
    pose proof (cb_m _ _ _ _ _ Hx Ecb) as Hm. pose proof (cb_ok _ _ _ _ _ Hx Ecb) as (Hx1 & _).
    destruct n as [|n]; [now injection H as <- <- <- <-|].
    destruct (length buf <? Datatypes.S n * 4)%nat; [discriminate H|].
    match type of H with (if is_nil ?b then _ else _) = _ => destruct (is_nil b) end; [now injection H as <- <- <- <-|].
    apply IH in H; [lia|exact Hx1].
  - destruct (cb x (OSlice buf)) as [[x1 ob] r] eqn:Ecb.
    destruct r as [n|e| | ]; try discriminate H.
    pose proof (cb_m _ _ _ _ _ Hx Ecb) as Hm. pose proof (cb_ok _ _ _ _ _ Hx Ecb) as (Hx1 & _).
    destruct n as [|n]; [now injection H as <- <- <- <-|].
    destruct (length (obuf_bytes ob) <? Datatypes.S n)%nat; [discriminate H|]. cbn zeta in H.
    destruct (is_nil _); [now injection H as <- <- <- <-|].
    apply IH in H; [lia|exact Hx1].
Qed.

Lemma rows_m f : forall rows x c buf x' c' b' y, Inv x ->
  read_rows umax St cb rows x c f buf = (x', c', b', Ok y) -> (m x' <= m x)%nat.
Proof.
  induction rows as [|row rows IH]; intros x c buf x' c' b' y Hx H; [now injection H as <- <- <-|].
  cbn [read_rows] in H. cbn zeta in H. destruct (umax <? _); [discriminate H|]. destruct (_ && _); [|discriminate H].
  match type of H with context [conv_fill_buffer St cb x c f ?b] =>
    destruct (conv_fill_buffer St cb x c f b) as [[[x1 c1] line] z] eqn:Ef end.
  pose proof Ef as Ef'. apply (conv_fill_buffer_ok St cb Inv cb_ok) in Ef'; [|exact Hx]. destruct Ef' as (Hx1 & _).
  destruct z as [[|]|e| | ]; try discriminate H.
  apply fill_m in Ef; [|exact Hx]. apply IH in H; [lia|exact Hx1].
Qed.

Lemma into_m x c f buf x' c' b' y : Inv x ->
  conv_read_into_buffer umax St cb x c f buf = (x', c', b', Ok y) -> (m x' <= m x)%nat.
Proof.
  intros Hx H. unfold conv_read_into_buffer in H. destruct (f_interlaced f); [now apply rows_m in H|].
  destruct (buffer_size umax c f) as [n|]; [|discriminate H]. destruct (n <=? len buf); [|discriminate H]. cbn zeta in H.
  match type of H with context [conv_fill_buffer St cb x c f ?b] =>
    destruct (conv_fill_buffer St cb x c f b) as [[[x1 c1] line] z] eqn:Ef end.
  destruct z as [[|]|e| | ]; try discriminate H. injection H as <- <- <- <-. now apply fill_m in Ef.
Qed.

Lemma frame_m x c f x' c' f' y : Inv x ->
  conv_read_frame umax St cb x c f = (x', c', f', Ok y) -> (m x' <= m x)%nat.
Proof.
  intros Hx H. unfold conv_read_frame in H. destruct (check_buffer_size umax c f) as [n|e| | ]; try discriminate H.
  cbn zeta in H. destruct (umax / 2 <? n); [discriminate H|].
  match type of H with context [conv_read_into_buffer umax St cb x c ?g ?b] =>
    destruct (conv_read_into_buffer umax St cb x c g b) as [[[x1 c1] b1] z] eqn:Ef end.
  destruct z as [u|e| | ]; try discriminate H. injection H as <- <- <- <-. now apply into_m in Ef.
Qed.
End Cb.

(** ** The decoder *)
Section Dec.
Variable L : lzw_codec.
Hypothesis safe : lzw_safe L.
Variable umax : N.
Hypothesis Humax : 2 ^ 32 - 1 <= umax.
Notation rd := (rd L).
Notation dcd := (dcd L).
Notation acct d := (account L (dc_rd L d)).

Lemma init_account fuel : forall d d', rd_good L (dc_rd L d) -> init_loop L fuel d = Ok d' -> (acct d' <= acct d)%nat.
Proof.
  induction fuel as [|fuel IH]; intros d d' Hr H; [discriminate H|]. cbn [init_loop] in H.
  destruct (decode_next L (dc_rd L d) ONone) as [[r ob] x] eqn:E.
  pose proof (decode_next_account L safe _ _ _ _ _ Hr E) as Ha.
  apply decode_next_all in E; [|exact safe|exact Hr]. destruct E as (Hr' & _).
  destruct x as [[e|]|e| | ]; try discriminate H.
  assert (Hgo : forall d1, dc_rd L d1 = r -> init_loop L fuel d1 = Ok d' -> (acct d' <= acct d)%nat).
  { intros d1 E1 H1. apply IH in H1; [|rewrite E1; exact Hr']. rewrite E1 in H1. lia. }
  destruct e; try (eapply Hgo; [|exact H]; reflexivity).
  injection H as <-. unfold fix_bg. cbn [dc_conv set_rd dc_bg].
  destruct (cv_gpal (dc_conv L d)); [destruct (_ <=? _)|]; cbn [dc_rd set_bg set_rd]; lia.
Qed.

Lemma info_account fuel : forall d d' x, rd_good L (dc_rd L d) -> next_frame_info_loop L fuel d = (d', Ok x) ->
  if x then (acct d' + 13 <= acct d /\ 12 <= acct d')%nat else (acct d' <= acct d)%nat.
Proof.
  induction fuel as [|fuel IH]; intros d d' x Hr H; [discriminate H|]. cbn [next_frame_info_loop] in H.
  destruct (decode_next L (dc_rd L d) ONone) as [[r ob] y] eqn:E.
  pose proof (decode_next_account L safe _ _ _ _ _ Hr E) as Ha.
  apply decode_next_all in E; [|exact safe|exact Hr]. destruct E as (Hr' & _ & _ & Hm).
  destruct y as [[e|]|e| | ]; try discriminate H.
  2:{ injection H as <- <-. exact Ha. }
  assert (Hgo : next_frame_info_loop L fuel (set_rd L d r) = (d', Ok x) ->
    if x then (acct d' + 13 <= acct d /\ 12 <= acct d')%nat else (acct d' <= acct d)%nat).
  { intros H1. apply IH in H1; [|exact Hr']. cbn [dc_rd set_rd] in H1. destruct x; lia. }
  destruct e; try (apply (Hgo H)).
  destruct (Hm _ eq_refl) as (Hc & k & Hk). destruct (sd_current L (rd_dec L r)) as [f|]; [|congruence].
  destruct (frame_take f) as [taken leftover].
  set (r' := mk_rd L (rd_buf L r) (rd_src L r) (set_current L (rd_dec L r) (Some leftover) 0) (rd_eof L r)) in *.
  assert (Es : account L r' = account L r).
  { unfold account, rd_rest, r', spent. cbn [rd_dec rd_buf rd_src]. sdcbn. reflexivity. }
  assert (H12 : (12 <= account L r)%nat).
  { unfold account, spent. destruct Hk as [[-> _]|(m & -> & _)]; lia. }
  assert (Hd : dc_rd L (set_cur L (set_rd L (set_rd L d r) r') taken t) = r') by reflexivity.
  cbn [is_frame] in Ha.
  destruct (f_palette taken); [|destruct (cv_gpal (dc_conv L (set_cur L (set_rd L (set_rd L d r) r') taken t)))]; try discriminate H; injection H as E1 E2; subst x; rewrite <- E1, Hd, Es; lia.
Qed.

Lemma copy_account fuel : forall r v r' v' y, rd_good L r -> copy_lzw_loop L fuel r v = (r', v', Ok y) ->
  (account L r' <= account L r)%nat.
Proof.
  induction fuel as [|fuel IH]; intros r v r' v' y Hr H; [discriminate H|]. cbn [copy_lzw_loop] in H.
  destruct (decode_next L r (OVec v)) as [[r1 ob] x] eqn:E.
  pose proof (decode_next_account L safe _ _ _ _ _ Hr E) as Ha.
  apply decode_next_all in E; [|exact safe|exact Hr]. destruct E as (Hr' & _).
  destruct x as [[e|]|e| | ]; try discriminate H. destruct e; try discriminate H.
  - apply IH in H; [lia|exact Hr'].
  - injection H as <- <- <-. lia.
Qed.

Lemma bytes_account (o : options) r s r' ob n : rd_good L r /\ sd_opts L (rd_dec L r) = o ->
  decode_next_bytes L r (OSlice s) = (r', ob, Ok n) -> (account L r' <= account L r)%nat.
Proof.
  intros [Hr _] H. unfold decode_next_bytes in H. destruct (decode_next L r (OSlice s)) as [[r1 ob1] x] eqn:E.
  pose proof (decode_next_account L safe _ _ _ _ _ Hr E) as Ha.
  destruct x as [[e|]|e| | ]; try discriminate H. destruct e; try discriminate H; injection H as <- <- <-; lia.
Qed.

Lemma frame_account d d' x : dcd_good L d -> read_next_frame L umax d = (d', Ok x) ->
  if x then (acct d' + 13 <= acct d /\ 25 <= acct d)%nat else (acct d' <= acct d)%nat.
Proof.
  intros Hd H. unfold read_next_frame in H. destruct (next_frame_info L d) as [d1 y] eqn:E.
  pose proof (next_frame_info_returns L safe umax Humax d d1 y Hd E) as (_ & Hd1 & _).
  destruct y as [[|]|e| | ]; try discriminate H.
  2:{ injection H as <- <-. apply (info_account _ _ _ _ (proj1 Hd) E). }
  apply (info_account _ _ _ _ (proj1 Hd)) in E. cbn iota in E. destruct (dc_ty L d1) as [|m].
  - destruct (conv_read_frame umax (Reader.rd L) (decode_next_bytes L) (dc_rd L d1) (dc_conv L d1) (dc_cur L d1))
      as [[[r c] f] z] eqn:Ec.
    destruct z as [u|e| | ]; try discriminate H. injection H as <- <-.
    apply (frame_m umax _ _ (fun r => rd_good L r /\ sd_opts L (rd_dec L r) = dopts L d1)
      (decode_next_bytes_ok L safe umax Humax (dopts L d1)) (account L) (bytes_account (dopts L d1))) in Ec.
    2:{ split; [apply Hd1|reflexivity]. }
    cbn [dc_rd set_cur set_conv set_rd]. lia.
  - unfold copy_lzw_into_buffer in H.
    destruct (copy_lzw_loop L (ev_fuel L (dc_rd L d1)) (dc_rd L d1) ([] ++ [m])) as [[r v] z] eqn:Ec.
    destruct z as [u|e| | ]; try discriminate H. injection H as <- <-.
    apply copy_account in Ec; [|apply Hd1]. cbn [dc_rd set_cur set_rd]. lia.
Qed.

Lemma dop_account d op d' y : dcd_good L d -> run_dop L umax d op = (d', y) -> went_well y ->
  if is_new_frame y then (acct d' + 13 <= acct d /\ 25 <= acct d)%nat else (acct d' <= acct d)%nat.
Proof.
  intros Hd H Hy. destruct op as [ | |buf|buf]; cbn [run_dop] in H.
  - destruct (next_frame_info L d) as [d1 x] eqn:E. injection H as <- <-. destruct Hy as [b ->].
    apply (info_account _ _ _ _ (proj1 Hd)) in E. cbn [is_new_frame]. destruct b; lia.
  - destruct (read_next_frame L umax d) as [d1 x] eqn:E. injection H as <- <-. destruct Hy as [b ->].
    now apply (frame_account _ _ _ Hd) in E.
  - destruct (read_into_buffer L umax d buf) as [[d1 b] x] eqn:E. injection H as <- <-. cbn in Hy. subst x. cbn [is_new_frame].
    unfold read_into_buffer in E.
    match type of E with context [conv_read_into_buffer ?a ?b ?c ?d ?e ?f ?g] =>
      destruct (conv_read_into_buffer a b c d e f g) as [[[r c1] b1] z] eqn:Ec end.
    injection E as <- <- ->.
    apply (into_m umax _ _ (fun r => rd_good L r /\ sd_opts L (rd_dec L r) = dopts L d)
      (decode_next_bytes_ok L safe umax Humax (dopts L d)) (account L) (bytes_account (dopts L d))) in Ec; [exact Ec|].
    split; [apply Hd|reflexivity].
  - destruct (fill_buffer L d buf) as [[d1 b] x] eqn:E. injection H as <- <-. destruct Hy as [v ->]. cbn [is_new_frame].
    unfold fill_buffer in E.
    match type of E with context [conv_fill_buffer ?b ?c ?d ?e ?f ?g] =>
      destruct (conv_fill_buffer b c d e f g) as [[[r c1] b1] z] eqn:Ec end.
    injection E as <- <- ->.
    apply (fill_m _ _ (fun r => rd_good L r /\ sd_opts L (rd_dec L r) = dopts L d)
      (decode_next_bytes_ok L safe umax Humax (dopts L d)) (account L) (bytes_account (dopts L d))) in Ec; [exact Ec|].
    split; [apply Hd|reflexivity].
Qed.

Lemma dops_account os : forall d d' ys, dcd_good L d -> alloc_ok L umax d -> Forall (op_ok umax) os ->
  run_dops L umax d os = (d', ys) -> Forall went_well ys ->
  (acct d' + 13 * new_frames ys <= acct d)%nat /\ frames_fit (new_frames ys) (acct d).
Proof.
  induction os as [|op os IH]; intros d d' ys Hd Ha Ho H Hy; cbn [run_dops] in H.
  { injection H as <- <-. split; [cbn; lia|now left]. }
  destruct (run_dop L umax d op) as [d1 y] eqn:E. destruct (run_dops L umax d1 os) as [d2 ys1] eqn:E1. injection H as <- <-.
  apply Forall_cons_iff in Ho as [Ho1 Ho]. apply Forall_cons_iff in Hy as [Hy1 Hy].
  pose proof (run_dop_returns L safe umax Humax _ _ _ _ Hd Ha Ho1 E) as (_ & Hd1 & Hk).
  apply (dop_account _ _ _ _ Hd) in E; [|exact Hy1].
  destruct (IH _ _ _ Hd1 (alloc_ok_kept L umax _ _ Hk Ha) Ho E1 Hy) as [I1 I2]. unfold frames_fit, new_frames in *. cbn [filter].
  destruct (is_new_frame y); cbn [length]; lia.
Qed.

Lemma read_all_account n : forall d d' fs x, dcd_good L d -> alloc_ok L umax d -> read_all L umax n d = (d', fs, x) ->
  frames_fit (length fs) (acct d) /\ ((acct d < 13 * n)%nat -> x <> Ok true).
Proof.
  induction n as [|n IH]; intros d d' fs x Hd Ha H; cbn [read_all] in H.
  { injection H as <- <- <-. split; [now left|lia]. }
  destruct (read_next_frame L umax d) as [d1 y] eqn:E.
  pose proof (read_next_frame_returns L safe umax Humax _ _ _ Hd Ha E) as (_ & Hd1 & Hk & _).
  destruct y as [[|]|e| | ]; try (injection H as <- <- <-; split; [now left|discriminate]).
  apply (frame_account _ _ _ Hd) in E; cbn iota in E.
  destruct (read_all L umax n d1) as [[d2 fs1] z] eqn:E1. injection H as <- <- <-.
  destruct (IH _ _ _ _ Hd1 (alloc_ok_kept L umax _ _ Hk Ha) E1) as [I1 I2]. unfold frames_fit in *. cbn [length].
  split; [lia|]. intros Hn. apply I2. lia.
Qed.
Lemma scan_all_account n : forall d d' fs x, dcd_good L d -> scan_all L n d = (d', fs, x) ->
  frames_fit (length fs) (acct d) /\ ((acct d < 13 * n)%nat -> x <> Ok true).
Proof.
  induction n as [|n IH]; intros d d' fs x Hd H; cbn [scan_all] in H.
  { injection H as <- <- <-. split; [now left|lia]. }
  destruct (next_frame_info L d) as [d1 y] eqn:E.
  pose proof (next_frame_info_returns L safe umax Humax _ _ _ Hd E) as (_ & Hd1 & Hk & _).
  destruct y as [[|]|e| | ]; try (injection H as <- <- <-; split; [now left|discriminate]).
  apply (info_account _ _ _ _ (proj1 Hd)) in E. cbn iota in E.
  destruct (scan_all L n d1) as [[d2 fs1] z] eqn:E1. injection H as <- <- <-.
  destruct (IH _ _ _ _ Hd1 E1) as [I1 I2]. unfold frames_fit in *. cbn [length].
  split; [lia|]. intros Hn. apply I2. lia.
Qed.
Lemma iter_ended_frames n d : item_frames (snd (iter_all L umax n (mk_iter L d true))) = O.
Proof. rewrite iter_ended. cbn [snd]. unfold item_frames. induction n; [reflexivity|]. assumption. Qed.

Lemma iter_next_account d it x : dcd_good L d -> alloc_ok L umax d -> iter_next L umax (mk_iter L d false) = (it, x) ->
  it_ended L it = true /\ is_item_frame x = false \/
  it_ended L it = false /\ dcd_good L (it_dec L it) /\ alloc_ok L umax (it_dec L it) /\
  (acct (it_dec L it) + 13 <= acct d /\ 25 <= acct d)%nat.
Proof.
  intros Hd Ha H. pose proof (iter_next_returns L safe umax Humax (mk_iter L d false) it x Hd Ha H) as (Hx & Hd1 & Hk).
  unfold iter_next in H. cbn [it_ended it_dec] in *. destruct (read_next_frame L umax d) as [d1 y] eqn:E.
  destruct y as [[|]|e| | ]; try (injection H as <- <-; easy); try (injection H as <- <-; left; split; reflexivity).
  apply (frame_account _ _ _ Hd) in E; cbn iota in E. right.
  assert (Hit : it_ended L it = false /\ acct (it_dec L it) = acct d1).
  { destruct (is_nil _); [injection H as <- <-; split; reflexivity|].
    destruct (frame_take (dc_cur L d1)) as [a b]. injection H as <- <-. split; reflexivity. }
  destruct Hit as [-> ->]. split; [reflexivity|]. split; [exact Hd1|]. split; [exact (alloc_ok_kept L umax _ _ Hk Ha)|exact E].
Qed.

Lemma iter_all_account n : forall d it xs, dcd_good L d -> alloc_ok L umax d ->
  iter_all L umax n (mk_iter L d false) = (it, xs) -> frames_fit (item_frames xs) (acct d).
Proof.
  induction n as [|n IH]; intros d it xs Hd Ha H; cbn [iter_all] in H; [injection H as <- <-; now left|].
  destruct (iter_next L umax (mk_iter L d false)) as [it1 x] eqn:E. destruct (iter_all L umax n it1) as [it2 xs1] eqn:E1.
  injection H as <- <-. destruct it1 as [d1 b1].
  destruct (iter_next_account _ _ _ Hd Ha E) as [[Eb Ex]|(Eb & Hd1 & Ha1 & Hac)]; cbn [it_ended it_dec] in *; subst b1.
  - pose proof (iter_ended_frames n d1) as Hi. rewrite E1 in Hi. cbn [snd] in Hi. unfold item_frames in *. cbn [filter].
    rewrite Ex, Hi. now left.
  - specialize (IH _ _ _ Hd1 Ha1 E1). unfold frames_fit, item_frames in *. cbn [filter]. destruct (is_item_frame x); cbn [length]; lia.
Qed.

(** ** The loops of the example programs: the bound on their turns does not matter *)
Lemma explode_bound dbg create sw sh pal n : forall n2 k d, dcd_good L d -> alloc_ok L umax d ->
  (acct d < 13 * n)%nat -> (acct d < 13 * n2)%nat ->
  explode_loop L umax dbg create n sw sh pal k d = explode_loop L umax dbg create n2 sw sh pal k d.
Proof.
  induction n as [|n IH]; intros n2 k d Hd Ha H1 H2; [lia|]. destruct n2 as [|n2]; [lia|]. cbn [explode_loop].
  destruct (read_next_frame L umax d) as [d1 y] eqn:E.
  pose proof (read_next_frame_returns L safe umax Humax _ _ _ Hd Ha E) as (_ & Hd1 & Hk & _).
  destruct y as [[|]|e| | ]; try reflexivity. apply (frame_account _ _ _ Hd) in E; cbn iota in E.
  destruct (create k) as [w|]; [|reflexivity]. destruct (explode_file L dbg w sw sh pal (dc_cur L d1)) as [w1 r].
  destruct r as [u|e| | ]; try reflexivity.
  rewrite (IH n2 (Datatypes.S k) d1 Hd1 (alloc_ok_kept L umax _ _ Hk Ha)); [reflexivity|lia|lia].
Qed.
Lemma take_bound n : forall n2 d, dcd_good L d -> alloc_ok L umax d ->
  (acct d < 13 * n)%nat -> (acct d < 13 * n2)%nat ->
  take_frames L umax n (mk_iter L d false) = take_frames L umax n2 (mk_iter L d false).
Proof.
  induction n as [|n IH]; intros n2 d Hd Ha H1 H2; [lia|]. destruct n2 as [|n2]; [lia|]. cbn [take_frames].
  destruct (iter_next L umax (mk_iter L d false)) as [[d1 b1] x] eqn:E. destruct x; try reflexivity.
  destruct (iter_next_account _ _ _ Hd Ha E) as [[Eb Ex]|(Eb & Hd1 & Ha1 & Hac)]; [discriminate Ex|].
  cbn [it_ended it_dec] in *. subst b1. rewrite (IH n2 d1 Hd1 Ha1); [reflexivity|lia|lia].
Qed.

(** ** From the start of the file *)
Lemma read_info_account src o d : src_ok src -> read_info L src o = Ok d ->
  dcd_good L d /\ dopts L d = o /\ (acct d <= bytes_of src)%nat.
Proof.
  intros Hs H. destruct (read_info_returns L safe umax Humax src o Hs) as [_ Hg]. destruct (Hg d H) as [H1 H2].
  split; [exact H1|]. split; [exact H2|]. unfold read_info in H.
  apply init_account in H; [|apply (with_no_init_good L src o Hs)]. exact H.
Qed.
Lemma fit_le k a b : (a <= b)%nat -> frames_fit k a -> frames_fit k b.
Proof. unfold frames_fit. lia. Qed.

Theorem calls_fit src o d os d' ys : src_ok src -> limit_ok umax (o_limit o) -> Forall (op_ok umax) os ->
  read_info L src o = Ok d -> run_dops L umax d os = (d', ys) -> Forall went_well ys ->
  frames_fit (new_frames ys) (bytes_of src).
Proof.
  intros Hs Hl Ho Hi H Hy. destruct (read_info_account _ _ _ Hs Hi) as (Hd & Hopt & Hac).
  apply (fit_le _ _ _ Hac). eapply dops_account; [exact Hd|unfold alloc_ok; now rewrite Hopt|exact Ho|exact H|exact Hy].
Qed.
Theorem loops_end src o d n : src_ok src -> limit_ok umax (o_limit o) -> read_info L src o = Ok d ->
  (forall d' fs x, read_all L umax n d = (d', fs, x) ->
     frames_fit (length fs) (bytes_of src) /\ ((bytes_of src < 13 * n)%nat -> x = Ok false \/ exists e, x = Err e)) /\
  (forall d' fs x, scan_all L n d = (d', fs, x) ->
     frames_fit (length fs) (bytes_of src) /\ ((bytes_of src < 13 * n)%nat -> x = Ok false \/ exists e, x = Err e)) /\
  (forall it xs, iter_all L umax n (mk_iter L d false) = (it, xs) -> frames_fit (item_frames xs) (bytes_of src)).
Proof.
  intros Hs Hl Hi. destruct (read_info_account _ _ _ Hs Hi) as (Hd & Hopt & Hac).
  assert (Ha : alloc_ok L umax d) by (unfold alloc_ok; now rewrite Hopt).
  assert (Hx : forall x : dres bool, returns x -> x <> Ok true -> x = Ok false \/ exists e, x = Err e).
  { intros [[|]|e| | ]; cbn; intuition eauto; congruence. }
  split; [|split].
  - intros d' fs x H. pose proof (read_all_returns L umax safe Humax n d Hd Ha) as Hr. rewrite H in Hr.
    destruct (read_all_account _ _ _ _ _ Hd Ha H) as [H1 H2]. split; [exact (fit_le _ _ _ Hac H1)|].
    intros Hn. apply Hx; [exact Hr|]. apply H2. lia.
  - intros d' fs x H. pose proof (scan_all_returns L umax safe Humax n d Hd) as Hr. rewrite H in Hr.
    destruct (scan_all_account _ _ _ _ _ Hd H) as [H1 H2]. split; [exact (fit_le _ _ _ Hac H1)|].
    intros Hn. apply Hx; [exact Hr|]. apply H2. lia.
  - intros it xs H. apply (fit_le _ _ _ Hac). eapply iter_all_account; [exact Hd|exact Ha|exact H].
Qed.
Theorem program_loops_end src n n2 : src_ok src ->
  (bytes_of src < 13 * n)%nat -> (bytes_of src < 13 * n2)%nat ->
  (forall dbg create, explode L umax dbg create n src = explode L umax dbg create n2 src) /\
  (forall order w, parallel L umax order n src w = parallel L umax order n2 src w).
Proof.
  intros Hs H1 H2.
  assert (Hl : limit_ok umax (Some 50000000)) by (right; apply N.div_le_lower_bound; [lia|]; lia).
  split.
  - intros dbg create. unfold explode. destruct (read_info L src options_new) as [d|e| | ] eqn:Ei; try reflexivity.
    destruct (read_info_account _ _ _ Hs Ei) as (Hd & Hopt & Hac).
    apply explode_bound; [exact Hd|unfold alloc_ok; rewrite Hopt; exact Hl|lia|lia].
  - intros order w. unfold parallel. destruct (read_info L src parallel_opts) as [d|e| | ] eqn:Ei; try reflexivity.
    destruct (read_info_account _ _ _ Hs Ei) as (Hd & Hopt & Hac).
    destruct (encoder_new w _ _ _) as [e1 r1]. destruct r1; try reflexivity. destruct (set_repeat e1 _) as [e2 r2].
    destruct r2; try reflexivity.
    rewrite (take_bound n n2 d Hd); [reflexivity|unfold alloc_ok; rewrite Hopt; exact Hl|lia|lia].
Qed.
End Dec.
