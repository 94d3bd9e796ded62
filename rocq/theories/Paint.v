(** The caller's slices are only written to (C83). *)
From Verif Require Import Base Common Lzw Encoder Stream Converter Reader StreamInv Steps StepsRev
  ReaderInv Interlace Ranges ConvInv DecoderSafe CanonReader DocAll FrameDec Pixels Collect Sizes Recolor SpecPaint.
Open Scope nat_scope.

(** ** Overlays *)
Lemma over_length ov buf : length ov = length buf -> length (over ov buf) = length buf.
Proof. intros H. unfold over. rewrite map_length, combine_length. lia. Qed.
Lemma over_cons o ov b buf : over (o :: ov) (b :: buf) = (match o with Some v => v | None => b end) :: over ov buf.
Proof. reflexivity. Qed.
Lemma over_app ov1 ov2 b1 b2 : length ov1 = length b1 -> over (ov1 ++ ov2) (b1 ++ b2) = over ov1 b1 ++ over ov2 b2.
Proof.
  revert b1. induction ov1 as [|o ov1 IH]; intros [|b b1] H; try discriminate H; [reflexivity|].
  cbn [app]. rewrite !over_cons. cbn [app]. f_equal. apply IH. now injection H.
Qed.
Lemma over_none buf : over (repeat None (length buf)) buf = buf.
Proof. induction buf as [|b buf IH]; [reflexivity|]. cbn [length repeat]. rewrite over_cons. now f_equal. Qed.
Lemma over_none_n n buf : length buf = n -> over (repeat None n) buf = buf.
Proof. intros <-. apply over_none. Qed.
Lemma over_some w buf : length w = length buf -> over (map Some w) buf = w.
Proof.
  revert buf. induction w as [|a w IH]; intros [|b buf] H; try discriminate H; [reflexivity|].
  cbn [map]. rewrite over_cons. f_equal. apply IH. now injection H.
Qed.
Lemma over_skipn n ov buf : over (skipn n ov) (skipn n buf) = skipn n (over ov buf).
Proof.
  revert ov buf. induction n as [|n IH]; intros ov buf; [reflexivity|]. destruct ov as [|o ov]; [reflexivity|].
  destruct buf as [|b buf]; [cbn [skipn]; unfold over; now rewrite !combine_nil|]. cbn [skipn]. rewrite over_cons. cbn [skipn]. apply IH.
Qed.
(** [ov1], then [ov2]. *)
Definition merge (ov1 ov2 : list (option N)) : list (option N) :=
  map (fun p => match snd p with Some v => Some v | None => fst p end) (combine ov1 ov2).
Lemma merge_length ov1 ov2 : length ov1 = length ov2 -> length (merge ov1 ov2) = length ov1.
Proof. intros H. unfold merge. rewrite map_length, combine_length. lia. Qed.
Lemma over_merge ov1 ov2 buf : length ov1 = length buf -> length ov2 = length buf -> over (merge ov1 ov2) buf = over ov2 (over ov1 buf).
Proof.
  revert ov2 buf. induction ov1 as [|o1 ov1 IH]; intros [|o2 ov2] [|b buf] H1 H2; try discriminate; [reflexivity|].
  change (merge (o1 :: ov1) (o2 :: ov2)) with ((match o2 with Some v => Some v | None => o1 end) :: merge ov1 ov2).
  rewrite !over_cons. f_equal; [destruct o2, o1; reflexivity|]. apply IH; [now injection H1|now injection H2].
Qed.
Lemma merge_nth ov1 ov2 k : length ov1 = length ov2 -> nth k (merge ov1 ov2) None = match nth k ov2 None with Some v => Some v | None => nth k ov1 None end.
Proof.
  revert ov2 k. induction ov1 as [|o1 ov1 IH]; intros [|o2 ov2] k H; try discriminate H; [destruct k; reflexivity|].
  destruct k as [|k]; [reflexivity|]. change (merge (o1 :: ov1) (o2 :: ov2)) with ((match o2 with Some v => Some v | None => o1 end) :: merge ov1 ov2).
  cbn [nth]. apply IH. now injection H.
Qed.
Lemma put_over w (sl : list N) : length w <= length sl -> w ++ skipn (length w) sl = over (map Some w ++ repeat None (length sl - length w)) sl.
Proof.
  intros H. rewrite <- (firstn_skipn (length w) sl) at 3. rewrite over_app by (rewrite map_length, firstn_length; lia).
  rewrite over_some by (rewrite firstn_length; lia). f_equal.
  replace (length sl - length w) with (length (skipn (length w) sl)) by (rewrite skipn_length; reflexivity). now rewrite over_none.
Qed.
Lemma set_some (w : list N) : set_bytes (map Some w).
Proof. induction w; constructor; [discriminate|assumption]. Qed.

(** The cells of [expand]. *)
Definition paint_cell (pal : list N) (t : option N) (i : N) : list (option N) :=
  if 3 * N.to_nat i + 3 <=? length pal then map Some (expand_cell pal t i []) else repeat None 4.
Lemma paint_cell_length pal t i : length (paint_cell pal t i) = 4.
Proof. unfold paint_cell, expand_cell. destruct (3 * N.to_nat i + 3 <=? length pal) eqn:E; reflexivity. Qed.
Lemma paint_expand pal t : forall px cells, length cells = length px * 4 ->
  expand pal t px cells = over (flat_map (paint_cell pal t) px) cells.
Proof.
  induction px as [|i px IH]; intros cells H; cbn [expand flat_map].
  - destruct cells; [reflexivity|discriminate H].
  - cbn [length] in H. rewrite <- (firstn_skipn 4 cells) at 3.
    rewrite over_app by (rewrite paint_cell_length, firstn_length; lia). f_equal; [|apply IH; rewrite skipn_length; lia].
    assert (H4 : length (firstn 4 cells) = 4) by (rewrite firstn_length; lia).
    unfold paint_cell, expand_cell. cbv zeta. destruct (3 * N.to_nat i + 3 <=? length pal) eqn:E.
    + rewrite over_some; [reflexivity|]. now rewrite H4.
    + rewrite <- H4 at 2. now rewrite over_none.
Qed.
Lemma paint_length pal t px : length (flat_map (paint_cell pal t) px) = length px * 4.
Proof. induction px as [|i px IH]; [reflexivity|]. cbn [flat_map length]. rewrite app_length, paint_cell_length, IH. lia. Qed.

(** ** The pixel converter *)
Section CB.
Variable umax : N.
Variable St : Type.
Variable cb : St -> obuf -> St * obuf * dres nat.
Hypothesis cb_same : forall x sl sl' x1 ob r, length sl = length sl' -> cb x (OSlice sl) = (x1, ob, r) ->
  exists w, length w <= length sl /\ ob = wput w sl /\ cb x (OSlice sl') = (x1, wput w sl', r) /\ match r with Ok n => length w = n | _ => True end.

Lemma fill_loop_paint f fuel : forall x c done1 done2 buf1 buf2, length buf1 = length buf2 ->
  exists x' c' r ov, length ov = length buf1 /\ fill_loop St cb fuel x c f done1 buf1 = (x', c', done1 ++ over ov buf1, r) /\
    fill_loop St cb fuel x c f done2 buf2 = (x', c', done2 ++ over ov buf2, r) /\ cv_color c' = cv_color c /\
    (r = Ok true -> cv_color c = CIndexed -> set_bytes ov).
Proof.
  induction fuel as [|fuel IH]; intros x c done1 done2 buf1 buf2 Hl; cbn [fill_loop].
  { exists x, c, Hang, (repeat None (length buf1)). rewrite repeat_length, over_none. split; [reflexivity|]. split; [reflexivity|].
    rewrite Hl, over_none. split; [reflexivity|]. split; [reflexivity|discriminate]. }
  assert (Hquit : forall (x1 : St) (c1 : conv) (r : dres bool), cv_color c1 = cv_color c -> r <> Ok true -> exists x' c' r' ov, length ov = length buf1 /\
    (x1, c1, done1 ++ buf1, r) = (x', c', done1 ++ over ov buf1, r') /\ (x1, c1, done2 ++ buf2, r) = (x', c', done2 ++ over ov buf2, r') /\
    cv_color c' = cv_color c /\ (r' = Ok true -> cv_color c = CIndexed -> set_bytes ov)).
  { intros x1 c1 r Hc Hr. exists x1, c1, r, (repeat None (length buf1)). rewrite repeat_length, over_none. split; [reflexivity|]. split; [reflexivity|].
    rewrite Hl, over_none. split; [reflexivity|]. split; [exact Hc|contradiction]. }
  destruct (cv_color c) eqn:Ec.
  - rewrite <- Hl. destruct (length buf1 / 4 =? 0); [apply Hquit; [exact Ec|discriminate]|].
    set (scratch := if length (cv_buffer c) <? length buf1 / 4 then _ else _). clearbody scratch.
    destruct (cb x (OSlice (firstn (length buf1 / 4) scratch))) as [[x1 ob] r]. cbv zeta. set (c1 := with_cbuf c _).
    assert (Hc1 : cv_color c1 = CRgba) by exact Ec. set (scratch1 := obuf_bytes ob ++ _). clearbody scratch1 c1.
    destruct r as [n|e| |]; try (apply Hquit; [exact Hc1|discriminate]). destruct n as [|n]; [apply Hquit; [exact Hc1|discriminate]|].
    destruct (Nat.ltb_spec (length buf1) (S n * 4)) as [H|Hn]; [apply Hquit; [exact Hc1|discriminate]|]. set (m := S n * 4) in *.
    set (px := firstn (S n) scratch1).
    assert (E : exists ov, length ov = m /\ forall buf, length buf = length buf1 -> expand (effective_palette c1 f) (f_transparent f) px (firstn m buf) = over ov (firstn m buf)).
    { exists (flat_map (paint_cell (effective_palette c1 f) (f_transparent f)) px ++ repeat None (m - length px * 4)).
      assert (Hp : length px <= S n) by (unfold px; rewrite firstn_length; lia). split; [rewrite app_length, paint_length, repeat_length; lia|].
      intros buf Hb. assert (Hf : length (firstn m buf) = m) by (rewrite firstn_length; lia).
      rewrite <- (firstn_skipn (length px * 4) (firstn m buf)).
      assert (Hf4 : length (firstn (length px * 4) (firstn m buf)) = length px * 4) by (rewrite firstn_length; lia).
      rewrite over_app by (rewrite paint_length, Hf4; reflexivity). rewrite <- paint_expand by exact Hf4.
      replace (m - length px * 4) with (length (skipn (length px * 4) (firstn m buf))) by (rewrite skipn_length; lia). rewrite over_none.
      rewrite <- (app_nil_r px) at 1. rewrite expand_app by (rewrite app_length, Hf4, skipn_length; lia). cbn [expand].
      rewrite firstn_app, Hf4, Nat.sub_diag, firstn_all2 by lia. cbn [firstn]. rewrite app_nil_r.
      rewrite skipn_app, Hf4, Nat.sub_diag, (skipn_all2 (firstn (length px * 4) _)) by lia. reflexivity. }
    destruct E as (ov & Ho & Hov). rewrite !Hov by congruence.
    assert (Hnil : is_nil (skipn m buf2) = is_nil (skipn m buf1)) by (rewrite !is_nil_length, !skipn_length, Hl; reflexivity).
    rewrite Hnil. destruct (is_nil (skipn m buf1)) eqn:En.
    + exists x1, c1, (Ok true), (ov ++ repeat None (length (skipn m buf1))).
      assert (Hq : forall buf, length buf = length buf1 -> over (ov ++ repeat None (length (skipn m buf1))) buf = over ov (firstn m buf) ++ skipn m buf).
      { intros buf Hb. rewrite <- (firstn_skipn m buf) at 1. rewrite over_app by (rewrite firstn_length; lia).
        replace (length (skipn m buf1)) with (length (skipn m buf)) by (rewrite !skipn_length; lia). now rewrite over_none. }
      rewrite !Hq by congruence. rewrite app_length, repeat_length, skipn_length. split; [lia|]. rewrite <- !app_assoc. split; [reflexivity|].
      split; [reflexivity|]. split; [exact Hc1|discriminate].
    + destruct (IH x1 c1 (done1 ++ over ov (firstn m buf1)) (done2 ++ over ov (firstn m buf2)) (skipn m buf1) (skipn m buf2)) as (x' & c' & r & ov' & I1 & I2 & I3 & I4 & _);
        [rewrite !skipn_length; lia|].
      exists x', c', r, (ov ++ ov'). rewrite skipn_length in I1. rewrite app_length. split; [lia|].
      assert (Hq : forall buf, length buf = length buf1 -> over (ov ++ ov') buf = over ov (firstn m buf) ++ over ov' (skipn m buf)).
      { intros buf Hb. rewrite <- (firstn_skipn m buf) at 1. now rewrite over_app by (rewrite firstn_length; lia). }
      rewrite !Hq, I2, I3 by congruence. rewrite <- !app_assoc. split; [reflexivity|]. split; [reflexivity|]. split; [congruence|discriminate].
  - destruct (cb x (OSlice buf1)) as [[x1 ob] r] eqn:E. destruct (cb_same _ _ buf2 _ _ _ Hl E) as (w & W1 & -> & W2 & W3). rewrite W2.
    unfold wput. cbn [obuf_bytes]. rewrite !put_over by lia. set (ov := map Some w ++ repeat None (length buf1 - length w)).
    replace (map Some w ++ repeat None (length buf2 - length w)) with ov by (unfold ov; now rewrite Hl).
    assert (Ho : length ov = length buf1) by (unfold ov; rewrite app_length, map_length, repeat_length; lia).
    assert (Hq : forall r' : dres bool, r' <> Ok true -> exists x' c' r'' ov', length ov' = length buf1 /\
      (x1, c, done1 ++ over ov buf1, r') = (x', c', done1 ++ over ov' buf1, r'') /\ (x1, c, done2 ++ over ov buf2, r') = (x', c', done2 ++ over ov' buf2, r'') /\
      cv_color c' = CIndexed /\ (r'' = Ok true -> CIndexed = CIndexed -> set_bytes ov')).
    { intros r' Hr. exists x1, c, r', ov. split; [exact Ho|]. split; [reflexivity|]. split; [reflexivity|]. split; [exact Ec|contradiction]. }
    destruct r as [n|e| |]; try (apply Hq; discriminate). destruct n as [|n]; [apply Hq; discriminate|].
    rewrite !over_length by congruence. rewrite <- Hl. destruct (Nat.ltb_spec (length buf1) (S n)) as [H|Hn]; [apply Hq; discriminate|]. set (m := S n) in *.
    assert (Hf : forall buf, length buf = length buf1 -> firstn m (over ov buf) = w).
    { intros buf Hb. unfold ov. rewrite <- Hb, <- put_over by lia. now apply firstn_put. }
    assert (Hs : forall buf, length buf = length buf1 -> skipn m (over ov buf) = skipn m buf).
    { intros buf Hb. unfold ov. rewrite <- Hb, <- put_over by lia. rewrite W3. now apply skipn_put. }
    rewrite !Hf, !Hs by congruence.
    assert (Hnil : is_nil (skipn m buf2) = is_nil (skipn m buf1)) by (rewrite !is_nil_length, !skipn_length, Hl; reflexivity).
    rewrite Hnil. destruct (is_nil (skipn m buf1)) eqn:En.
    + exists x1, c, (Ok true), ov. split; [exact Ho|]. rewrite <- !app_assoc.
      assert (Hw : forall buf, length buf = length buf1 -> w ++ skipn m buf = over ov buf).
      { intros buf Hb. unfold ov. rewrite <- Hb, <- put_over by lia. now rewrite W3. }
      rewrite !Hw by congruence. split; [reflexivity|]. split; [reflexivity|]. split; [exact Ec|]. intros _ _.
      rewrite is_nil_length, skipn_length in En. apply Nat.eqb_eq in En. unfold ov. replace (length buf1 - length w) with 0 by lia.
      cbn [repeat]. rewrite app_nil_r. apply set_some.
    + destruct (IH x1 c (done1 ++ w) (done2 ++ w) (skipn m buf1) (skipn m buf2)) as (x' & c' & r & ov' & I1 & I2 & I3 & I4 & I5); [rewrite !skipn_length; lia|].
      rewrite skipn_length in I1. exists x', c', r, (map Some w ++ ov'). rewrite app_length, map_length. split; [lia|].
      assert (Hq2 : forall buf, length buf = length buf1 -> over (map Some w ++ ov') buf = w ++ over ov' (skipn m buf)).
      { intros buf Hb. rewrite <- (firstn_skipn m buf) at 1. rewrite over_app by (rewrite map_length, firstn_length; lia).
        now rewrite over_some by (rewrite firstn_length; lia). }
      rewrite !Hq2, I2, I3 by congruence. rewrite <- !app_assoc. split; [reflexivity|]. split; [reflexivity|]. split; [congruence|].
      intros Hr _. apply Forall_app. split; [apply set_some|]. now apply I5.
Qed.
Lemma conv_fill_paint f x c buf1 buf2 : length buf1 = length buf2 ->
  exists x' c' r ov, length ov = length buf1 /\ conv_fill_buffer St cb x c f buf1 = (x', c', over ov buf1, r) /\
    conv_fill_buffer St cb x c f buf2 = (x', c', over ov buf2, r) /\ cv_color c' = cv_color c /\ (r = Ok true -> cv_color c = CIndexed -> set_bytes ov).
Proof. intros Hl. unfold conv_fill_buffer. rewrite <- Hl. exact (fill_loop_paint f _ x c [] [] buf1 buf2 Hl). Qed.

Lemma nth_none n k : nth k (repeat (@None N) n) None = None.
Proof. destruct (Nat.lt_ge_cases k n); [now rewrite nth_repeat|]. apply nth_overflow. now rewrite repeat_length. Qed.
Lemma nth_left (ov : list (option N)) : (forall k, nth k ov None = None) -> left_alone ov.
Proof. intros H. apply Forall_forall. intros v Hv. destruct (In_nth _ _ None Hv) as (k & _ & <-). apply H. Qed.
Lemma nth_set (ov : list (option N)) : (forall k, k < length ov -> nth k ov None <> None) -> set_bytes ov.
Proof. intros H. apply Forall_forall. intros v Hv. destruct (In_nth _ _ None Hv) as (k & Hk & <-). now apply H. Qed.
Lemma set_nth (ov : list (option N)) k : set_bytes ov -> k < length ov -> nth k ov None <> None.
Proof. intros H Hk. unfold set_bytes in H. rewrite Forall_forall in H. now apply H, nth_In. Qed.
Lemma nth_skipn_o n k (l : list (option N)) : nth k (skipn n l) None = nth (n + k) l None.
Proof. revert l. induction n as [|n IH]; intros l; [reflexivity|]. destruct l; [now rewrite !nth_overflow by (cbn; lia)|]. apply IH. Qed.
Lemma nth_firstn_o n k (l : list (option N)) : k < n -> nth k (firstn n l) None = nth k l None.
Proof. revert k l. induction n as [|n IH]; intros k l H; [lia|]. destruct l; [destruct k; reflexivity|]. destruct k; [reflexivity|]. cbn [firstn nth]. apply IH. lia. Qed.

Lemma rows_paint f w rows : forall x c buf1 buf2, N.to_nat (line_length c f) = w -> length buf1 = length buf2 ->
  exists x' c' r ov, length ov = length buf1 /\ read_rows umax St cb rows x c f buf1 = (x', c', over ov buf1, r) /\
    read_rows umax St cb rows x c f buf2 = (x', c', over ov buf2, r) /\ cv_color c' = cv_color c /\
    (forall k, nth k ov None <> None -> exists row, In row rows /\ row * w <= k < row * w + w) /\
    (r = Ok tt -> cv_color c = CIndexed -> forall row j, In row rows -> j < w -> nth (row * w + j) ov None <> None).
Proof.
  induction rows as [|row rows IH]; intros x c buf1 buf2 Ew Hl; cbn [read_rows].
  { exists x, c, (Ok tt), (repeat None (length buf1)). rewrite repeat_length, over_none. split; [reflexivity|]. split; [reflexivity|].
    rewrite Hl, over_none. split; [reflexivity|]. split; [reflexivity|]. split; [intros k Hk; now rewrite nth_none in Hk|intros _ _ ? ? []]. }
  assert (Hquit : forall r : dres unit, r <> Ok tt -> exists x' c' r' ov, length ov = length buf1 /\ (x, c, buf1, r) = (x', c', over ov buf1, r') /\
    (x, c, buf2, r) = (x', c', over ov buf2, r') /\ cv_color c' = cv_color c /\
    (forall k, nth k ov None <> None -> exists row0, In row0 (row :: rows) /\ row0 * w <= k < row0 * w + w) /\
    (r' = Ok tt -> cv_color c = CIndexed -> forall row0 j, In row0 (row :: rows) -> j < w -> nth (row0 * w + j) ov None <> None)).
  { intros r Hr. exists x, c, r, (repeat None (length buf1)). rewrite repeat_length, over_none. split; [reflexivity|]. split; [reflexivity|].
    rewrite Hl, over_none. split; [reflexivity|]. split; [reflexivity|]. split; [intros k Hk; now rewrite nth_none in Hk|contradiction]. }
  cbv zeta. set (start := (N.of_nat row * line_length c f)%N). destruct (umax <? start)%N; [apply Hquit; discriminate|].
  replace (len buf2) with (len buf1) by (unfold len; now rewrite Hl).
  destruct ((start <=? len buf1)%N && (start + line_length c f <=? len buf1)%N)%bool eqn:Eg; [|apply Hquit; discriminate].
  apply andb_prop in Eg as [G1 G2]. apply N.leb_le in G1, G2. rewrite Ew. set (st := N.to_nat start).
  assert (Hst : st = row * w) by (unfold st, start; lia). assert (Hfit : st + w <= length buf1) by (unfold len in *; lia).
  destruct (conv_fill_paint f x c (firstn w (skipn st buf1)) (firstn w (skipn st buf2))) as (x1 & c1 & r & ov1 & O1 & O2 & O3 & O4 & O5);
    [rewrite !firstn_length, !skipn_length; lia|].
  rewrite firstn_length, skipn_length in O1. rewrite O2, O3. set (rest := length buf1 - st - w).
  set (ov := repeat None st ++ ov1 ++ repeat None rest).
  assert (Ho : length ov = length buf1) by (unfold ov, rest; rewrite !app_length, !repeat_length; lia).
  assert (Hb : forall buf, length buf = length buf1 -> firstn st buf ++ over ov1 (firstn w (skipn st buf)) ++ skipn w (skipn st buf) = over ov buf).
  { intros buf Hb. rewrite <- (firstn_skipn st buf) at 4. rewrite <- (firstn_skipn w (skipn st buf)) at 3. unfold ov.
    assert (A1 : length (firstn st buf) = st) by (rewrite firstn_length; lia).
    assert (A2 : length (skipn w (skipn st buf)) = rest) by (rewrite !skipn_length; unfold rest; lia).
    rewrite over_app by (rewrite repeat_length; lia). rewrite over_app by (rewrite firstn_length, skipn_length; lia).
    rewrite (over_none_n st) by exact A1. rewrite (over_none_n rest) by exact A2. reflexivity. }
  rewrite !Hb by congruence.
  assert (Hin : forall k, nth k ov None <> None -> st <= k < st + w).
  { intros k Hk. unfold ov in Hk. destruct (Nat.lt_ge_cases k st) as [H|H].
    - rewrite app_nth1, nth_none in Hk by (rewrite repeat_length; exact H). contradiction.
    - split; [exact H|]. rewrite app_nth2 in Hk by (rewrite repeat_length; exact H). rewrite repeat_length in Hk.
      destruct (Nat.lt_ge_cases (k - st) (length ov1)) as [H'|H']; [lia|]. rewrite app_nth2, nth_none in Hk by exact H'. contradiction. }
  assert (Hset : r = Ok true -> cv_color c = CIndexed -> forall j, j < w -> nth (st + j) ov None <> None).
  { intros Hr Hc j Hj. unfold ov. rewrite app_nth2 by (rewrite repeat_length; lia). rewrite repeat_length. replace (st + j - st) with j by lia.
    rewrite app_nth1 by lia. apply set_nth; [now apply O5|lia]. }
  assert (Hstop : forall r' : dres unit, r' <> Ok tt -> exists x' c' r'' ov', length ov' = length buf1 /\ (x1, c1, over ov buf1, r') = (x', c', over ov' buf1, r'') /\
    (x1, c1, over ov buf2, r') = (x', c', over ov' buf2, r'') /\ cv_color c' = cv_color c /\
    (forall k, nth k ov' None <> None -> exists row0, In row0 (row :: rows) /\ row0 * w <= k < row0 * w + w) /\
    (r'' = Ok tt -> cv_color c = CIndexed -> forall row0 j, In row0 (row :: rows) -> j < w -> nth (row0 * w + j) ov' None <> None)).
  { intros r' Hr. exists x1, c1, r', ov. split; [exact Ho|]. split; [reflexivity|]. split; [reflexivity|]. split; [exact O4|].
    split; [|contradiction]. intros k Hk. exists row. split; [now left|]. rewrite <- Hst. now apply Hin. }
  destruct r as [[|]|e| |]; try (apply Hstop; discriminate).
  assert (Ew1 : N.to_nat (line_length c1 f) = w) by (unfold line_length in *; now rewrite O4).
  destruct (IH x1 c1 (over ov buf1) (over ov buf2) Ew1) as (x' & c' & r & ov2 & I1 & I2 & I3 & I4 & I5 & I6); [rewrite !over_length by congruence; exact Hl|].
  rewrite over_length in I1 by exact Ho. exists x', c', r, (merge ov ov2). rewrite merge_length by congruence. split; [exact Ho|].
  rewrite I2, I3, !over_merge by congruence. split; [reflexivity|]. split; [reflexivity|]. split; [congruence|]. split.
  - intros k Hk. rewrite merge_nth in Hk by congruence. destruct (nth k ov2 None) as [v|] eqn:En.
    + destruct (I5 k) as (row' & J1 & J2); [rewrite En; discriminate|]. exists row'. split; [now right|exact J2].
    + exists row. split; [now left|]. rewrite <- Hst. now apply Hin.
  - intros Hr Hc row' j Hrow Hj. rewrite merge_nth by congruence. destruct (nth (row' * w + j) ov2 None) as [v|] eqn:En; [discriminate|].
    destruct Hrow as [<-|Hrow].
    + rewrite <- Hst. now apply Hset.
    + exfalso. apply (I6 Hr) with (row := row') (j := j); [congruence|exact Hrow|exact Hj|exact En].
Qed.

Lemma into_paint f x c buf1 buf2 : length buf1 = length buf2 ->
  exists x' c' r ov, length ov = length buf1 /\ conv_read_into_buffer umax St cb x c f buf1 = (x', c', over ov buf1, r) /\
    conv_read_into_buffer umax St cb x c f buf2 = (x', c', over ov buf2, r) /\ cv_color c' = cv_color c /\
    forall n, buffer_size umax c f = Some n -> left_alone (skipn (N.to_nat n) ov) /\ (r = Ok tt -> cv_color c = CIndexed -> set_bytes (firstn (N.to_nat n) ov)).
Proof.
  intros Hl. unfold conv_read_into_buffer. destruct (f_interlaced f).
  - destruct (rows_paint f _ (interlace_rows (f_height f)) x c buf1 buf2 eq_refl Hl) as (x' & c' & r & ov & O1 & O2 & O3 & O4 & O5 & O6).
    exists x', c', r, ov. split; [exact O1|]. split; [exact O2|]. split; [exact O3|]. split; [exact O4|]. set (w := N.to_nat (line_length c f)) in *.
    intros n Hn. unfold buffer_size in Hn. destruct (_ <=? umax)%N; [|discriminate]. injection Hn as <-.
    assert (En : N.to_nat (line_length c f * f_height f) = w * N.to_nat (f_height f)) by (unfold w; lia). rewrite En. split.
    + apply nth_left. intros k. rewrite nth_skipn_o. destruct (nth (w * N.to_nat (f_height f) + k) ov None) eqn:E; [|reflexivity]. exfalso.
      destruct (O5 (w * N.to_nat (f_height f) + k)) as (row & H1 & H2); [rewrite E; discriminate|].
      rewrite interlace_rows_order in H1. apply gif_row_order_in in H1. nia.
    + intros Hr Hc. apply nth_set. intros k Hk. rewrite firstn_length in Hk. rewrite nth_firstn_o by lia.
      assert (Hw : w <> 0) by lia. rewrite (Nat.div_mod k w Hw), Nat.mul_comm. apply O6; auto; [|now apply Nat.mod_upper_bound].
      rewrite interlace_rows_order. apply gif_row_order_in. apply Nat.div_lt_upper_bound; [exact Hw|lia].
  - destruct (buffer_size umax c f) as [m|] eqn:Em.
    2:{ exists x, c, (Err (DFormat BufferTooSmall)), (repeat None (length buf1)). rewrite repeat_length, over_none. split; [reflexivity|]. split; [reflexivity|].
        rewrite Hl, over_none. split; [reflexivity|]. split; [reflexivity|discriminate]. }
    replace (len buf2) with (len buf1) by (unfold len; now rewrite Hl). destruct (N.leb_spec m (len buf1)) as [Hm|Hm].
    2:{ exists x, c, (Err (DFormat BufferTooSmall)), (repeat None (length buf1)). rewrite repeat_length, over_none. split; [reflexivity|]. split; [reflexivity|].
        rewrite Hl, over_none. split; [reflexivity|]. split; [reflexivity|]. intros n _. split; [|discriminate].
        apply nth_left. intros k. rewrite nth_skipn_o. apply nth_none. }
    cbv zeta. assert (Hm' : N.to_nat m <= length buf1) by (unfold len in Hm; lia). set (n := N.to_nat m) in *.
    destruct (conv_fill_paint f x c (firstn n buf1) (firstn n buf2)) as (x1 & c1 & r & ov1 & O1 & O2 & O3 & O4 & O5); [rewrite !firstn_length; lia|].
    rewrite firstn_length in O1. rewrite O2, O3. set (ov := ov1 ++ repeat None (length buf1 - n)).
    assert (Ho : length ov = length buf1) by (unfold ov; rewrite app_length, repeat_length; lia).
    assert (Hb : forall buf, length buf = length buf1 -> over ov1 (firstn n buf) ++ skipn n buf = over ov buf).
    { intros buf Hb. rewrite <- (firstn_skipn n buf) at 3. unfold ov. rewrite over_app by (rewrite firstn_length; lia).
      replace (length buf1 - n) with (length (skipn n buf)) by (rewrite skipn_length; lia). now rewrite over_none. }
    rewrite !Hb by congruence.
    assert (Hend : left_alone (skipn n ov)).
    { unfold ov. rewrite skipn_app. replace (length ov1) with n by lia. rewrite Nat.sub_diag, skipn_all2 by lia. cbn [app skipn].
      apply nth_left. intros k. apply nth_none. }
    assert (Hst : r = Ok true -> cv_color c = CIndexed -> set_bytes (firstn n ov)).
    { intros Hr Hc. unfold ov. rewrite firstn_app. replace (length ov1) with n by lia. rewrite Nat.sub_diag, firstn_all2 by lia. cbn [firstn].
      rewrite app_nil_r. now apply O5. }
    destruct r as [[|]|e| |]; (eexists x1, c1, _, ov; split; [exact Ho|]; split; [reflexivity|]; split; [reflexivity|]; split; [exact O4|]);
      intros k [= <-]; (split; [exact Hend|]); (discriminate || auto).
Qed.

(** Surplus space is not looked at. *)
Lemma rows_more f more rows : forall x c buf, (forall row, In row rows -> (N.of_nat row * line_length c f + line_length c f <= len buf)%N) ->
  read_rows umax St cb rows x c f (buf ++ more) = let '(x', c', b, r) := read_rows umax St cb rows x c f buf in (x', c', b ++ more, r).
Proof.
  induction rows as [|row rows IH]; intros x c buf H; cbn [read_rows]; [reflexivity|]. cbv zeta.
  pose proof (H row (or_introl eq_refl)) as Hr. set (start := (N.of_nat row * line_length c f)%N) in *. destruct (umax <? start)%N; [reflexivity|].
  assert (Hb : len (buf ++ more) = (len buf + len more)%N) by (unfold len; rewrite app_length; lia).
  replace ((start <=? len buf)%N && (start + line_length c f <=? len buf)%N)%bool with true by (symmetry; apply andb_true_intro; split; apply N.leb_le; lia).
  replace ((start <=? len (buf ++ more))%N && (start + line_length c f <=? len (buf ++ more))%N)%bool with true by (symmetry; apply andb_true_intro; split; apply N.leb_le; lia).
  set (st := N.to_nat start). set (w := N.to_nat (line_length c f)).
  assert (Hfit : st + w <= length buf) by (unfold st, w, len in *; lia).
  assert (E1 : firstn w (skipn st (buf ++ more)) = firstn w (skipn st buf)).
  { rewrite skipn_app, firstn_app. replace (w - length (skipn st buf)) with 0 by (rewrite skipn_length; lia). cbn [firstn]. apply app_nil_r. }
  rewrite E1. destruct (conv_fill_paint f x c (firstn w (skipn st buf)) (firstn w (skipn st buf)) eq_refl) as (x1 & c1 & r & ov & O1 & O2 & _ & O4 & _).
  rewrite O2. rewrite firstn_length, skipn_length in O1.
  assert (E2 : firstn st (buf ++ more) = firstn st buf) by (rewrite firstn_app; replace (st - length buf) with 0 by lia; cbn [firstn]; apply app_nil_r).
  assert (E3 : skipn w (skipn st (buf ++ more)) = skipn w (skipn st buf) ++ more).
  { rewrite !skipn_app. replace (st - length buf) with 0 by lia. cbn [skipn]. f_equal. rewrite skipn_length. replace (w - (length buf - st)) with 0 by lia. reflexivity. }
  rewrite E2, E3. set (b1 := firstn st buf ++ over ov (firstn w (skipn st buf)) ++ skipn w (skipn st buf)).
  replace (firstn st buf ++ over ov (firstn w (skipn st buf)) ++ skipn w (skipn st buf) ++ more) with (b1 ++ more) by (unfold b1; now rewrite <- !app_assoc).
  destruct r as [[|]|e| |]; try reflexivity. rewrite IH; [reflexivity|]. intros row' Hin.
  assert (Hl : line_length c1 f = line_length c f) by (unfold line_length; now rewrite O4). rewrite Hl.
  assert (Hlen : len b1 = len buf).
  { unfold b1, len. rewrite !app_length, over_length by (rewrite firstn_length, skipn_length; lia). rewrite !firstn_length, !skipn_length. lia. }
  rewrite Hlen. apply H. now right.
Qed.
Lemma into_more f x c buf more n : buffer_size umax c f = Some n -> (n <= len buf)%N ->
  conv_read_into_buffer umax St cb x c f (buf ++ more) = let '(x', c', b, r) := conv_read_into_buffer umax St cb x c f buf in (x', c', b ++ more, r).
Proof.
  intros En Hn. unfold conv_read_into_buffer. destruct (f_interlaced f).
  - apply rows_more. intros row Hrow. rewrite interlace_rows_order in Hrow. apply gif_row_order_in in Hrow.
    unfold buffer_size in En. destruct (_ <=? umax)%N; [|discriminate]. injection En as <-. nia.
  - rewrite En. replace (n <=? len buf)%N with true by (symmetry; apply N.leb_le; exact Hn).
    replace (n <=? len (buf ++ more))%N with true by (symmetry; apply N.leb_le; unfold len in *; rewrite app_length; lia). cbv zeta.
    assert (Hk : N.to_nat n <= length buf) by (unfold len in Hn; lia). set (k := N.to_nat n) in *.
    rewrite firstn_app. replace (k - length buf) with 0 by lia. cbn [firstn]. rewrite app_nil_r.
    destruct (conv_fill_buffer St cb x c f (firstn k buf)) as [[[x1 c1] b] r].
    rewrite skipn_app. replace (k - length buf) with 0 by lia. cbn [skipn]. rewrite app_assoc. destruct r as [[|]|e| |]; reflexivity.
Qed.
End CB.

(** ** [Decoder] *)
Section PD.
Variable L : lzw_codec.
Hypothesis safe : lzw_safe L.
Variable umax : N.
Hypothesis Humax : (2 ^ 32 - 1 <= umax)%N.
Notation dcd := (Reader.dcd L).

Lemma bytes_same r sl sl' r1 ob x : length sl = length sl' -> decode_next_bytes L r (OSlice sl) = (r1, ob, x) ->
  exists w, length w <= length sl /\ ob = wput w sl /\ decode_next_bytes L r (OSlice sl') = (r1, wput w sl', x) /\ match x with Ok n => length w = n | _ => True end.
Proof.
  intros Hl H. unfold decode_next_bytes in *.
  pose proof (decode_next_loop_same L safe umax Humax (length (rd_src L r) + 2) r sl sl' Hl) as (w & H1 & H2 & H3 & H4).
  change (decode_next_loop L (length (rd_src L r) + 2) r (OSlice sl)) with (decode_next L r (OSlice sl)) in *.
  change (decode_next_loop L (length (rd_src L r) + 2) r (OSlice sl')) with (decode_next L r (OSlice sl')) in *.
  rewrite H3. destruct (decode_next L r (OSlice sl)) as [[r2 ob2] y]. cbn [fst snd] in *. subst ob2.
  exists w. destruct y as [[d|]|e| |]; [destruct d|..]; injection H as <- <- <-;
    (split; [exact H1|]; split; [reflexivity|]; split; [reflexivity|]); try exact I; exact H4.
Qed.

Theorem into_same (d : dcd) buf1 buf2 : length buf1 = length buf2 -> exists d' x ov, length ov = length buf1 /\
  read_into_buffer L umax d buf1 = (d', over ov buf1, x) /\ read_into_buffer L umax d buf2 = (d', over ov buf2, x) /\
  forall n, dec_buffer_size L umax d = Some n -> left_alone (skipn (N.to_nat n) ov) /\
    (x = Ok tt -> cv_color (dc_conv L d) = CIndexed -> set_bytes (firstn (N.to_nat n) ov)).
Proof.
  intros Hl. unfold read_into_buffer, dec_buffer_size.
  destruct (into_paint umax _ (decode_next_bytes L) bytes_same (dc_cur L d) (dc_rd L d) (dc_conv L d) buf1 buf2 Hl) as (x' & c' & r & ov & O1 & O2 & O3 & _ & O4).
  rewrite O2, O3. eexists _, r, ov. split; [exact O1|]. split; [reflexivity|]. split; [reflexivity|]. exact O4.
Qed.
Theorem fill_same (d : dcd) buf1 buf2 : length buf1 = length buf2 -> exists d' x ov, length ov = length buf1 /\
  fill_buffer L d buf1 = (d', over ov buf1, x) /\ fill_buffer L d buf2 = (d', over ov buf2, x) /\
  (x = Ok true -> cv_color (dc_conv L d) = CIndexed -> set_bytes ov).
Proof.
  intros Hl. unfold fill_buffer.
  destruct (conv_fill_paint _ (decode_next_bytes L) bytes_same (dc_cur L d) (dc_rd L d) (dc_conv L d) buf1 buf2 Hl) as (x' & c' & r & ov & O1 & O2 & O3 & _ & O4).
  rewrite O2, O3. eexists _, r, ov. split; [exact O1|]. split; [reflexivity|]. split; [reflexivity|]. exact O4.
Qed.
Theorem into_surplus (d : dcd) buf more n : dec_buffer_size L umax d = Some n -> (n <= len buf)%N ->
  read_into_buffer L umax d (buf ++ more) = let '(d', b, x) := read_into_buffer L umax d buf in (d', b ++ more, x).
Proof.
  intros Hn Hb. unfold read_into_buffer. rewrite (into_more umax _ (decode_next_bytes L) bytes_same _ _ _ buf more n Hn Hb).
  destruct (conv_read_into_buffer _ _ _ _ _ _ buf) as [[[r c] b] y]. reflexivity.
Qed.

(** The current frame does not matter to [next_frame_info]. *)
Lemma info_cur fuel : forall (d : dcd) f t d' x, next_frame_info_loop L fuel d = (d', x) ->
  exists f' t', next_frame_info_loop L fuel (set_cur L d f t) = (set_cur L d' f' t', x) /\ (x = Ok true -> set_cur L d' f' t' = d').
Proof.
  induction fuel as [|fuel IH]; intros d f t d' x H; cbn [next_frame_info_loop] in *.
  { injection H as <- <-. exists f, t. split; [reflexivity|discriminate]. }
  cbn [dc_rd set_cur]. destruct (decode_next L (dc_rd L d) ONone) as [[r ob] y].
  change (set_rd L (set_cur L d f t) r) with (set_cur L (set_rd L d r) f t).
  destruct y as [[ev|]|e| |]; try (injection H as <- <-; exists f, t; split; [reflexivity|discriminate]).
  destruct ev; try (apply IH; exact H).
  destruct (sd_current L (rd_dec L r)) as [f1|]; [|injection H as <- <-; exists f, t; split; [reflexivity|discriminate]].
  destruct (frame_take f1) as [taken leftover].
  cbn [set_cur set_rd dc_conv dc_rd dc_bg dc_repeat] in *.
  destruct (f_palette taken) as [p|]; [|destruct (cv_gpal (dc_conv L d))]; injection H as <- <-; exists taken, t0; (split; [reflexivity|]); (discriminate || reflexivity).
Qed.

Lemma check_size c f n : check_buffer_size umax c f = Ok n -> buffer_size umax c f = Some n.
Proof.
  unfold check_buffer_size. destruct (limit_buffer_size _ _ _ _) as [m|]; [|discriminate]. destruct (buffer_size umax c f) as [k|]; [|discriminate].
  destruct (N.eqb_spec m k); [|discriminate]. intros [= <-]. now subst.
Qed.
Lemma cur_self (d : dcd) : set_cur L d (dc_cur L d) (dc_ty L d) = d.
Proof. destruct d; reflexivity. Qed.

(** One frame. *)
Lemma frame_into (d : dcd) d1 n slice : dcd_good L d -> alloc_ok L umax d -> o_skip_frame_decoding (dopts L d) = false ->
  next_frame_info L d = (d1, Ok true) -> dec_buffer_size L umax d1 = Some n -> (n <= len slice)%N ->
  check_buffer_size umax (dc_conv L d1) (dc_cur L d1) = Ok n ->
  exists d2 y ov, length ov = N.to_nat n /\ read_into_buffer L umax d1 slice = (d2, over ov (firstn (N.to_nat n) slice) ++ skipn (N.to_nat n) slice, y) /\
    (y = Ok tt -> cv_color (dc_conv L d1) = CIndexed -> set_bytes ov) /\
    read_next_frame L umax d = (set_cur L d2 (match y with Ok _ => set_interlaced (set_buffer (dc_cur L d1) (over ov (repeat 0%N (N.to_nat n)))) false | _ => dc_cur L d1 end)
      (dc_ty L d1), match y with Ok _ => Ok true | Err e => Err e | Panic => Panic | Hang => Hang end).
Proof.
  intros Hd Ha Hs E En Hn Ec. pose proof (next_frame_info_returns L safe umax Humax d d1 _ Hd E) as (_ & Hd1 & Hk & Hb). destruct (Hb eq_refl) as [Hb1 _].
  pose proof (alloc_ok_kept L umax _ _ Hk Ha) as Ha1.
  assert (Ht : dc_ty L d1 = FPixels) by (exact (info_pixels L safe _ d d1 Hd Hs E)).
  assert (Hlen : N.to_nat n <= length slice) by (unfold len in Hn; lia).
  destruct (into_same d1 (firstn (N.to_nat n) slice) (repeat 0%N (N.to_nat n))) as (d2 & y & ov & O1 & O2 & O3 & O4); [rewrite repeat_length, firstn_length; lia|].
  rewrite firstn_length in O1. assert (Ho : length ov = N.to_nat n) by lia.
  exists d2, y, ov. split; [exact Ho|]. split; [|split].
  - rewrite <- (firstn_skipn (N.to_nat n) slice) at 1. rewrite (into_surplus d1 _ _ n En) by (unfold len; rewrite firstn_length; lia). now rewrite O2.
  - intros Hy Hc. destruct (O4 n En) as [_ H]. specialize (H Hy Hc). rewrite firstn_all2 in H by lia. exact H.
  - unfold read_next_frame. rewrite E, Ht. unfold conv_read_frame. rewrite Ec.
    assert (Hu : (umax / 2 <? n)%N = false).
    { apply N.ltb_ge. destruct Hd1 as (_ & (_ & _ & _ & _ & Fw & Fh & _) & Gl & _).
      pose proof (check_buffer_size_ok umax (dc_conv L d1) (dc_cur L d1) Fw Fh) as Hc. rewrite Ec in Hc. destruct Hc as [Hc1 Hc2].
      pose proof (frame_bytes_bound (dc_conv L d1) (dc_cur L d1) Fw Fh) as Hfb.
      unfold alloc_ok, limit_ok, dopts in Ha1. rewrite <- Gl in Ha1. destruct (cv_limit (dc_conv L d1)); lia. }
    rewrite Hu. cbv zeta. unfold read_into_buffer in O3.
    assert (Eself : set_buffer (dc_cur L d1) [] = dc_cur L d1) by (destruct (dc_cur L d1); cbn in *; now subst).
    assert (Eg : grow (firstn (N.to_nat n) (f_buffer (dc_cur L d1))) (N.to_nat n) = repeat 0%N (N.to_nat n)).
    { rewrite Hb1, firstn_nil. unfold grow. cbn [length app]. now rewrite Nat.sub_0_r. }
    rewrite Eself, Eg. destruct (conv_read_into_buffer umax (Reader.rd L) (decode_next_bytes L) (dc_rd L d1) (dc_conv L d1) (dc_cur L d1) (repeat 0%N (N.to_nat n)))
      as [[[r c] b] z]. injection O3 as <- <- ->. destruct y as [u|e| |]; reflexivity.
Qed.

(** A whole file. *)
Theorem into_reads mk n : (forall i k, (k <= len (mk i k))%N) -> forall (d : dcd) f t d' fs r, dcd_good L d -> alloc_ok L umax d ->
  o_skip_frame_decoding (dopts L d) = false -> read_all L umax n d = (d', fs, r) -> r <> Err (DIo OutOfMemory) ->
  exists l f' t', into_all L umax mk n (set_cur L d f t) = (set_cur L d' f' t', l, r) /\ same_pictures (o_color (dopts L d)) mk n fs l.
Proof.
  intros Hmk. induction n as [|n IH]; intros d f t d' fs r Hd Ha Hs H Hr; cbn [read_all into_all] in *.
  { injection H as <- <- <-. exists [], f, t. split; [reflexivity|exact I]. }
  destruct (next_frame_info L d) as [d1 x] eqn:E. pose proof E as Ei. unfold next_frame_info in E.
  destruct (info_cur _ d f t d1 x E) as (f1 & t1 & E1 & Esame).
  replace (next_frame_info L (set_cur L d f t)) with (set_cur L d1 f1 t1, x) by (rewrite <- E1; reflexivity).
  pose proof (next_frame_info_returns L safe umax Humax d d1 _ Hd Ei) as (Hx & Hd1 & Hk & Hb).
  destruct (bool_dec (match x with Ok true => true | _ => false end) true) as [Ex|Ex].
  2:{ unfold read_next_frame in H. rewrite Ei in H. destruct x as [[|]|e| |]; try (now contradiction Ex); injection H as <- <- <-; exists [], f1, t1; (split; [reflexivity|exact I]). }
  destruct x as [[|]|e| |]; try discriminate Ex. clear Ex. rewrite (Esame eq_refl).
  pose proof Hd1 as (_ & (_ & _ & _ & _ & Fw & Fh & _) & Gl & Gc & _).
  pose proof (check_buffer_size_ok umax (dc_conv L d1) (dc_cur L d1) Fw Fh) as Hc.
  destruct (check_buffer_size umax (dc_conv L d1) (dc_cur L d1)) as [k|e| |] eqn:Ec; try contradiction.
  2:{ exfalso. unfold read_next_frame in H. rewrite Ei, (info_pixels L safe _ d d1 Hd Hs E) in H. unfold conv_read_frame in H. rewrite Ec in H.
      injection H as _ _ H. apply Hr. rewrite <- H. f_equal. unfold check_buffer_size in Ec.
      destruct (limit_buffer_size _ _ _ _); [destruct (buffer_size umax _ _); [destruct (_ =? _)%N|]; discriminate|]. now injection Ec as <-. }
  pose proof (check_size _ _ _ Ec) as Ek. change (dec_buffer_size L umax d1 = Some k) in Ek. rewrite Ek.
  destruct (frame_into d d1 k (mk n k) Hd Ha Hs Ei Ek (Hmk n k) Ec) as (d2 & y & ov & O1 & O2 & O3 & O4). rewrite O2, O4 in *.
  pose proof O4 as Hgood. apply (read_next_frame_returns L safe umax Humax) in Hgood; [|exact Hd|exact Ha]. destruct Hgood as (Hret & Hd2 & Hk2 & _).
  destruct y as [u|e| |]; try contradiction Hret.
  2:{ injection H as <- <- <-. exists [], (dc_cur L d2), (dc_ty L d2). cbn [set_cur]. split; [|exact I].
      change (set_cur L (set_cur L d2 (dc_cur L d1) (dc_ty L d1)) (dc_cur L d2) (dc_ty L d2)) with (set_cur L d2 (dc_cur L d2) (dc_ty L d2)). now rewrite cur_self. }
  set (fr := set_interlaced _ false) in *. set (d2' := set_cur L d2 fr (dc_ty L d1)) in *.
  destruct (read_all L umax n d2') as [[d3 fs3] z] eqn:Er. injection H as <- <- ->.
  assert (Es2 : dopts L d2' = dopts L d) by (apply Hk2).
  destruct (IH d2' (dc_cur L d2) (dc_ty L d2) d3 fs3 r Hd2 (alloc_ok_kept L umax _ _ Hk2 Ha)) as (l & f' & t' & I1 & I2); [now rewrite Es2|exact Er|exact Hr|].
  change (set_cur L d2' (dc_cur L d2) (dc_ty L d2)) with (set_cur L d2 (dc_cur L d2) (dc_ty L d2)) in I1. rewrite cur_self in I1. rewrite I1.
  exists ((dc_cur L d1, over ov (firstn (N.to_nat k) (mk n k)) ++ skipn (N.to_nat k) (mk n k)) :: l), f', t'. split; [reflexivity|].
  cbn [same_pictures]. rewrite Es2 in I2. split; [|exact I2].
  assert (Ecol : o_color (dopts L d) = cv_color (dc_conv L d1)).
  { rewrite Gc. f_equal. symmetry. apply Hk. }
  assert (En : k = (f_width fr * f_height fr * N.of_nat match o_color (dopts L d) with CRgba => 4 | CIndexed => 1 end)%N).
  { rewrite Ecol. destruct Hc as [-> _]. unfold fr, line_length. cbn [set_interlaced set_buffer f_width f_height]. destruct (cv_color (dc_conv L d1)); cbn; lia. }
  unfold same_picture. cbn [dc_cur set_cur d2']. cbv zeta. rewrite <- En. exists ov. split; [exact O1|]. split; [reflexivity|]. split; [reflexivity|].
  intros Hci. apply O3; [now destruct u|congruence].
Qed.

Theorem into_file mk n src o d d' fs r : (forall i k, (k <= len (mk i k))%N) -> src_ok src -> limit_ok umax (o_limit o) ->
  o_skip_frame_decoding o = false -> read_info L src o = Ok d -> read_all L umax n d = (d', fs, r) -> r <> Err (DIo OutOfMemory) ->
  exists d2 l, into_all L umax mk n d = (d2, l, r) /\ same_pictures (o_color o) mk n fs l /\ rd_rest L (dc_rd L d2) = rd_rest L (dc_rd L d').
Proof.
  intros Hmk Hsrc Hlim Hs E H Hr. destruct (read_info_returns L safe umax Humax src o Hsrc) as [_ Hi]. destruct (Hi d E) as [Hd Ho].
  destruct (into_reads mk n Hmk d (dc_cur L d) (dc_ty L d) d' fs r Hd) as (l & f' & t' & I1 & I2);
    [unfold alloc_ok; now rewrite Ho|now rewrite Ho|exact H|exact Hr|].
  rewrite cur_self in I1. rewrite Ho in I2. exists (set_cur L d' f' t'), l. auto.
Qed.

(** ** [FrameDecoder] and [StreamingDecoder] *)
Theorem fd_same (fd : fdec L) f buf1 buf2 : length buf1 = length buf2 -> exists fd' x ov, length ov = length buf1 /\
  decode_lzw_encoded_frame_into_buffer L umax fd f buf1 = (fd', over ov buf1, x) /\
  decode_lzw_encoded_frame_into_buffer L umax fd f buf2 = (fd', over ov buf2, x) /\
  forall n, fd_buffer_size L umax fd f = Some n -> left_alone (skipn (N.to_nat n) ov) /\
    (x = Ok tt -> cv_color (fd_conv L fd) = CIndexed -> set_bytes (firstn (N.to_nat n) ov)).
Proof.
  intros Hl. unfold decode_lzw_encoded_frame_into_buffer, fd_buffer_size.
  destruct (match f_buffer f with [] => _ | _ => _ end) as [m data]. destruct (lr_reset L (fd_lzw L fd) m) as [r0 y].
  assert (Hq : forall (fd' : fdec L) (x : dres unit), x <> Ok tt -> exists fd'' x' ov, length ov = length buf1 /\ (fd', buf1, x) = (fd'', over ov buf1, x') /\
    (fd', buf2, x) = (fd'', over ov buf2, x') /\ forall n, buffer_size umax (fd_conv L fd) f = Some n -> left_alone (skipn (N.to_nat n) ov) /\
      (x' = Ok tt -> cv_color (fd_conv L fd) = CIndexed -> set_bytes (firstn (N.to_nat n) ov))).
  { intros fd' x Hx. exists fd', x, (repeat None (length buf1)). rewrite repeat_length, over_none. split; [reflexivity|]. split; [reflexivity|].
    rewrite Hl, over_none. split; [reflexivity|]. intros n _. split; [|contradiction]. apply nth_left. intros k. rewrite nth_skipn_o. apply nth_none. }
  destruct y as [u|e| |]; try (apply Hq; discriminate).
  destruct (into_paint umax _ (fd_callback L) (fun x sl sl' x1 ob r => fd_loop_same L safe umax Humax _ x sl sl' x1 ob r) f (r0, data) (fd_conv L fd) buf1 buf2 Hl)
    as ([r1 d1] & c' & r & ov & O1 & O2 & O3 & _ & O4).
  rewrite O2, O3. eexists _, r, ov. split; [exact O1|]. split; [reflexivity|]. split; [reflexivity|]. exact O4.
Qed.
Theorem update_same (s : sd L) data buf1 buf2 : length buf1 = length buf2 -> exists s' x ov, length ov = length buf1 /\
  update L s data (OSlice buf1) = (s', OSlice (over ov buf1), x) /\ update L s data (OSlice buf2) = (s', OSlice (over ov buf2), x) /\
  match x with Ok (_, d) => set_bytes (firstn (ev_count d) ov) /\ left_alone (skipn (ev_count d) ov) | _ => True end.
Proof.
  intros Hl. destruct (update_loop_same L safe umax Humax (update_fuel data) s data buf1 buf2 (length data) Hl) as (w & H1 & H2 & H3 & H4).
  fold (update L s data (OSlice buf1)) in H2, H3, H4. fold (update L s data (OSlice buf2)) in H3.
  destruct (update L s data (OSlice buf1)) as [[s' ob] x]. cbn [fst snd] in *. subst ob. rewrite H3.
  exists s', x, (map Some w ++ repeat None (length buf1 - length w)). split; [rewrite app_length, map_length, repeat_length; lia|].
  unfold wput. rewrite !put_over by lia. rewrite Hl. split; [reflexivity|]. split; [reflexivity|].
  destruct x as [[n d]|e| |]; try exact I. rewrite <- H4, <- (map_length Some w). split.
  - rewrite firstn_app, Nat.sub_diag, firstn_all. cbn [firstn]. rewrite app_nil_r. apply set_some.
  - rewrite skipn_app, Nat.sub_diag, skipn_all. cbn [skipn app]. apply nth_left. intros k. apply nth_none.
Qed.
End PD.
