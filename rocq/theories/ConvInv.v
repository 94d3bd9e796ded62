(** The pixel converter with any well-behaved data source: it returns, keeps buffer lengths and
    never overflows. *)
From Verif Require Import Base Common Lzw Encoder Stream Converter StreamInv Interlace.
Open Scope N_scope.

(** The converter's settings (everything but its scratch buffer). *)
Definition same_settings (c c' : conv) : Prop :=
  cv_limit c' = cv_limit c /\ cv_color c' = cv_color c /\ cv_gpal c' = cv_gpal c.
Lemma same_settings_refl c : same_settings c c.
Proof. repeat split. Qed.
Lemma same_settings_trans a b c : same_settings a b -> same_settings b c -> same_settings a c.
Proof. unfold same_settings. intuition congruence. Qed.

Lemma expand_length pal t is : forall cells, (length is * 4 <= length cells)%nat ->
  length (expand pal t is cells) = length cells.
Proof.
  induction is as [|i is IH]; intros cells H; [reflexivity|]. cbn [expand length] in *.
  rewrite app_length, IH by (rewrite skipn_length; lia). rewrite skipn_length.
  assert (length (expand_cell pal t i (firstn 4 cells)) = 4%nat); [|lia].
  unfold expand_cell. destruct (_ <=? _)%nat; [reflexivity|]. rewrite firstn_length. lia.
Qed.

Lemma grow_length l n : (length l <= n)%nat -> length (grow l n) = n.
Proof. intros. unfold grow. rewrite app_length, repeat_length. lia. Qed.

Section ConvInv.
Variable umax : N.
Variable St : Type.
Variable cb : St -> obuf -> St * obuf * dres nat.
Variable Inv : St -> Prop.
Hypothesis cb_ok : forall x s x' ob' r, Inv x -> cb x (OSlice s) = (x', ob', r) ->
  Inv x' /\ (exists s', ob' = OSlice s' /\ length s' = length s) /\
  match r with Ok n => (n <= length s)%nat | Err _ => True | Panic | Hang => False end.

Lemma fill_loop_ok f : forall fuel x c done buf x' c' b' r,
  Inv x -> (length buf < fuel)%nat ->
  fill_loop St cb fuel x c f done buf = (x', c', b', r) ->
  Inv x' /\ length b' = (length done + length buf)%nat /\ same_settings c c' /\ returns r.
Proof.
  induction fuel as [|fuel IH]; intros x c done buf x' c' b' r Hx Hf H; [lia|].
  cbn [fill_loop] in H. destruct (cv_color c) eqn:Ec.
  - destruct (Nat.eqb_spec (length buf / 4) 0) as [E|E].
    { injection H as <- <- <- <-. rewrite app_length.
      split; [exact Hx|]. split; [reflexivity|]. split; [apply same_settings_refl|exact I]. }
    cbn zeta in H.
    set (size := (length buf / 4)%nat) in *.
    set (scratch := if (length (cv_buffer c) <? size)%nat then grow (cv_buffer c) size else cv_buffer c) in *.
    assert (Hs : (size <= length scratch)%nat).
    { unfold scratch. destruct (Nat.ltb_spec (length (cv_buffer c)) size); [rewrite grow_length; lia|lia]. }
    destruct (cb x (OSlice (firstn size scratch))) as [[x1 ob] y] eqn:Ecb.
    apply cb_ok in Ecb; [|exact Hx]. destruct Ecb as (Hx1 & (s' & -> & Hs') & Hy).
    rewrite firstn_length in Hs', Hy. cbn [obuf_bytes] in H.
    assert (Hss : forall b, same_settings c (with_cbuf c b)) by (intros; repeat split; reflexivity).
    destruct y as [n|e| | ]; try easy.
    + destruct n as [|n].
      { injection H as <- <- <- <-. rewrite app_length. repeat split; auto. }
      destruct (Nat.ltb_spec (length buf) (S n * 4)) as [Hlt|Hlt].
      { exfalso. unfold size in *. pose proof (Nat.mul_div_le (length buf) 4). lia. }
      match type of H with context [expand ?p ?t ?is ?cells] =>
        assert (Hl : length (expand p t is cells) = length cells) end.
      { apply expand_length. rewrite !firstn_length, app_length. lia. }
      rewrite firstn_length in Hl.
      match type of Hl with length ?e = _ => remember e as px end.
      remember (skipn (S n * 4) buf) as rest eqn:Erest.
      assert (Hrest : length rest = (length buf - S n * 4)%nat) by (subst; apply skipn_length).
      match type of H with (if is_nil ?b then _ else _) = _ => destruct (is_nil b) eqn:En end.
      * apply is_nil_true in En. rewrite En in H. injection H as <- <- <- <-.
        rewrite En in Hrest. cbn [length] in Hrest.
        rewrite !app_length, Hl. cbn [length].
        split; [exact Hx1|]. split; [lia|]. split; [apply Hss|exact I].
      * apply IH in H; [|exact Hx1|lia].
        destruct H as (H1 & H2 & H3 & H4). rewrite app_length, Hl, Hrest in H2.
        split; [exact H1|]. split; [lia|]. split; [|exact H4].
        eapply same_settings_trans; [apply Hss|exact H3].
    + injection H as <- <- <- <-. rewrite app_length. repeat split; auto.
  - destruct (cb x (OSlice buf)) as [[x1 ob] y] eqn:Ecb.
    apply cb_ok in Ecb; [|exact Hx]. destruct Ecb as (Hx1 & (s' & -> & Hs') & Hy).
    cbn [obuf_bytes] in H. pose proof (same_settings_refl c) as Hc.
    destruct y as [n|e| | ]; try easy.
    + destruct n as [|n].
      { injection H as <- <- <- <-. rewrite app_length. repeat split; auto. }
      destruct (Nat.ltb_spec (length s') (S n)) as [Hlt|Hlt]; [lia|].
      cbn zeta in H.
      remember (skipn (S n) s') as rest eqn:Erest.
      assert (Hrest : length rest = (length s' - S n)%nat) by (subst; apply skipn_length).
      remember (firstn (S n) s') as px eqn:Epx.
      assert (Hpx : length px = S n) by (subst px; rewrite firstn_length; lia).
      destruct (is_nil rest) eqn:En.
      * apply is_nil_true in En. rewrite En in H. injection H as <- <- <- <-.
        rewrite En in Hrest. cbn [length] in Hrest.
        rewrite !app_length. cbn [length].
        split; [exact Hx1|]. split; [lia|]. split; [exact Hc|exact I].
      * apply IH in H; [|exact Hx1|lia].
        destruct H as (H1 & H2 & H3 & H4). rewrite app_length in H2.
        split; [exact H1|]. split; [lia|]. split; [exact H3|exact H4].
    + injection H as <- <- <- <-. rewrite app_length. repeat split; auto.
Qed.

Lemma conv_fill_buffer_ok x c f buf x' c' b' r : Inv x ->
  conv_fill_buffer St cb x c f buf = (x', c', b', r) ->
  Inv x' /\ length b' = length buf /\ same_settings c c' /\ returns r.
Proof. intros Hx H. apply fill_loop_ok in H; [|exact Hx|lia]. exact H. Qed.

Lemma line_length_bound c f : u16_ok (f_width f) -> line_length c f <= 262140.
Proof. unfold line_length, u16_ok. destruct (cv_color c); lia. Qed.
Lemma line_length_settings c c' f : same_settings c c' -> line_length c' f = line_length c f.
Proof. intros (_ & H & _). unfold line_length. now rewrite H. Qed.

Lemma read_rows_ok f : u16_ok (f_width f) -> 2 ^ 32 - 1 <= umax ->
  forall rows m x c buf x' c' b' r,
  Inv x -> rows_close m rows -> N.of_nat m * line_length c f <= len buf -> len buf <= umax / 2 ->
  read_rows umax St cb rows x c f buf = (x', c', b', r) ->
  Inv x' /\ length b' = length buf /\ same_settings c c' /\ returns r.
Proof.
  intros Hw Hu. induction rows as [|row rows IH]; intros m x c buf x' c' b' r Hx Hr Hm Hl H.
  { injection H as <- <- <- <-. repeat split; auto. }
  cbn [read_rows] in H. destruct Hr as [Hr1 Hr2].
  pose proof (line_length_bound c f Hw) as Hll.
  set (width := line_length c f) in *.
  assert (Hs : N.of_nat row * width <= len buf + 8 * width) by nia.
  destruct (N.ltb_spec umax (N.of_nat row * width)) as [Hlt|Hlt].
  { exfalso. assert (N.of_nat row * width <= umax / 2 + 2097120) by lia.
    set (z := N.of_nat row * width) in *. clearbody z. lia. }
  destruct (_ && _) eqn:Eb; [|injection H as <- <- <- <-; repeat split; auto].
  apply andb_true_iff in Eb as [Eb1 Eb2]. apply N.leb_le in Eb1, Eb2.
  set (start := N.of_nat row * width) in *.
  destruct (conv_fill_buffer St cb x c f (firstn (N.to_nat width) (skipn (N.to_nat start) buf)))
    as [[[x1 c1] line] y] eqn:Ef.
  apply conv_fill_buffer_ok in Ef; [|exact Hx]. destruct Ef as (Hx1 & Hline & Hc1 & Hy).
  rewrite firstn_length, skipn_length in Hline.
  set (buf1 := firstn (N.to_nat start) buf ++ line ++ skipn (N.to_nat width) (skipn (N.to_nat start) buf)) in *.
  assert (Hb1 : length buf1 = length buf).
  { unfold buf1. rewrite !app_length, firstn_length, !skipn_length, Hline. unfold len in *. lia. }
  assert (Hd : forall z, (x1, c1, buf1, z) = (x', c', b', r) -> returns z ->
    Inv x' /\ length b' = length buf /\ same_settings c c' /\ returns r).
  { intros z E Hz. injection E as <- <- <- <-. auto. }
  destruct y as [[|]|e| | ]; try easy.
  - eapply IH in H; [|exact Hx1|exact Hr2| |unfold len in *; rewrite Hb1; exact Hl].
    + destruct H as (H1 & H2 & H3 & H4). split; [exact H1|]. split; [congruence|].
      split; [|exact H4]. eapply same_settings_trans; eassumption.
    + rewrite (line_length_settings _ _ f Hc1). fold width. unfold len in *. rewrite Hb1.
      destruct (Nat.max_spec m row) as [[_ ->]|[_ ->]]; [fold start|]; lia.
  - eapply Hd; [exact H|exact I].
  - eapply Hd; [exact H|exact I].
Qed.

Lemma conv_read_into_buffer_ok x c f buf x' c' b' r :
  u16_ok (f_width f) -> 2 ^ 32 - 1 <= umax -> len buf <= umax / 2 -> Inv x ->
  conv_read_into_buffer umax St cb x c f buf = (x', c', b', r) ->
  Inv x' /\ length b' = length buf /\ same_settings c c' /\ returns r.
Proof.
  intros Hw Hu Hl Hx H. unfold conv_read_into_buffer in H. destruct (f_interlaced f).
  - eapply read_rows_ok in H; eauto; [apply interlace_rows_close|]. cbn. lia.
  - destruct (buffer_size umax c f) as [n|]; [|injection H as <- <- <- <-; repeat split; auto].
    destruct (N.leb_spec n (len buf)); [|injection H as <- <- <- <-; repeat split; auto].
    cbn zeta in H.
    destruct (conv_fill_buffer St cb x c f (firstn (N.to_nat n) buf)) as [[[x1 c1] b] y] eqn:Ef.
    apply conv_fill_buffer_ok in Ef; [|exact Hx]. destruct Ef as (Hx1 & Hb & Hc1 & Hy).
    rewrite firstn_length in Hb.
    assert (Hlen : length (b ++ skipn (N.to_nat n) buf) = length buf).
    { rewrite app_length, skipn_length. unfold len in *. lia. }
    destruct y as [[|]|e| | ]; try easy; injection H as <- <- <- <-; repeat split; auto; apply Hc1.
Qed.

(** Every size that [check_buffer_size] lets through can be allocated; always so on 64-bit
    platforms. *)
Definition limit_ok (l : memory_limit) : Prop :=
  65535 * 65535 * 4 <= umax / 2 \/ match l with Some n => n <= umax / 2 | None => False end.

Lemma check_buffer_size_ok c f : u16_ok (f_width f) -> u16_ok (f_height f) ->
  match check_buffer_size umax c f with
  | Ok n => n = line_length c f * f_height f /\
            match cv_limit c with Some l => n <= l | None => True end
  | Err _ => True
  | Panic | Hang => False
  end.
Proof.
  intros Hw Hh. unfold check_buffer_size, limit_buffer_size, buffer_size, line_length.
  assert (E : f_width f * f_height f * match cv_color c with CRgba => 4 | CIndexed => 1 end =
          match cv_color c with CRgba => f_width f * 4 | CIndexed => f_width f end * f_height f).
  { destruct (cv_color c); lia. }
  rewrite E. set (t := match cv_color c with CRgba => f_width f * 4 | CIndexed => f_width f end * f_height f).
  destruct (N.leb_spec t umax); [|exact I].
  destruct (cv_limit c) as [l|].
  - destruct (N.ltb_spec l t); [exact I|]. rewrite N.eqb_refl. auto.
  - rewrite N.eqb_refl. auto.
Qed.

Lemma frame_bytes_bound c f : u16_ok (f_width f) -> u16_ok (f_height f) ->
  line_length c f * f_height f <= 65535 * 65535 * 4.
Proof. unfold line_length, u16_ok. intros. destruct (cv_color c); nia. Qed.

Lemma conv_read_frame_ok x c f x' c' f' r :
  u16_ok (f_width f) -> u16_ok (f_height f) -> 2 ^ 32 - 1 <= umax -> limit_ok (cv_limit c) -> Inv x ->
  conv_read_frame umax St cb x c f = (x', c', f', r) ->
  Inv x' /\ same_settings c c' /\ returns r /\
  (exists b i, f' = set_interlaced (set_buffer f b) i) /\
  (r = Ok tt -> len (f_buffer f') = line_length c f * f_height f /\ f_interlaced f' = false /\
                match cv_limit c with Some l => len (f_buffer f') <= l | None => True end).
Proof.
  intros Hw Hh Hu Hl Hx H. unfold conv_read_frame in H.
  pose proof (check_buffer_size_ok c f Hw Hh) as Hc.
  assert (Hid : exists b i, f = set_interlaced (set_buffer f b) i).
  { exists (f_buffer f), (f_interlaced f). destruct f; reflexivity. }
  assert (Hid1 : exists b i, set_buffer f [] = set_interlaced (set_buffer f b) i).
  { exists [], (f_interlaced f). destruct f; reflexivity. }
  destruct (check_buffer_size umax c f) as [n|e| | ]; try easy.
  2:{ injection H as <- <- <- <-. repeat split; auto; discriminate. }
  destruct Hc as [Hn Hc]. cbn zeta in H.
  destruct (N.ltb_spec (umax / 2) n) as [Hlt|Hlt].
  { exfalso. pose proof (frame_bytes_bound c f Hw Hh). unfold limit_ok in Hl.
    destruct (cv_limit c); lia. }
  destruct (conv_read_into_buffer umax St cb x c (set_buffer f []) (grow (firstn (N.to_nat n) (f_buffer f)) (N.to_nat n)))
    as [[[x1 c1] b] y] eqn:Ef.
  assert (Hg : length (grow (firstn (N.to_nat n) (f_buffer f)) (N.to_nat n)) = N.to_nat n).
  { apply grow_length. rewrite firstn_length. lia. }
  apply conv_read_into_buffer_ok in Ef; [|exact Hw|exact Hu|unfold len; lia|exact Hx].
  destruct Ef as (Hx1 & Hb & Hc1 & Hy).
  destruct y as [u|e| | ]; try easy; injection H as <- <- <- <-.
  - split; [exact Hx1|]. split; [exact Hc1|]. split; [exact I|]. split.
    { exists b, false. destruct f; reflexivity. }
    intros _. cbn [f_buffer f_interlaced set_interlaced set_buffer].
    assert (E : len b = n) by (unfold len; lia). rewrite E. auto.
  - split; [exact Hx1|]. split; [exact Hc1|]. split; [exact I|]. split; [exact Hid1|discriminate].
Qed.

End ConvInv.
