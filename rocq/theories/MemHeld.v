(** C71: bounds for what a decoder keeps. *)
From Verif Require Import Base Common Lzw Encoder Stream Converter Reader
  StreamInv Steps ReaderInv Interlace Ranges ConvInv DecoderSafe DecInv SpecStream StreamProps DecProps SpecMem.
Open Scope N_scope.

Lemma table_bytes_max b : (table_bytes b <= 768)%nat.
Proof.
  unfold table_bytes.
  assert (H : N.land b 7 = b mod 8) by (change 7 with (N.ones 3); apply N.land_ones).
  rewrite H. clear H. assert (H : b mod 8 <= 7) by (pose proof (N.mod_lt b 8); lia).
  rewrite N.shiftl_1_l. assert (2 ^ (b mod 8 + 1) <= 256) by (change 256 with (2 ^ 8); apply N.pow_le_mono_r; lia). lia.
Qed.

Section Used.
Variable L : lzw_codec.
Variable umax : N.
Lemma used_opened B src o d : used_with L umax B src o d -> opened L umax src o d.
Proof. induction 1; [now apply op_info|eapply op_call; eassumption|now apply op_taken]. Qed.

Lemma used_more B B' src o d : B <= B' -> used_with L umax B src o d -> used_with L umax B' src o d.
Proof.
  intros HB. induction 1 as [|d op d' y Hd IH Hop Hw E|]; [now apply us_info| |now apply us_taken].
  eapply us_call; try eassumption. destruct op; cbn in *; lia.
Qed.
Theorem opened_used src o d : opened L umax src o d -> exists B, used_with L umax B src o d.
Proof.
  induction 1 as [d Hi|d op d' y Hd [B IH] Hop E|d Hd [B IH]].
  - exists 0. now apply us_info.
  - exists (N.max B (match op with OpInto b | OpFill b => len b | _ => 0 end)).
    eapply us_call; [eapply used_more; [|exact IH]; lia|exact Hop| |exact E]. destruct op; cbn; lia.
  - exists B. now apply us_taken.
Qed.
End Used.

Section MH.
Variable L : lzw_codec.
Hypothesis safe : lzw_safe L.
Notation sd := (sd L).
Notation rd := (rd L).
Notation dcd := (dcd L).

Definition gct_small (s : sd) : Prop :=
  match sd_state L s with
  | GlobalPalette k => (k + length (sd_gct L s) <= 768)%nat
  | _ => sd_gct L s = []
  end.
Definition cur_small (s : sd) : Prop :=
  match sd_current L s with
  | None => True
  | Some f => f_buffer f = [] /\
    match sd_state L s with
    | LocalPalette k =>
      match f_palette f with Some p => (k + length p <= 768)%nat | None => k = O end
    | LzwInit _ | DecodeSubBlock _ | CopySubBlock _ | FrameDecoded =>
      match f_palette f with Some p => (length p <= 768)%nat | None => True end
    | _ => f_palette f = None
    end
  end.
Definition mem_small (n : N) (s : sd) : Prop :=
  gct_small s /\ cur_small s /\ ext_bounded L n s /\ (sd_state L s = ExtensionBlockStart -> sd_ext_data L s = []).

Lemma mem_small_new n o : mem_small n (sd_new L o).
Proof. unfold mem_small, gct_small, cur_small, ext_bounded. cbn. repeat split; auto; try lia; discriminate. Qed.

Lemma gct_small_step s buf ob s' ob' r : gct_small s -> sd_wf L s -> nst L s buf ob s' ob' r -> gct_small s'.
Proof.
  intros H (_ & Hw & _) Hn. unfold gct_small, gct_wf in *.
  inversion Hn; subst; sdcbn; try match goal with E : sd_state L s = _ |- _ => rewrite E in *; clear E end;
    try exact H; try reflexivity; try (destruct (w =? 0)%nat; exact H).
  - unfold after_screen. destruct (negb _); sdcbn; cbn [length].
    + pose proof (table_bytes_max (at_ (hdr L s buf) 4)). lia.
    + rewrite H. cbn. lia.
  - unfold after_image. destruct (negb _); sdcbn; exact H.
  - rewrite app_length, firstn_length. lia.
Qed.

Lemma cur_small_step s buf ob s' ob' r : cur_small s -> sd_wf L s -> nst L s buf ob s' ob' r -> cur_small s'.
Proof.
  intros H (_ & _ & Hw & _) Hn. unfold cur_small, cur_wf in *.
  inversion Hn; subst; sdcbn; try match goal with E : sd_state L s = _ |- _ => rewrite E in *; clear E end;
    try exact H; try reflexivity; try (destruct (w =? 0)%nat; exact H).
  - unfold after_screen. destruct (negb _); sdcbn; exact H.
  - rewrite H2 in H. unfold after_image. destruct (negb _); sdcbn; destruct H as [Hb Hp].
    + cbn [img_frame set_geometry set_palette f_buffer f_palette]. rewrite Hp. split; [exact Hb|].
      pose proof (table_bytes_max (at_ (hdr L s buf) 8)). cbn [length]. lia.
    + cbn [img_frame set_geometry set_palette f_buffer f_palette]. rewrite Hp. auto.
  - rewrite H2 in H. exact H.
  - unfold cur_or_default. destruct (sd_current L s); [exact H|split; reflexivity].
  - unfold cur_or_default. destruct (sd_current L s); [exact H|split; reflexivity].
  - match goal with E : sd_current L s = _, E2 : f_palette _ = _ |- _ => rewrite E in H; rewrite E2 in H end.
    cbn [set_palette f_buffer f_palette]. rewrite app_length, firstn_length. destruct H as [A B]. split; [exact A|lia].
  - destruct (sd_current L s) as [f|]; [|exact I]. destruct H as [A B]. split; [exact A|].
    destruct (f_palette f); [lia|exact I].
Qed.

Lemma mem_small_step n s buf ob s' ob' r : mem_small n s -> sd_wf L s -> nst L s buf ob s' ob' r -> mem_small n s'.
Proof.
  intros (A & B & C & D) Hw Hn. split; [eapply gct_small_step; eassumption|].
  split; [eapply cur_small_step; eassumption|]. split; [eapply ext_bounded_step|eapply ext_empty_step]; eassumption.
Qed.

Lemma mem_small_held n s : mem_small n s -> sd_wf L s -> o_limit (sd_opts L s) = Some n ->
  held_stream L s <= 8 + 768 + 768 + N.max n 1.
Proof.
  intros (A & B & C & _) (Hi & _) Hl. specialize (C Hl). unfold held_stream.
  assert (Hi2 : len (sd_ibuf L s) <= 8) by (unfold len; destruct (sd_state L s); cbn [need] in Hi; lia).
  assert (Ha : len (sd_gct L s) <= 768).
  { unfold gct_small in A. unfold len. destruct (sd_state L s); try (rewrite A; cbn; lia); lia. }
  assert (Hb : match sd_current L s with Some f => opt_len (f_palette f) + len (f_buffer f) | None => 0 end <= 768).
  { unfold cur_small in B. destruct (sd_current L s) as [f|]; [|lia]. destruct B as [-> B].
    unfold opt_len, len. cbn [length].
    destruct (f_palette f); destruct (sd_state L s); try discriminate B; lia. }
  lia.
Qed.

(** ** The streaming decoder *)
Theorem held_streaming o s rest evs n : driven L o s rest evs -> o_limit o = Some n ->
  held_stream L s <= 1544 + N.max n 1.
Proof.
  intros Hd Hl. destruct (driven_drv L safe _ _ _ _ Hd) as (Ho & Hw & _).
  assert (G : mem_small n s).
  { refine (driven_inv L safe (mem_small n) o s rest evs _ _ Hd); [apply mem_small_new|].
    intros s0 buf ob s' ob' r A B Hn. eapply mem_small_step; eassumption. }
  rewrite <- Ho in Hl. pose proof (mem_small_held n s G Hw Hl). lia.
Qed.

Variable umax : N.
Hypothesis Humax : 2 ^ 32 - 1 <= umax.

(** ** The scratch buffer of the pixel converter *)
Section Scratch.
Variable St : Type.
Variable cb : St -> obuf -> St * obuf * dres nat.
Variable Inv : St -> Prop.
Hypothesis cb_ok : forall x s x' ob' r, Inv x -> cb x (OSlice s) = (x', ob', r) ->
  Inv x' /\ (exists s', ob' = OSlice s' /\ length s' = length s) /\
  match r with Ok n => (n <= length s)%nat | Err _ => True | Panic | Hang => False end.

Lemma fill_loop_scratch f : forall fuel x c done buf x' c' b' r, Inv x ->
  fill_loop St cb fuel x c f done buf = (x', c', b', r) ->
  (length (cv_buffer c') <= Nat.max (length (cv_buffer c)) (length buf / 4))%nat.
Proof.
  induction fuel as [|fuel IH]; intros x c done buf x' c' b' r Hx H; cbn [fill_loop] in H.
  { injection H as <- <- <- <-. lia. }
  destruct (cv_color c) eqn:Ec.
  - destruct (Nat.eqb_spec (length buf / 4) 0) as [E|E].
    { injection H as <- <- <- <-. lia. }
    cbn zeta in H.
    set (size := (length buf / 4)%nat) in *.
    set (scratch := if (length (cv_buffer c) <? size)%nat then grow (cv_buffer c) size else cv_buffer c) in *.
    assert (Hs : length scratch = Nat.max (length (cv_buffer c)) size).
    { unfold scratch. destruct (Nat.ltb_spec (length (cv_buffer c)) size); [rewrite grow_length; lia|lia]. }
    destruct (cb x (OSlice (firstn size scratch))) as [[x1 ob] y] eqn:Ecb.
    apply cb_ok in Ecb; [|exact Hx]. destruct Ecb as (Hx1 & (s' & -> & Hs') & Hy).
    rewrite firstn_length in Hs', Hy. cbn [obuf_bytes] in H.
    assert (Hc1 : length (cv_buffer (with_cbuf c (s' ++ skipn size scratch))) = Nat.max (length (cv_buffer c)) size).
    { cbn [with_cbuf cv_buffer]. rewrite app_length, skipn_length. lia. }
    set (c1 := with_cbuf c (s' ++ skipn size scratch)) in *.
    destruct y as [n|e| | ]; try (injection H as <- <- <- <-; lia).
    destruct n as [|n]; [injection H as <- <- <- <-; lia|].
    destruct (Nat.ltb_spec (length buf) (Datatypes.S n * 4)); [injection H as <- <- <- <-; lia|].
    match type of H with (if is_nil ?b then _ else _) = _ => destruct (is_nil b); [injection H as <- <- <- <-; lia|] end.
    apply IH in H; [|exact Hx1]. rewrite Hc1 in H.
    assert (length (skipn (Datatypes.S n * 4) buf) / 4 <= size)%nat
      by (apply Nat.div_le_mono; [lia|rewrite skipn_length; lia]).
    lia.
  - destruct (cb x (OSlice buf)) as [[x1 ob] y] eqn:Ecb.
    apply cb_ok in Ecb; [|exact Hx]. destruct Ecb as (Hx1 & (s' & -> & Hs') & Hy).
    cbn [obuf_bytes] in H.
    destruct y as [n|e| | ]; try (injection H as <- <- <- <-; lia).
    destruct n as [|n]; [injection H as <- <- <- <-; lia|].
    destruct (Nat.ltb_spec (length s') (Datatypes.S n)); [injection H as <- <- <- <-; lia|].
    cbn zeta in H.
    match type of H with (if is_nil ?b then _ else _) = _ => destruct (is_nil b); [injection H as <- <- <- <-; lia|] end.
    apply IH in H; [|exact Hx1].
    assert (length (skipn (Datatypes.S n) s') / 4 <= length buf / 4)%nat
      by (apply Nat.div_le_mono; [lia|rewrite skipn_length; lia]).
    lia.
Qed.

Lemma read_rows_scratch f : forall rows x c buf x' c' b' r, Inv x ->
  read_rows umax St cb rows x c f buf = (x', c', b', r) ->
  (length (cv_buffer c') <= Nat.max (length (cv_buffer c)) (length buf / 4))%nat.
Proof.
  induction rows as [|row rows IH]; intros x c buf x' c' b' r Hx H; cbn [read_rows] in H.
  { injection H as <- <- <- <-. lia. }
  destruct (umax <? _); [injection H as <- <- <- <-; lia|].
  destruct (_ && _) eqn:Eb; [|injection H as <- <- <- <-; lia].
  apply andb_true_iff in Eb as [Eb1 Eb2]. apply N.leb_le in Eb1, Eb2.
  set (width := line_length c f) in *. set (start := N.of_nat row * width) in *.
  destruct (conv_fill_buffer St cb x c f (firstn (N.to_nat width) (skipn (N.to_nat start) buf)))
    as [[[x1 c1] line] y] eqn:Ef.
  pose proof (fill_loop_scratch _ _ _ _ _ _ _ _ _ _ Hx Ef) as Hsc.
  apply (conv_fill_buffer_ok _ _ Inv cb_ok) in Ef; [|exact Hx]. destruct Ef as (Hx1 & Hline & _ & Hy).
  assert (Hd : (length (firstn (N.to_nat width) (skipn (N.to_nat start) buf)) / 4 <= length buf / 4)%nat)
    by (apply Nat.div_le_mono; [lia|rewrite firstn_length, skipn_length; lia]).
  rewrite firstn_length, skipn_length in Hline.
  set (buf1 := firstn (N.to_nat start) buf ++ line ++ skipn (N.to_nat width) (skipn (N.to_nat start) buf)) in *.
  assert (Hb1 : length buf1 = length buf).
  { unfold buf1. rewrite !app_length, firstn_length, !skipn_length, Hline. unfold len in *. lia. }
  destruct y as [[|]|e| | ]; try (injection H as <- <- <- <-; lia).
  apply IH in H; [|exact Hx1]. rewrite Hb1 in H. lia.
Qed.

Lemma read_into_scratch x c f buf x' c' b' r : Inv x ->
  conv_read_into_buffer umax St cb x c f buf = (x', c', b', r) ->
  (length (cv_buffer c') <= Nat.max (length (cv_buffer c)) (length buf / 4))%nat.
Proof.
  intros Hx H. unfold conv_read_into_buffer in H. destruct (f_interlaced f); [eapply read_rows_scratch; eassumption|].
  destruct (buffer_size umax c f) as [n|]; [|injection H as <- <- <- <-; lia].
  destruct (n <=? len buf); [|injection H as <- <- <- <-; lia]. cbn zeta in H.
  destruct (conv_fill_buffer St cb x c f (firstn (N.to_nat n) buf)) as [[[x1 c1] b] y] eqn:Ef.
  apply fill_loop_scratch in Ef; [|exact Hx].
  assert (length (firstn (N.to_nat n) buf) / 4 <= length buf / 4)%nat
    by (apply Nat.div_le_mono; [lia|rewrite firstn_length; lia]).
  destruct y as [[|]|e| | ]; injection H as <- <- <- <-; lia.
Qed.

Lemma read_frame_scratch x c f x' c' f' r n :
  u16_ok (f_width f) -> u16_ok (f_height f) -> cv_limit c = Some n -> Inv x ->
  conv_read_frame umax St cb x c f = (x', c', f', r) ->
  (length (cv_buffer c') <= Nat.max (length (cv_buffer c)) (N.to_nat (n / 4)))%nat /\
  (len (f_buffer f') <= N.max n (len (f_buffer f))).
Proof.
  intros Hw Hh Hl Hx H. unfold conv_read_frame in H.
  pose proof (check_buffer_size_ok umax c f Hw Hh) as Hc.
  destruct (check_buffer_size umax c f) as [m|e| | ]; try easy.
  2:{ injection H as <- <- <- <-. lia. }
  rewrite Hl in Hc. destruct Hc as [_ Hm]. cbn zeta in H.
  destruct (N.ltb_spec (umax / 2) m); [injection H as <- <- <- <-; cbn [f_buffer set_buffer]; change (len []) with 0; lia|].
  destruct (conv_read_into_buffer umax St cb x c (set_buffer f []) (grow (firstn (N.to_nat m) (f_buffer f)) (N.to_nat m)))
    as [[[x1 c1] b] y] eqn:Ef.
  assert (Hg : length (grow (firstn (N.to_nat m) (f_buffer f)) (N.to_nat m)) = N.to_nat m)
    by (apply grow_length; rewrite firstn_length; lia).
  assert (Hd : (N.to_nat m / 4 <= N.to_nat (n / 4))%nat)
    by (rewrite N2Nat.inj_div; apply Nat.div_le_mono; [lia|cbn; lia]).
  apply read_into_scratch in Ef as Hsc; [|exact Hx]. rewrite Hg in Hsc.
  apply (conv_read_into_buffer_ok umax _ _ Inv cb_ok) in Ef; [|exact Hw|exact Humax|unfold len; lia|exact Hx].
  destruct Ef as (_ & Hb & _). rewrite Hg in Hb.
  destruct y as [u|e| | ]; injection H as <- <- <- <-; (split; [lia|]); cbn [f_buffer set_interlaced set_buffer];
    try (change (len []) with 0; lia).
  unfold len at 1. lia.
Qed.
End Scratch.

(** ** The decoder *)
Lemma next_frame_info_loop_conv fuel : forall d d' x, next_frame_info_loop L fuel d = (d', x) ->
  dc_conv L d' = dc_conv L d.
Proof.
  induction fuel as [|fuel IH]; intros d d' x H; cbn [next_frame_info_loop] in H.
  { injection H as <- <-. reflexivity. }
  destruct (decode_next L (dc_rd L d) ONone) as [[r ob] y].
  destruct y as [[ev|]|e| | ]; try (injection H as <- <-; reflexivity).
  destruct ev; try (apply IH in H; exact H).
  destruct (sd_current L (rd_dec L r)) as [f|]; [|injection H as <- <-; reflexivity].
  cbn [frame_take] in H.
  destruct (f_palette f); [|destruct (cv_gpal _)]; injection H as <- <-; reflexivity.
Qed.

Lemma init_loop_fresh fuel : forall d d', init_loop L fuel d = Ok d' ->
  cv_buffer (dc_conv L d') = cv_buffer (dc_conv L d) /\ dc_cur L d' = dc_cur L d.
Proof.
  induction fuel as [|fuel IH]; intros d d' H; [discriminate H|]. cbn [init_loop] in H.
  destruct (decode_next L (dc_rd L d) ONone) as [[r ob] x].
  destruct x as [[ev|]|e| | ]; try discriminate H.
  destruct ev; try (apply IH in H; exact H).
  injection H as <-. unfold fix_bg. destruct (cv_gpal _); [destruct (_ <=? _)|]; split; reflexivity.
Qed.

Section Dec.
Variable src : list revent.
Variable o : options.
Variable n B : N.
Hypothesis Hs : src_ok src.
Hypothesis Ha : limit_ok umax (o_limit o).
Hypothesis Hl : o_limit o = Some n.

Lemma mem_small_hist r : hist L src o r -> mem_small n (rd_dec L r).
Proof.
  apply (hist_inv L safe (mem_small n)).
  - intros s buf ob s' ob' r0 A C D. eapply mem_small_step; eassumption.
  - exact Hs.
  - apply mem_small_new.
  - intros s f k (A & C & D & E) Hst Hc. split; [exact A|]. split; [|split; [exact D|exact E]].
    unfold cur_small in *. sdcbn. cbn. split; [reflexivity|]. destruct Hst as [G|G]; rewrite G; exact I.
Qed.

Definition own_small (d : dcd) : Prop :=
  (length (cv_buffer (dc_conv L d)) <= N.to_nat (N.max n B / 4))%nat /\ len (f_buffer (dc_cur L d)) <= N.max n 1.

Lemma quarter_B buf : len buf <= B -> (length buf / 4 <= N.to_nat (N.max n B / 4))%nat.
Proof.
  intros H. rewrite N2Nat.inj_div. apply Nat.div_le_mono; [lia|]. unfold len in H. lia.
Qed.
Lemma quarter_n : (N.to_nat (n / 4) <= N.to_nat (N.max n B / 4))%nat.
Proof. assert (n / 4 <= N.max n B / 4) by (apply N.div_le_mono; lia). lia. Qed.

Lemma next_frame_info_small d d' x : opened L umax src o d -> own_small d -> next_frame_info L d = (d', x) -> own_small d'.
Proof.
  intros Hd [A C] H. destruct (opened_good L umax safe Humax src o Hs d Ha Hd) as (_ & _ & Hh).
  unfold next_frame_info in H. split; [now rewrite (next_frame_info_loop_conv _ _ _ _ H)|].
  destruct (next_frame_info_loop_cur L src o _ _ _ _ Hh H) as [[-> _]|(r & ob & r' & ob' & t & C1 & C2 & C3 & _)]; [exact C|].
  destruct (mem_small_hist r' (h_next _ _ _ _ _ _ _ _ C1 C2)) as (_ & G & _). unfold cur_small in G. rewrite C3 in G.
  destruct G as [-> _]. change (len []) with 0. lia.
Qed.

Lemma run_dop_small d op d' y : opened L umax src o d -> own_small d -> op_ok umax op -> buf_within B op ->
  run_dop L umax d op = (d', y) -> own_small d'.
Proof.
  intros Hd Hu Hop HB H. destruct (opened_good L umax safe Humax src o Hs d Ha Hd) as (Hg & Ho & Hh).
  pose (J := fun r => rd_good L r /\ sd_opts L (rd_dec L r) = o).
  assert (HJ : forall r s r' ob' x, J r -> decode_next_bytes L r (OSlice s) = (r', ob', x) ->
    J r' /\ (exists s', ob' = OSlice s' /\ length s' = length s) /\
    match x with Ok n => (n <= length s)%nat | Err _ => True | Panic | Hang => False end).
  { intros. eapply decode_next_bytes_ok; eassumption. }
  assert (Jd : J (dc_rd L d)) by (split; [apply Hg|exact Ho]).
  destruct op as [ | |buf|buf]; cbn [run_dop] in H; cbn [buf_within] in HB.
  - destruct (next_frame_info L d) as [d1 x] eqn:E. injection H as <- <-. eapply next_frame_info_small; eassumption.
  - destruct (read_next_frame L umax d) as [d1 x] eqn:E. injection H as <- <-.
    unfold read_next_frame in E. destruct (next_frame_info L d) as [d2 z] eqn:En.
    destruct (next_frame_info_returns L safe umax Humax d d2 z Hg En) as (Hz & Hg2 & [Ho2 _] & _).
    pose proof (next_frame_info_small _ _ _ Hd Hu En) as [Hu1 Hu2].
    destruct z as [[|]|e| | ]; try (injection E as <- <-; split; assumption).
    pose proof Hg2 as (Hr2 & Hf2 & Hl2 & _). pose proof Hf2 as (_ & _ & _ & _ & Hw & Hhh & _).
    assert (J2 : J (dc_rd L d2)) by (split; [exact Hr2|unfold dopts in *; congruence]).
    destruct (dc_ty L d2).
    + destruct (conv_read_frame umax (Reader.rd L) (decode_next_bytes L) (dc_rd L d2) (dc_conv L d2) (dc_cur L d2))
        as [[[r c] f] z] eqn:Ec.
      apply (read_frame_scratch _ _ J HJ _ _ _ _ _ _ _ n) in Ec;
        [|exact Hw|exact Hhh|destruct J2 as [_ J2]; rewrite Hl2, J2; exact Hl|exact J2].
      destruct Ec as [Ec1 Ec2]. pose proof quarter_n.
      assert (G : own_small (set_cur L (set_conv L (set_rd L d2 r) c) f FPixels)).
      { split; cbn [dc_conv dc_cur set_cur set_conv set_rd]; [lia|lia]. }
      destruct z; injection E as <- <-; exact G.
    + destruct (copy_lzw_into_buffer L (dc_rd L d2) _ _) as [[r v] w] eqn:Ec.
      unfold copy_lzw_into_buffer in Ec.
      apply (copy_lzw_limit L umax safe Humax n) in Ec; [|exact Hr2|destruct J2 as [_ J2]; rewrite J2; exact Hl].
      cbn [app] in Ec. unfold len at 2 in Ec. cbn [length] in Ec.
      destruct w; injection E as <- <-; (split; cbn [dc_conv dc_cur set_cur set_conv set_rd f_buffer set_buffer]; [exact Hu1|]);
        try exact Ec; change (len []) with 0; lia.
  - destruct (read_into_buffer L umax d buf) as [[d1 b] x] eqn:E. injection H as <- <-.
    unfold read_into_buffer in E.
    destruct (conv_read_into_buffer umax (Reader.rd L) (decode_next_bytes L) (dc_rd L d) (dc_conv L d) (dc_cur L d) buf)
      as [[[r c] b1] z] eqn:Ec.
    apply (read_into_scratch _ _ J HJ) in Ec; [|exact Jd]. pose proof (quarter_B buf HB). destruct Hu as [Hu1 Hu2].
    injection E as <- <- <-. split; cbn [dc_conv dc_cur set_cur set_conv set_rd]; [lia|exact Hu2].
  - destruct (fill_buffer L d buf) as [[d1 b] x] eqn:E. injection H as <- <-.
    unfold fill_buffer in E.
    destruct (conv_fill_buffer (Reader.rd L) (decode_next_bytes L) (dc_rd L d) (dc_conv L d) (dc_cur L d) buf)
      as [[[r c] b1] z] eqn:Ec.
    apply (fill_loop_scratch _ _ J HJ) in Ec; [|exact Jd]. pose proof (quarter_B buf HB). destruct Hu as [Hu1 Hu2].
    injection E as <- <- <-. split; cbn [dc_conv dc_cur set_cur set_conv set_rd]; [lia|exact Hu2].
Qed.

Lemma used_small d : used_with L umax B src o d -> own_small d.
Proof.
  induction 1 as [d Hi|d op d' y Hd IH Hop HB E|d Hd IH].
  - unfold read_info in Hi. apply init_loop_fresh in Hi. destruct Hi as [E1 E2]. unfold own_small. rewrite E1, E2. cbn. lia.
  - eapply run_dop_small; try eassumption. eapply used_opened; eassumption.
  - destruct IH as [A C]. split; [exact A|]. cbn. lia.
Qed.

Lemma pal_size_max k : pal_size k -> (k <= 768)%nat.
Proof.
  intros (j & Hj & ->). change 768%nat with (3 * 2 ^ 8)%nat. apply Nat.mul_le_mono_l. apply Nat.pow_le_mono_r; lia.
Qed.

Theorem held_bound d : used_with L umax B src o d -> held L d <= 3080 + 2 * N.max n 1 + N.max n B / 4.
Proof.
  intros Hd. pose proof (used_opened L umax _ _ _ _ Hd) as Hop.
  destruct (opened_good L umax safe Humax src o Hs d Ha Hop) as (Hg & Ho & Hh).
  destruct (used_small d Hd) as [A C].
  destruct (palette_sizes L umax safe Humax src o Hs Ha d Hop) as [P1 P2].
  pose proof Hg as ((Hw & _) & _). destruct Hw as [Hw _].
  unfold dopts in Ho.
  assert (G : held_stream L (rd_dec L (dc_rd L d)) <= 8 + 768 + 768 + N.max n 1).
  { apply mem_small_held; [apply mem_small_hist, Hh|exact Hw|rewrite Ho; exact Hl]. }
  unfold held.
  assert (Q1 : opt_len (f_palette (dc_cur L d)) <= 768).
  { unfold opt_len, len. destruct (f_palette (dc_cur L d)); [apply pal_size_max in P1|]; lia. }
  assert (Q2 : opt_len (cv_gpal (dc_conv L d)) <= 768).
  { unfold dec_global_palette in P2. unfold opt_len, len. destruct (cv_gpal (dc_conv L d)); [apply pal_size_max in P2|]; lia. }
  unfold len at 1. lia.
Qed.
End Dec.

End MH.
