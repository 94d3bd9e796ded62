(** Stricter decoding options only refuse; they never change what is read. *)
From Verif Require Import Base Common Lzw Encoder Stream Converter Reader SpecGif DocAll SpecOptions.
Open Scope N_scope.

Section RX.
Variable L : lzw_codec.
Variable umax : N.
Variable o o' : options.
Hypothesis Hp : permits o o'.
Notation sd := (sd L).
Notation rd := (rd L).
Notation dcd := (dcd L).

Definition calm {A} (x : dres A) : Prop := match x with Err e => ~ refusal o o' e | _ => True end.

Definition lr_relax (r : lzw_reader L) : lzw_reader L :=
  mk_lr L (lr_decoder L r) (lr_min_code_size L r) (o_check_for_end_code o').
Definition relax (s : sd) : sd :=
  mk_sd L (sd_state L s) (sd_ibuf L s) (lr_relax (sd_lzw L s)) o' (sd_version L s) (sd_width L s) (sd_height L s)
    (sd_gct L s) (sd_gct_cap L s) (sd_ext_id L s) (sd_ext_data L s) (sd_ext_end L s)
    (sd_current L s) (sd_pal_cap L s) (sd_header_end L s).
Definition under (s : sd) : Prop := sd_opts L s = o /\ lr_check L (sd_lzw L s) = o_check_for_end_code o.

Lemma check_size_relax n : check_size (o_limit o) n = true -> check_size (o_limit o') n = true.
Proof.
  destruct Hp as (_ & _ & Hl & _). unfold limit_le in Hl. unfold check_size. destruct (o_limit o') as [m|]; [|reflexivity].
  destruct Hl as (k & -> & Hk). intros H. apply N.leb_le in H. apply N.leb_le. lia.
Qed.
Lemma check_size_same n : ~ refusal o o' (DFormat MemoryLimitReached) -> check_size (o_limit o') n = check_size (o_limit o) n.
Proof.
  intros H. assert (E : o_limit o = o_limit o'); [|now rewrite E].
  assert (D : o_limit o = o_limit o' \/ o_limit o <> o_limit o') by (repeat decide equality).
  destruct D as [D|D]; [exact D|]. exfalso. apply H. now constructor.
Qed.

Lemma lr_decode_relax r data ob r1 ob1 x : lr_check L r = o_check_for_end_code o ->
  lr_decode_bytes L r data ob = (r1, ob1, x) -> calm x ->
  lr_check L r1 = o_check_for_end_code o /\ lr_decode_bytes L (lr_relax r) data ob = (lr_relax r1, ob1, x).
Proof.
  intros Hc H Hx. unfold lr_decode_bytes in *. destruct r as [dec m chk]. cbn [lr_relax lr_decoder lr_min_code_size lr_check] in *.
  destruct dec as [d|]; [|injection H as <- <- <-; auto].
  destruct ob as [s|v|].
  2: injection H as <- <- <-; auto.
  all: destruct (lz_decode L d data _) as [d' [[n w] st]].
  all: destruct st; try (injection H as <- <- <-; split; [exact Hc|reflexivity]).
  all: destruct Hp as (_ & _ & _ & _ & He & _).
  all: destruct chk; injection H as <- <- <-; (split; [exact Hc|]).
  all: unfold lr_relax; cbn [lr_decoder lr_min_code_size].
  all: destruct (o_check_for_end_code o') eqn:E; try reflexivity.
  all: try (exfalso; apply Hx; constructor; congruence).
  all: rewrite He in Hc by reflexivity; discriminate.
Qed.
Lemma lr_reset_relax r m : lr_reset L (lr_relax r) m = (lr_relax (fst (lr_reset L r m)), snd (lr_reset L r m)).
Proof.
  unfold lr_reset, lr_relax. destruct r as [dec m0 chk]. cbn [lr_decoder lr_min_code_size].
  destruct (check_code_size m); [|reflexivity]. destruct dec; [|reflexivity]. destruct (negb _); reflexivity.
Qed.
Lemma lr_reset_check r m : lr_check L (fst (lr_reset L r m)) = lr_check L r.
Proof. unfold lr_reset. destruct (check_code_size m); [|reflexivity]. destruct (lr_decoder L r); [|reflexivity]. destruct (negb _); reflexivity. Qed.

Ltac sdc := cbn [relax under set_state set_ibuf set_lzw set_version set_screen set_gct set_ext set_current set_header_end
  sd_state sd_ibuf sd_lzw sd_opts sd_version sd_width sd_height sd_gct sd_gct_cap sd_ext_id sd_ext_data sd_ext_end sd_current
  sd_pal_cap sd_header_end] in *.

Lemma ensure_relax s buf n : ensure_min L (relax s) buf n =
  match ensure_min L s buf n with GotPanic _ => GotPanic L | GotMore _ s1 k => GotMore L (relax s1) k | GotAll _ s1 k d => GotAll L (relax s1) k d end.
Proof.
  unfold ensure_min. change (sd_ibuf L (relax s)) with (sd_ibuf L s). destruct (_ && _); [reflexivity|].
  destruct (_ <? _)%nat; [|reflexivity]. destruct (9 <? _)%nat; [reflexivity|]. destruct (_ <? _)%nat; reflexivity.
Qed.
Lemma ensure_under s buf n : under s ->
  match ensure_min L s buf n with GotPanic _ => True | GotMore _ s1 _ => under s1 | GotAll _ s1 _ _ => under s1 end.
Proof.
  intros H. unfold ensure_min. destruct (_ && _); [exact H|].
  destruct (_ <? _)%nat; [|exact H]. destruct (9 <? _)%nat; [exact I|]. destruct (_ <? _)%nat; exact H.
Qed.

Ltac done := match goal with H : _ = (_, _, _) |- _ => injection H as <- <- <- end; split; [assumption|reflexivity].

Lemma next_state_relax s buf ob s1 ob1 r : under s -> next_state L s buf ob = (s1, ob1, r) -> calm r ->
  under s1 /\ next_state L (relax s) buf ob = (relax s1, ob1, r).
Proof.
  intros Hu H Hr. unfold next_state in *. destruct buf as [|b bs]; [done|]. set (buf := b :: bs) in *. clearbody buf.
  change (sd_state L (relax s)) with (sd_state L s). destruct (sd_state L s) as [ | | |lft|t| | |lft| |lft|m|lft|lft| | ].
  - rewrite ensure_relax. pose proof (ensure_under s buf 6 Hu) as He. destruct (ensure_min L s buf 6) as [|s2 n|s2 n v]; [done|done|].
    destruct (list_eqb v GIF87a); [done|]. destruct (list_eqb v GIF89a); done.
  - rewrite ensure_relax. pose proof (ensure_under s buf 7 Hu) as He. destruct (ensure_min L s buf 7) as [|s2 n|s2 n v]; [done|done|].
    destruct (negb _); done.
  - rewrite ensure_relax. pose proof (ensure_under s buf 9 Hu) as He. destruct (ensure_min L s buf 9) as [|s2 n|s2 n h]; [done|done|].
    change (sd_current L (relax s2)) with (sd_current L s2). destruct (sd_current L s2) as [f|]; [|done].
    sdc. destruct He as [He1 He2]. rewrite He1 in H. destruct Hp as (_ & _ & _ & Hc & _).
    destruct (o_check_frame_consistency o) eqn:Eo; cbn [andb] in H.
    + destruct (out_of_bounds _ _ _ || out_of_bounds _ _ _) eqn:Eb.
      * injection H as <- <- <-. destruct (o_check_frame_consistency o') eqn:Eo'; [split; [split; assumption|reflexivity]|].
        exfalso. apply Hr. constructor. congruence.
      * rewrite Bool.andb_false_r. destruct (negb _); [|injection H as <- <- <-; split; [split; assumption|reflexivity]].
        destruct (match f_palette _ with Some _ => _ | None => _ end) as [pal cap]. injection H as <- <- <-. split; [split; assumption|reflexivity].
    + destruct (o_check_frame_consistency o') eqn:Eo'; [discriminate (Hc eq_refl)|]. cbn [andb].
      destruct (negb _); [|injection H as <- <- <-; split; [split; assumption|reflexivity]].
      destruct (match f_palette _ with Some _ => _ | None => _ end) as [pal cap]. injection H as <- <- <-. split; [split; assumption|reflexivity].
  - destruct (0 <? lft)%nat; [|done]. sdc. destruct (_ <=? _)%nat; done.
  - sdc. destruct (_ && _); [done|]. destruct (block_from_u8 t) as [[]|]; try done.
    + unfold add_frame in *. sdc. destruct (sd_current L s); done.
    + destruct (extension_from_u8 b); done.
    + destruct Hu as [Hu1 Hu2]. rewrite Hu1 in H. destruct Hp as (_ & _ & _ & _ & _ & Ha).
      destruct (o_allow_unknown_blocks o) eqn:E1.
      * rewrite Ha by reflexivity. injection H as <- <- <-. split; [split; assumption|reflexivity].
      * injection H as <- <- <-. destruct (o_allow_unknown_blocks o') eqn:E2; [|split; [split; assumption|reflexivity]].
        exfalso. apply Hr. constructor. congruence.
  - destruct (b =? _); done.
  - done.
  - sdc. destruct (0 <? lft)%nat.
    + pose proof Hu as [Hu1 Hu2]. rewrite Hu1 in H. destruct (check_size (o_limit o) _) eqn:E.
      * apply check_size_relax in E. rewrite E. done.
      * injection H as <- <- <-. rewrite check_size_same by exact Hr. rewrite E. auto.
    + destruct (b =? 0); [|done]. destruct (extension_from_u8 _) as [[]|]; try done.
      unfold read_control_extension in *. sdc. destruct (negb _); done.
  - sdc. destruct (negb _); [done|]. destruct (is_netscape _); done.
  - sdc. destruct (0 <? lft)%nat; [|done]. destruct (sd_current L s) as [f|]; [|done].
    destruct (f_palette f) as [p|]; [|done]. destruct (_ <=? _)%nat; done.
  - sdc. pose proof Hu as [Hu1 Hu2]. rewrite Hu1 in H. destruct Hp as (_ & Hs & _). rewrite Hs.
    destruct (negb _); [|destruct (check_code_size m); done].
    rewrite lr_reset_relax. pose proof (lr_reset_check (sd_lzw L s) m) as Hq.
    destruct (lr_reset L (sd_lzw L s) m) as [r0 x]. cbn [fst snd] in *.
    destruct x; injection H as <- <- <-; (split; [split; [assumption|sdc; congruence]|reflexivity]).
  - sdc. pose proof Hu as [Hu1 Hu2]. rewrite Hu1 in H. pose proof Hp as (_ & Hs & _). rewrite Hs.
    destruct (o_skip_frame_decoding o); [done|].
    destruct (0 <? lft)%nat.
    + change (lr_has_ended L (lr_relax (sd_lzw L s))) with (lr_has_ended L (sd_lzw L s)).
      destruct (_ || _); [done|].
      destruct (lr_decode_bytes L (sd_lzw L s) _ ob) as [[r1 ob2] x] eqn:E.
      assert (Hx : calm x) by (destruct x as [[? ?]|e| |]; try exact I; injection H as <- <- <-; exact Hr).
      destruct (lr_decode_relax _ _ _ _ _ _ Hu2 E Hx) as [Hc E']. rewrite E'. clear E E'.
      destruct x as [[n k]|e| |]; try (injection H as <- <- <-; split; [split; assumption|reflexivity]).
      destruct (lft <? _)%nat; injection H as <- <- <-; (split; [split; assumption|reflexivity]).
    + destruct (negb _); [done|].
      destruct (lr_decode_bytes L (sd_lzw L s) _ ob) as [[r1 ob2] x] eqn:E.
      assert (Hx : calm x) by (destruct x as [[? ?]|e| |]; try exact I; injection H as <- <- <-; exact Hr).
      destruct (lr_decode_relax _ _ _ _ _ _ Hu2 E Hx) as [Hc E']. rewrite E'. clear E E'.
      destruct x as [[n k]|e| |]; try (injection H as <- <- <-; split; [split; assumption|reflexivity]).
      destruct (k =? 0)%nat; injection H as <- <- <-; (split; [split; assumption|reflexivity]).
  - sdc. pose proof Hu as [Hu1 Hu2]. rewrite Hu1 in H. pose proof Hp as (_ & Hs & _). rewrite Hs.
    destruct (negb _); [done|]. destruct (0 <? lft)%nat; [|destruct (negb _); done].
    unfold obuf_append in *. destruct ob as [sl|v|].
    + destruct (lft <? _)%nat; done.
    + destruct (check_size (o_limit o) _) eqn:E.
      * apply check_size_relax in E. rewrite E. destruct (lft <? _)%nat; done.
      * injection H as <- <- <-. rewrite check_size_same by exact Hr. rewrite E. auto.
    + destruct (lft <? _)%nat; done.
  - sdc. destruct (negb _); done.
  - done.
Qed.

Lemma update_loop_relax fuel : forall s buf ob total s1 ob1 r, under s -> update_loop L fuel s buf ob total = (s1, ob1, r) -> calm r ->
  under s1 /\ update_loop L fuel (relax s) buf ob total = (relax s1, ob1, r).
Proof.
  induction fuel as [|fuel IH]; intros s buf ob total s1 ob1 r Hu H Hr.
  - cbn [update_loop] in *. destruct buf; done.
  - cbn [update_loop] in *. destruct buf as [|b bs]; [done|]. destruct (next_state L s (b :: bs) ob) as [[s2 ob2] x] eqn:E.
    assert (Hx : calm x) by (destruct x as [[? ?]|e| |]; try exact I; injection H as <- <- <-; exact Hr).
    destruct (next_state_relax _ _ _ _ _ _ Hu E Hx) as [Hu2 E']. rewrite E'.
    destruct x as [[n d]|e| |]; try done. destruct d; try done. exact (IH _ _ _ _ _ _ _ Hu2 H Hr).
Qed.
Lemma update_relax s buf ob s1 ob1 r : under s -> update L s buf ob = (s1, ob1, r) -> calm r ->
  under s1 /\ update L (relax s) buf ob = (relax s1, ob1, r).
Proof. apply update_loop_relax. Qed.

(** ** The reader *)
Definition rrelax (r : rd) : rd := mk_rd L (rd_buf L r) (rd_src L r) (relax (rd_dec L r)) (rd_eof L r).
Definition runder (r : rd) : Prop := under (rd_dec L r).

Lemma decode_next_loop_relax fuel : forall r ob r1 ob1 x, runder r -> decode_next_loop L fuel r ob = (r1, ob1, x) -> calm x ->
  runder r1 /\ decode_next_loop L fuel (rrelax r) ob = (rrelax r1, ob1, x).
Proof.
  induction fuel as [|fuel IH]; intros r ob r1 ob1 x Hu H Hx; cbn [decode_next_loop] in *;
    change (rd_eof L (rrelax r)) with (rd_eof L r); (destruct (rd_eof L r); [done|]); [done|].
  assert (Ef : fill_buf L (rrelax r) = (rrelax (fst (fill_buf L r)), snd (fill_buf L r)) /\ runder (fst (fill_buf L r))).
  { unfold fill_buf, rrelax, runder in *. destruct r as [buf src dec eof]. cbn [rd_buf rd_src rd_dec rd_eof] in *.
    destruct buf; [destruct src as [|[]]|]; split; try reflexivity; exact Hu. }
  destruct Ef as [Ef Hu2]. rewrite Ef. destruct (fill_buf L r) as [r2 e]. cbn [fst snd] in *.
  destruct e as [buf|k| |]; try done. destruct buf as [|b bs]; [done|].
  change (rd_dec L (rrelax r2)) with (relax (rd_dec L r2)).
  destruct (update L (rd_dec L r2) (b :: bs) ob) as [[d ob2] y] eqn:E.
  assert (Hy : calm y) by (destruct y as [[? ?]|e| |]; try exact I; injection H as <- <- <-; exact Hx).
  destruct (update_relax _ _ _ _ _ _ Hu2 E Hy) as [Hu3 E']. rewrite E'. clear E E'.
  destruct y as [[n ev]|e| |]; try done.
  destruct ev as [ | | | | |bk| | | | | | ]; try done; [exact (IH (mk_rd L _ _ _ _) _ _ _ _ Hu3 H Hx)|].
  destruct bk; try done. exact (IH (mk_rd L _ _ _ _) _ _ _ _ Hu3 H Hx).
Qed.
Lemma decode_next_relax r ob r1 ob1 x : runder r -> decode_next L r ob = (r1, ob1, x) -> calm x ->
  runder r1 /\ decode_next L (rrelax r) ob = (rrelax r1, ob1, x).
Proof. apply decode_next_loop_relax. Qed.
Lemma decode_next_bytes_relax r ob r1 ob1 x : runder r -> decode_next_bytes L r ob = (r1, ob1, x) -> calm x ->
  runder r1 /\ decode_next_bytes L (rrelax r) ob = (rrelax r1, ob1, x).
Proof.
  intros Hu H Hx. unfold decode_next_bytes in *. destruct (decode_next L r ob) as [[r2 ob2] y] eqn:E.
  assert (Hy : calm y) by (destruct y as [[[]|]|e| |]; try exact I; injection H as <- <- <-; exact Hx).
  destruct (decode_next_relax _ _ _ _ _ Hu E Hy) as [Hu2 E']. rewrite E'.
  destruct y as [[ev|]|e| |]; try done. destruct ev; done.
Qed.

(** ** Pixel conversion *)
Definition crelax (c : conv) : conv := mk_conv (o_limit o') (cv_color c) (cv_buffer c) (cv_gpal c).
Section CX.
Variable St : Type.
Variable cb : St -> obuf -> St * obuf * dres nat.
Variable g : St -> St.
Variable un : St -> Prop.
Hypothesis cb_g : forall x ob x' ob' r, un x -> cb x ob = (x', ob', r) -> calm r -> un x' /\ cb (g x) ob = (g x', ob', r).

Ltac cdone := match goal with H : _ = (_, _, _, _) |- _ => injection H as <- <- <- <- end; split; [first [assumption|reflexivity]|first [reflexivity|split; [assumption|reflexivity]]].
Ltac cdone3 := match goal with H : _ = (_, _, _, _) |- _ => injection H as <- <- <- <- end; split; [assumption|split; [first [assumption|reflexivity]|reflexivity]].

Lemma fill_loop_relax fuel : forall x c f done buf x' c' b r, un x -> fill_loop St cb fuel x c f done buf = (x', c', b, r) -> calm r ->
  un x' /\ cv_limit c' = cv_limit c /\ fill_loop St cb fuel (g x) (crelax c) f done buf = (g x', crelax c', b, r).
Proof.
  induction fuel as [|fuel IH]; intros x c f done buf x' c' b r Hu H Hr; cbn [fill_loop] in *; [cdone3|].
  change (cv_color (crelax c)) with (cv_color c). destruct (cv_color c) eqn:Ec.
  - destruct ((length buf / 4 =? 0)%nat); [cdone3|].
    change (cv_buffer (crelax c)) with (cv_buffer c).
    set (scratch := if (length (cv_buffer c) <? length buf / 4)%nat then _ else _) in *. clearbody scratch.
    destruct (cb x (OSlice (firstn (length buf / 4) scratch))) as [[x1 ob] y] eqn:E.
    assert (Hy : calm y) by (destruct y as [?|e| |]; try exact I; injection H as <- <- <- <-; exact Hr).
    destruct (cb_g _ _ _ _ _ Hu E Hy) as [Hu1 E']. rewrite E'.
    destruct y as [n|e| |]; try (injection H as <- <- <- <-; split; [exact Hu1|split; reflexivity]).
    destruct n as [|n]; [injection H as <- <- <- <-; split; [exact Hu1|split; reflexivity]|].
    destruct (_ <? _)%nat; [injection H as <- <- <- <-; split; [exact Hu1|split; reflexivity]|].
    destruct (is_nil _); [injection H as <- <- <- <-; split; [exact Hu1|split; reflexivity]|].
    exact (IH _ (with_cbuf c _) _ _ _ _ _ _ _ Hu1 H Hr).
  - destruct (cb x (OSlice buf)) as [[x1 ob] y] eqn:E.
    assert (Hy : calm y) by (destruct y as [?|e| |]; try exact I; injection H as <- <- <- <-; exact Hr).
    destruct (cb_g _ _ _ _ _ Hu E Hy) as [Hu1 E']. rewrite E'.
    destruct y as [n|e| |]; try (injection H as <- <- <- <-; split; [exact Hu1|split; reflexivity]).
    destruct n as [|n]; [injection H as <- <- <- <-; split; [exact Hu1|split; reflexivity]|].
    destruct (_ <? _)%nat; [injection H as <- <- <- <-; split; [exact Hu1|split; reflexivity]|].
    destruct (is_nil _); [injection H as <- <- <- <-; split; [exact Hu1|split; reflexivity]|].
    exact (IH _ c _ _ _ _ _ _ _ Hu1 H Hr).
Qed.
Lemma conv_fill_relax x c f buf x' c' b r : un x -> conv_fill_buffer St cb x c f buf = (x', c', b, r) -> calm r ->
  un x' /\ cv_limit c' = cv_limit c /\ conv_fill_buffer St cb (g x) (crelax c) f buf = (g x', crelax c', b, r).
Proof. apply fill_loop_relax. Qed.

(** The error for a missing end of the data is not a refusal. *)
Lemma truncated_calm {A} : @calm A (Err (DFormat ImageTruncated)).
Proof. intros H. inversion H. Qed.

Lemma read_rows_relax rows : forall x c f buf x' c' b r, un x -> read_rows umax St cb rows x c f buf = (x', c', b, r) -> calm r ->
  un x' /\ cv_limit c' = cv_limit c /\ read_rows umax St cb rows (g x) (crelax c) f buf = (g x', crelax c', b, r).
Proof.
  induction rows as [|row rows IH]; intros x c f buf x' c' b r Hu H Hr; cbn [read_rows] in *; [cdone3|].
  change (line_length (crelax c) f) with (line_length c f).
  destruct (umax <? _); [cdone3|]. destruct (_ && _); [|cdone3].
  destruct (conv_fill_buffer St cb x c f _) as [[[x1 c1] line] y] eqn:E.
  assert (Hy : calm y) by (destruct y as [?|e| |]; try exact I; injection H as <- <- <- <-; exact Hr).
  destruct (conv_fill_relax _ _ _ _ _ _ _ _ Hu E Hy) as (Hu1 & Hc & E'). rewrite E'.
  destruct y as [[|]|e| |]; try (injection H as <- <- <- <-; split; [exact Hu1|split; [exact Hc|reflexivity]]).
  destruct (IH _ _ _ _ _ _ _ _ Hu1 H Hr) as (J1 & J2 & J3). split; [exact J1|]. split; [congruence|exact J3].
Qed.
Lemma conv_into_relax x c f buf x' c' b r : un x -> conv_read_into_buffer umax St cb x c f buf = (x', c', b, r) -> calm r ->
  un x' /\ cv_limit c' = cv_limit c /\ conv_read_into_buffer umax St cb (g x) (crelax c) f buf = (g x', crelax c', b, r).
Proof.
  intros Hu H Hr. unfold conv_read_into_buffer in *. destruct (f_interlaced f); [exact (read_rows_relax _ _ _ _ _ _ _ _ _ Hu H Hr)|].
  change (buffer_size umax (crelax c) f) with (buffer_size umax c f).
  destruct (buffer_size umax c f) as [n|]; [|cdone3]. destruct (n <=? len buf); [|cdone3].
  destruct (conv_fill_buffer St cb x c f (firstn (N.to_nat n) buf)) as [[[x1 c1] line] y] eqn:E.
  assert (Hy : calm y) by (destruct y as [?|e| |]; try exact I; injection H as <- <- <- <-; exact Hr).
  destruct (conv_fill_relax _ _ _ _ _ _ _ _ Hu E Hy) as (Hu1 & Hc & E'). rewrite E'.
  destruct y as [[|]|e| |]; injection H as <- <- <- <-; (split; [exact Hu1|split; [exact Hc|reflexivity]]).
Qed.
Lemma check_buffer_relax c f : cv_limit c = o_limit o -> calm (check_buffer_size umax c f) ->
  check_buffer_size umax (crelax c) f = check_buffer_size umax c f.
Proof.
  intros Hc Hk. unfold check_buffer_size in *. cbn [crelax cv_limit cv_color].
  change (buffer_size umax (crelax c) f) with (buffer_size umax c f). rewrite Hc in *.
  assert (D : o_limit o = o_limit o' \/ o_limit o <> o_limit o') by (repeat decide equality).
  destruct D as [D|D]; [now rewrite <- D|].
  unfold limit_buffer_size in *. destruct (_ <=? umax); [|exfalso; apply Hk; now constructor].
  destruct (o_limit o) as [n|] eqn:E1; destruct (o_limit o') as [m|] eqn:E2; try reflexivity.
  - destruct (n <? _) eqn:En; [exfalso; apply Hk; constructor; congruence|].
    destruct Hp as (_ & _ & Hl & _). rewrite E1, E2 in Hl. destruct Hl as (k & [= <-] & Hl).
    destruct (m <? _) eqn:Em; [|reflexivity]. apply N.ltb_lt in Em. apply N.ltb_ge in En. lia.
  - destruct (n <? _) eqn:En; [exfalso; apply Hk; constructor; congruence|reflexivity].
  - destruct Hp as (_ & _ & Hl & _). rewrite E1, E2 in Hl. destruct Hl as (k & [=] & _).
Qed.
Lemma conv_frame_relax x c f x' c' f' r : un x -> cv_limit c = o_limit o -> conv_read_frame umax St cb x c f = (x', c', f', r) -> calm r ->
  un x' /\ cv_limit c' = cv_limit c /\ conv_read_frame umax St cb (g x) (crelax c) f = (g x', crelax c', f', r).
Proof.
  intros Hu Hl H Hr. unfold conv_read_frame in *.
  assert (Hk : calm (check_buffer_size umax c f)).
  { destruct (check_buffer_size umax c f); try exact I. injection H as <- <- <- <-. exact Hr. }
  rewrite (check_buffer_relax c f Hl Hk). destruct (check_buffer_size umax c f) as [n|e| |]; try cdone3.
  destruct (umax / 2 <? n); [cdone3|].
  destruct (conv_read_into_buffer umax St cb x c (set_buffer f []) _) as [[[x1 c1] b] y] eqn:E.
  assert (Hy : calm y) by (destruct y as [?|e| |]; try exact I; injection H as <- <- <- <-; exact Hr).
  destruct (conv_into_relax _ _ _ _ _ _ _ _ Hu E Hy) as (Hu1 & Hc & E'). rewrite E'.
  destruct y as [u|e| |]; injection H as <- <- <- <-; (split; [exact Hu1|split; [exact Hc|reflexivity]]).
Qed.
End CX.

(** ** The decoder *)
Definition drelax (d : dcd) : dcd :=
  mk_dcd L (rrelax (dc_rd L d)) (crelax (dc_conv L d)) (dc_bg L d) (dc_repeat L d) (dc_cur L d) (dc_ty L d).
Definition dunder (d : dcd) : Prop := runder (dc_rd L d) /\ cv_limit (dc_conv L d) = o_limit o.

Lemma fuel_relax r : ev_fuel L (rrelax r) = ev_fuel L r.
Proof. reflexivity. Qed.

Lemma init_loop_relax fuel : forall d, dunder d -> calm (init_loop L fuel d) ->
  init_loop L fuel (drelax d) = match init_loop L fuel d with Ok d' => Ok (drelax d') | Err e => Err e | Panic => Panic | Hang => Hang end /\
  match init_loop L fuel d with Ok d' => dunder d' | _ => True end.
Proof.
  induction fuel as [|fuel IH]; intros d Hu Hx; cbn [init_loop] in *; [auto|]. pose proof Hu as [Hu1 Hu2].
  change (dc_rd L (drelax d)) with (rrelax (dc_rd L d)).
  destruct (decode_next L (dc_rd L d) ONone) as [[r ob] y] eqn:E.
  assert (Hy : calm y) by (destruct y as [[[]|]|e| |]; try exact I; exact Hx).
  destruct (decode_next_relax _ _ _ _ _ Hu1 E Hy) as [Hu3 E']. rewrite E'. clear E E'.
  destruct y as [[ev|]|e| |]; auto.
  destruct ev; try exact (IH (set_rd L d r) (conj Hu3 Hu2) Hx).
  - exact (IH (set_conv L (set_rd L d r) (set_global_palette (dc_conv L (set_rd L d r)) p)) (conj Hu3 Hu2) Hx).
  - exact (IH (set_bg L (set_rd L d r) (Some c)) (conj Hu3 Hu2) Hx).
  - exact (IH (set_rep L (set_rd L d r) r0) (conj Hu3 Hu2) Hx).
  - unfold fix_bg. cbn [drelax set_rd dc_conv dc_bg crelax cv_gpal].
    destruct (cv_gpal (dc_conv L d)); [destruct (_ <=? _)|]; (split; [reflexivity|split; assumption]).
Qed.
Lemma with_no_init_relax src : drelax (with_no_init L src o) = with_no_init L src o'.
Proof.
  destruct Hp as (Hc & _). unfold with_no_init, drelax, rrelax, relax, crelax, sd_new, lr_relax, conv_new. sdc.
  cbn [dc_rd dc_conv dc_bg dc_repeat dc_cur dc_ty rd_buf rd_src rd_dec rd_eof lr_new lr_decoder lr_min_code_size cv_color cv_buffer cv_gpal].
  now rewrite Hc.
Qed.
Theorem read_info_relax src : calm (read_info L src o) ->
  read_info L src o' = match read_info L src o with Ok d => Ok (drelax d) | Err e => Err e | Panic => Panic | Hang => Hang end /\
  match read_info L src o with Ok d => dunder d | _ => True end.
Proof.
  intros H. unfold read_info in *. rewrite <- with_no_init_relax. apply init_loop_relax; [|exact H].
  split; [split; reflexivity|reflexivity].
Qed.

Lemma next_frame_info_loop_relax fuel : forall d d' x, dunder d -> next_frame_info_loop L fuel d = (d', x) -> calm x ->
  dunder d' /\ next_frame_info_loop L fuel (drelax d) = (drelax d', x).
Proof.
  induction fuel as [|fuel IH]; intros d d' x Hu H Hx; cbn [next_frame_info_loop] in *; [injection H as <- <-; auto|].
  pose proof Hu as [Hu1 Hu2]. change (dc_rd L (drelax d)) with (rrelax (dc_rd L d)).
  destruct (decode_next L (dc_rd L d) ONone) as [[r ob] y] eqn:E.
  assert (Hy : calm y) by (destruct y as [[[]|]|e| |]; try exact I; injection H as <- <-; exact Hx).
  destruct (decode_next_relax _ _ _ _ _ Hu1 E Hy) as [Hu3 E']. rewrite E'. clear E E'.
  destruct y as [[ev|]|e| |]; try (injection H as <- <-; split; [split; assumption|reflexivity]).
  destruct ev; try exact (IH (set_rd L d r) _ _ (conj Hu3 Hu2) H Hx).
  change (sd_current L (rd_dec L (rrelax r))) with (sd_current L (rd_dec L r)).
  destruct (sd_current L (rd_dec L r)) as [f|]; [|injection H as <- <-; split; [split; assumption|reflexivity]].
  destruct (frame_take f) as [taken leftover]. cbn [drelax set_rd set_cur dc_conv crelax cv_gpal] in *.
  destruct (f_palette taken); [injection H as <- <-; split; [split; assumption|reflexivity]|].
  destruct (cv_gpal (dc_conv L d)); injection H as <- <-; (split; [split; assumption|reflexivity]).
Qed.
Lemma next_frame_info_relax d d' x : dunder d -> next_frame_info L d = (d', x) -> calm x ->
  dunder d' /\ next_frame_info L (drelax d) = (drelax d', x).
Proof. apply next_frame_info_loop_relax. Qed.

Lemma copy_lzw_loop_relax fuel : forall r v r' v' x, runder r -> copy_lzw_loop L fuel r v = (r', v', x) -> calm x ->
  runder r' /\ copy_lzw_loop L fuel (rrelax r) v = (rrelax r', v', x).
Proof.
  induction fuel as [|fuel IH]; intros r v r' v' x Hu H Hx; cbn [copy_lzw_loop] in *; [done|].
  destruct (decode_next L r (OVec v)) as [[r1 ob] y] eqn:E.
  assert (Hy : calm y) by (destruct y as [[[]|]|e| |]; try exact I; injection H as <- <- <-; exact Hx).
  destruct (decode_next_relax _ _ _ _ _ Hu E Hy) as [Hu3 E']. rewrite E'. clear E E'.
  destruct y as [[ev|]|e| |]; try done. destruct ev; try done. exact (IH _ _ _ _ _ Hu3 H Hx).
Qed.

Lemma read_next_frame_relax d d' x : dunder d -> read_next_frame L umax d = (d', x) -> calm x ->
  dunder d' /\ read_next_frame L umax (drelax d) = (drelax d', x).
Proof.
  intros Hu H Hx. unfold read_next_frame in *. destruct (next_frame_info L d) as [d1 y] eqn:E.
  assert (Hy : calm y) by (destruct y as [?|e| |]; try exact I; injection H as <- <-; exact Hx).
  destruct (next_frame_info_relax _ _ _ Hu E Hy) as [Hu1 E']. rewrite E'. clear E E'.
  destruct y as [[|]|e| |]; try (injection H as <- <-; auto). destruct Hu1 as [Hr Hc].
  cbn [drelax dc_ty dc_rd dc_conv dc_cur]. destruct (dc_ty L d1) as [|m].
  - destruct (conv_read_frame umax rd (decode_next_bytes L) (dc_rd L d1) (dc_conv L d1) (dc_cur L d1)) as [[[r c] f] z] eqn:Ec.
    assert (Hz : calm z) by (destruct z as [?|e| |]; try exact I; injection H as <- <-; exact Hx).
    destruct (conv_frame_relax rd (decode_next_bytes L) rrelax runder decode_next_bytes_relax _ _ _ _ _ _ _ Hr Hc Ec Hz) as (J1 & J2 & J3).
    rewrite J3. destruct z as [u|e| |]; injection H as <- <-; (split; [split; [exact J1|sdc; cbn; congruence]|reflexivity]).
  - unfold copy_lzw_into_buffer in *. change (ev_fuel L (rrelax (dc_rd L d1))) with (ev_fuel L (dc_rd L d1)).
    destruct (copy_lzw_loop L (ev_fuel L (dc_rd L d1)) (dc_rd L d1) ([] ++ [m])) as [[r v] z] eqn:Ec.
    assert (Hz : calm z) by (destruct z as [?|e| |]; try exact I; injection H as <- <-; exact Hx).
    destruct (copy_lzw_loop_relax _ _ _ _ _ _ Hr Ec Hz) as [J1 J3].
    rewrite J3. destruct z as [u|e| |]; injection H as <- <-; (split; [split; [exact J1|exact Hc]|reflexivity]).
Qed.
Lemma read_into_buffer_relax d buf d' b x : dunder d -> read_into_buffer L umax d buf = (d', b, x) -> calm x ->
  dunder d' /\ read_into_buffer L umax (drelax d) buf = (drelax d', b, x).
Proof.
  intros [Hr Hc] H Hx. unfold read_into_buffer in *. cbn [drelax dc_rd dc_conv dc_cur].
  destruct (conv_read_into_buffer umax rd (decode_next_bytes L) (dc_rd L d) (dc_conv L d) (dc_cur L d) buf) as [[[r c] b1] y] eqn:E.
  injection H as <- <- <-.
  destruct (conv_into_relax rd (decode_next_bytes L) rrelax runder decode_next_bytes_relax _ _ _ _ _ _ _ _ Hr E Hx) as (J1 & J2 & J3).
  rewrite J3. split; [split; [exact J1|cbn; congruence]|reflexivity].
Qed.
Lemma fill_buffer_relax d buf d' b x : dunder d -> fill_buffer L d buf = (d', b, x) -> calm x ->
  dunder d' /\ fill_buffer L (drelax d) buf = (drelax d', b, x).
Proof.
  intros [Hr Hc] H Hx. unfold fill_buffer in *. cbn [drelax dc_rd dc_conv dc_cur].
  destruct (conv_fill_buffer rd (decode_next_bytes L) (dc_rd L d) (dc_conv L d) (dc_cur L d) buf) as [[[r c] b1] y] eqn:E.
  injection H as <- <- <-.
  destruct (conv_fill_relax rd (decode_next_bytes L) rrelax runder decode_next_bytes_relax _ _ _ _ _ _ _ _ Hr E Hx) as (J1 & J2 & J3).
  rewrite J3. split; [split; [exact J1|cbn; congruence]|reflexivity].
Qed.

Definition out_calm (y : dout) : Prop :=
  match y with OutBool x => calm x | OutInto _ x => calm x | OutFill _ x => calm x end.
Lemma run_dop_relax d op d' y : dunder d -> run_dop L umax d op = (d', y) -> out_calm y ->
  dunder d' /\ run_dop L umax (drelax d) op = (drelax d', y).
Proof.
  intros Hu. destruct op as [ | |buf|buf]; cbn [run_dop]; intros H Hy.
  - destruct (next_frame_info L d) as [d1 x] eqn:E. injection H as <- <-. destruct (next_frame_info_relax _ _ _ Hu E Hy) as [J ->]. auto.
  - destruct (read_next_frame L umax d) as [d1 x] eqn:E. injection H as <- <-. destruct (read_next_frame_relax _ _ _ Hu E Hy) as [J ->]. auto.
  - destruct (read_into_buffer L umax d buf) as [[d1 b] x] eqn:E. injection H as <- <-. destruct (read_into_buffer_relax _ _ _ _ _ Hu E Hy) as [J ->]. auto.
  - destruct (fill_buffer L d buf) as [[d1 b] x] eqn:E. injection H as <- <-. destruct (fill_buffer_relax _ _ _ _ _ Hu E Hy) as [J ->]. auto.
Qed.
Lemma run_dops_relax os : forall d d' ys, dunder d -> run_dops L umax d os = (d', ys) -> Forall out_calm ys ->
  dunder d' /\ run_dops L umax (drelax d) os = (drelax d', ys).
Proof.
  induction os as [|op os IH]; intros d d' ys Hu H Hy; cbn [run_dops] in *; [injection H as <- <-; auto|].
  destruct (run_dop L umax d op) as [d1 y] eqn:E. destruct (run_dops L umax d1 os) as [d2 ys2] eqn:E2. injection H as <- <-.
  apply Forall_cons_iff in Hy as [Y1 Y2]. destruct (run_dop_relax _ _ _ _ Hu E Y1) as [J1 ->].
  destruct (IH _ _ _ J1 E2 Y2) as [J2 ->]. auto.
Qed.

(** The iterator. *)
Definition item_calm (x : item) : Prop := match x with IErr e => ~ refusal o o' e | _ => True end.
Definition itrelax (it : iter L) : iter L := mk_iter L (drelax (it_dec L it)) (it_ended L it).
Lemma iter_next_relax it it' x : dunder (it_dec L it) -> iter_next L umax it = (it', x) -> item_calm x ->
  dunder (it_dec L it') /\ iter_next L umax (itrelax it) = (itrelax it', x).
Proof.
  intros Hu H Hx. unfold iter_next in *. cbn [itrelax it_ended it_dec]. destruct (it_ended L it); [injection H as <- <-; auto|].
  destruct (read_next_frame L umax (it_dec L it)) as [d y] eqn:E.
  assert (Hy : calm y) by (destruct y as [?|e| |]; try exact I; injection H as <- <-; exact Hx).
  destruct (read_next_frame_relax _ _ _ Hu E Hy) as [J ->].
  destruct y as [[|]|e| |]; try (injection H as <- <-; auto).
  change (dc_cur L (drelax d)) with (dc_cur L d). destruct (is_nil _); [injection H as <- <-; auto|].
  destruct (frame_take (dc_cur L d)) as [t l]. injection H as <- <-. split; [exact J|reflexivity].
Qed.
Lemma iter_all_relax n : forall it it' xs, dunder (it_dec L it) -> iter_all L umax n it = (it', xs) -> Forall item_calm xs ->
  dunder (it_dec L it') /\ iter_all L umax n (itrelax it) = (itrelax it', xs).
Proof.
  induction n as [|n IH]; intros it it' xs Hu H Hx; cbn [iter_all] in *; [injection H as <- <-; auto|].
  destruct (iter_next L umax it) as [it1 x] eqn:E. destruct (iter_all L umax n it1) as [it2 ys] eqn:E2. injection H as <- <-.
  apply Forall_cons_iff in Hx as [X1 X2]. destruct (iter_next_relax _ _ _ Hu E X1) as [J ->].
  destruct (IH _ _ _ J E2 X2) as [J2 ->]. auto.
Qed.

(** [FrameDecoder]. *)
Definition fdrelax (fd : fdec L) : fdec L := mk_fd L (lr_relax (fd_lzw L fd)) (crelax (fd_conv L fd)).
Definition fdunder (fd : fdec L) : Prop :=
  lr_check L (fd_lzw L fd) = o_check_for_end_code o /\ cv_limit (fd_conv L fd) = o_limit o.
Definition fxrelax (x : lzw_reader L * list N) := (lr_relax (fst x), snd x).
Definition fxunder (x : lzw_reader L * list N) := lr_check L (fst x) = o_check_for_end_code o.
Lemma fd_loop_relax fuel : forall x ob x' ob' r, fxunder x -> fd_loop L fuel x ob = (x', ob', r) -> calm r ->
  fxunder x' /\ fd_loop L fuel (fxrelax x) ob = (fxrelax x', ob', r).
Proof.
  induction fuel as [|fuel IH]; intros x ob x' ob' r Hu H Hr; cbn [fd_loop] in *; [done|].
  cbn [fxrelax fst snd] in *. destruct (lr_decode_bytes L (fst x) (snd x) ob) as [[r1 ob1] y] eqn:E.
  assert (Hy : calm y) by (destruct y as [[? ?]|e| |]; try exact I; injection H as <- <- <-; exact Hr).
  destruct (lr_decode_relax _ _ _ _ _ _ Hu E Hy) as [J ->].
  destruct y as [[n k]|e| |]; try (injection H as <- <- <-; split; [exact J|reflexivity]).
  destruct (_ || _); [injection H as <- <- <-; split; [exact J|reflexivity]|]. exact (IH (r1, _) _ _ _ _ J H Hr).
Qed.
Lemma fd_into_relax fd f buf fd' b r : fdunder fd -> decode_lzw_encoded_frame_into_buffer L umax fd f buf = (fd', b, r) -> calm r ->
  fdunder fd' /\ decode_lzw_encoded_frame_into_buffer L umax (fdrelax fd) f buf = (fdrelax fd', b, r).
Proof.
  intros [Hu Hl] H Hr. unfold decode_lzw_encoded_frame_into_buffer in *. cbn [fdrelax fd_lzw fd_conv].
  destruct (match f_buffer f with [] => _ | _ => _ end) as [m data].
  rewrite lr_reset_relax. pose proof (lr_reset_check (fd_lzw L fd) m) as Hq.
  destruct (lr_reset L (fd_lzw L fd) m) as [r0 x]. cbn [fst snd] in *.
  destruct x as [u|e| |]; try (injection H as <- <- <-; split; [split; cbn; congruence|reflexivity]).
  destruct (conv_read_into_buffer umax _ (fd_callback L) (r0, data) (fd_conv L fd) f buf) as [[[[r1 d1] c] b1] y] eqn:E.
  injection H as <- <- <-. change (lr_relax r0, data) with (fxrelax (r0, data)).
  destruct (conv_into_relax _ (fd_callback L) fxrelax fxunder (fun x ob x' ob' r => fd_loop_relax _ x ob x' ob' r) _ _ _ _ _ _ _ _
    (eq_trans Hq Hu : fxunder (r0, data)) E Hr) as (J1 & J2 & J3).
  rewrite J3. split; [split; [exact J1|cbn; congruence]|reflexivity].
Qed.
Lemma fd_frame_relax fd f fd' f' r : fdunder fd -> decode_lzw_encoded_frame L umax fd f = (fd', f', r) -> calm r ->
  fdunder fd' /\ decode_lzw_encoded_frame L umax (fdrelax fd) f = (fdrelax fd', f', r).
Proof.
  intros Hu H Hr. pose proof Hu as [_ Hl]. unfold decode_lzw_encoded_frame in *. cbn [fdrelax fd_conv].
  assert (Hk : calm (check_buffer_size umax (fd_conv L fd) f)).
  { destruct (check_buffer_size umax (fd_conv L fd) f); try exact I. injection H as <- <- <-. exact Hr. }
  rewrite (check_buffer_relax _ f Hl Hk). destruct (check_buffer_size umax (fd_conv L fd) f) as [n|e| |];
    try (injection H as <- <- <-; auto).
  destruct (umax / 2 <? n); [injection H as <- <- <-; auto|].
  destruct (decode_lzw_encoded_frame_into_buffer L umax fd f _) as [[fd1 b] y] eqn:E.
  assert (Hy : calm y) by (destruct y as [?|e| |]; try exact I; injection H as <- <- <-; exact Hr).
  change (mk_fd L (lr_relax (fd_lzw L fd)) (crelax (fd_conv L fd))) with (fdrelax fd).
  destruct (fd_into_relax _ _ _ _ _ _ Hu E Hy) as [J ->].
  destruct y as [u|e| |]; injection H as <- <- <-; auto.
Qed.

(** ** Theorems *)
(** Everything that a caller can see of a decoder. *)
Definition looks_like (d e : dcd) : Prop :=
  dc_cur L e = dc_cur L d /\ dec_palette L e = dec_palette L d /\ dec_global_palette L e = dec_global_palette L d /\
  dec_width L e = dec_width L d /\ dec_height L e = dec_height L d /\ dec_bg_color L e = dec_bg_color L d /\
  dec_repeat L e = dec_repeat L d /\ dec_buffer_size L umax e = dec_buffer_size L umax d /\
  dec_line_length L e = dec_line_length L d /\ dec_into_inner L e = dec_into_inner L d.
Lemma looks_relax d : looks_like d (drelax d).
Proof. repeat split. Qed.

Theorem relaxed_reads src d os d' ys : read_info L src o = Ok d -> run_dops L umax d os = (d', ys) -> Forall out_calm ys ->
  exists e e', read_info L src o' = Ok e /\ run_dops L umax e os = (e', ys) /\ looks_like d e /\ looks_like d' e'.
Proof.
  intros E H Hy. assert (Hc : calm (read_info L src o)) by (rewrite E; exact I).
  destruct (read_info_relax src Hc) as [E1 Hu]. rewrite E in E1, Hu.
  destruct (run_dops_relax _ _ _ _ Hu H Hy) as [_ E2].
  exists (drelax d), (drelax d'). split; [exact E1|]. split; [exact E2|]. split; apply looks_relax.
Qed.
Theorem relaxed_iterates src d n it' xs : read_info L src o = Ok d -> iter_all L umax n (mk_iter L d false) = (it', xs) ->
  Forall item_calm xs -> exists e jt', read_info L src o' = Ok e /\ iter_all L umax n (mk_iter L e false) = (jt', xs) /\
    looks_like d e /\ looks_like (it_dec L it') (it_dec L jt').
Proof.
  intros E H Hy. assert (Hc : calm (read_info L src o)) by (rewrite E; exact I).
  destruct (read_info_relax src Hc) as [E1 Hu]. rewrite E in E1, Hu.
  destruct (iter_all_relax _ (mk_iter L d false) _ _ Hu H Hy) as [_ E2].
  exists (drelax d), (itrelax it'). split; [exact E1|]. split; [exact E2|]. split; apply looks_relax.
Qed.
Theorem relaxed_refuses src e : read_info L src o = Err e -> ~ refusal o o' e -> read_info L src o' = Err e.
Proof.
  intros E H. assert (Hc : calm (read_info L src o)) by (rewrite E; exact H).
  destruct (read_info_relax src Hc) as [E1 _]. now rewrite E in E1.
Qed.
(** A sequence of frames given to one [FrameDecoder]. *)
Fixpoint fd_frames (fd : fdec L) (fs : list frame) : list (frame * dres unit) :=
  match fs with
  | [] => []
  | f :: fs' => let '(fd1, g, r) := decode_lzw_encoded_frame L umax fd f in (g, r) :: fd_frames fd1 fs'
  end.
Theorem relaxed_frames pal fs : Forall (fun y => calm (snd y)) (fd_frames (fd_set_global_palette L (fd_new L o) pal) fs) ->
  fd_frames (fd_set_global_palette L (fd_new L o') pal) fs = fd_frames (fd_set_global_palette L (fd_new L o) pal) fs.
Proof.
  assert (Hu : fdunder (fd_set_global_palette L (fd_new L o) pal)) by (split; reflexivity).
  assert (E : fd_set_global_palette L (fd_new L o') pal = fdrelax (fd_set_global_palette L (fd_new L o) pal)).
  { unfold fdrelax, fd_set_global_palette, fd_new, crelax, conv_new, set_global_palette. cbn [fd_lzw fd_conv cv_limit cv_color cv_buffer cv_gpal].
    destruct Hp as (Hc & _). now rewrite Hc. }
  rewrite E. clear E. revert Hu. generalize (fd_set_global_palette L (fd_new L o) pal) as fd.
  induction fs as [|f fs IH]; intros fd Hu Hf; [reflexivity|]. cbn [fd_frames] in *.
  destruct (decode_lzw_encoded_frame L umax fd f) as [[fd1 g] r] eqn:E. apply Forall_cons_iff in Hf as [F1 F2]. cbn [snd] in F1.
  destruct (fd_frame_relax _ _ _ _ _ Hu E F1) as [J ->]. f_equal. now apply IH.
Qed.
End RX.

(** ** Correct files read with stricter options *)
Section ST.
Variable L : lzw_codec.
Variable umax : N.
Variable o o' : options.
Hypothesis Hp : permits o o'.
Notation dcd := (dcd L).
Notation drelax := (drelax L o').
Notation dunder := (dunder L o).
Notation calm := (calm o o').

Lemma read_all_relax n : forall d d' fs x, dunder d -> read_all L umax n d = (d', fs, x) -> calm x ->
  read_all L umax n (drelax d) = (drelax d', fs, x).
Proof.
  induction n as [|n IH]; intros d d' fs x Hu H Hx; cbn [read_all] in *; [injection H as <- <- <-; reflexivity|].
  destruct (read_next_frame L umax d) as [d1 y] eqn:E.
  assert (Hy : calm y) by (destruct y as [?|e| |]; try exact I; injection H as <- <- <-; exact Hx).
  destruct (read_next_frame_relax L umax o o' Hp _ _ _ Hu E Hy) as [J ->].
  destruct y as [[|]|e| |]; try (injection H as <- <- <-; reflexivity).
  destruct (read_all L umax n d1) as [[d2 fs2] z] eqn:E2. injection H as <- <- <-. now rewrite (IH _ _ _ _ J E2 Hx).
Qed.
Lemma scan_all_relax n : forall d d' fs x, dunder d -> scan_all L n d = (d', fs, x) -> calm x ->
  scan_all L n (drelax d) = (drelax d', fs, x).
Proof.
  induction n as [|n IH]; intros d d' fs x Hu H Hx; cbn [scan_all] in *; [injection H as <- <- <-; reflexivity|].
  destruct (next_frame_info L d) as [d1 y] eqn:E.
  assert (Hy : calm y) by (destruct y as [?|e| |]; try exact I; injection H as <- <- <-; exact Hx).
  destruct (next_frame_info_relax L o o' Hp _ _ _ Hu E Hy) as [J ->].
  destruct y as [[|]|e| |]; try (injection H as <- <- <-; reflexivity).
  destruct (scan_all L n d1) as [[d2 fs2] z] eqn:E2. injection H as <- <- <-. now rewrite (IH _ _ _ _ J E2 Hx).
Qed.
(** After a refusal, what was read before it is kept. *)
Lemma read_all_relax_prefix n : forall d d' fs x, dunder d -> read_all L umax n d = (d', fs, x) ->
  exists d2 fs2 x2, read_all L umax n (drelax d) = (d2, fs ++ fs2, x2).
Proof.
  induction n as [|n IH]; intros d d' fs x Hu H; cbn [read_all] in *; [injection H as <- <- <-; exists (drelax d), [], (Ok true); reflexivity|].
  destruct (read_next_frame L umax d) as [d1 y] eqn:E.
  destruct y as [[|]|e| |]; try (injection H as <- <- <-; cbn [app]; destruct (read_next_frame L umax (drelax d)) as [d3 z];
    destruct z as [[|]|e2| |]; [destruct (read_all L umax n d3) as [[d4 l] z]|..]; eexists _, _, _; reflexivity).
  destruct (read_next_frame_relax L umax o o' Hp _ _ _ Hu E I) as [J ->].
  destruct (read_all L umax n d1) as [[d2 fs2] z] eqn:E2. injection H as <- <- <-.
  destruct (IH _ _ _ _ J E2) as (d3 & fs3 & x3 & ->). exists d3, fs3, x3. reflexivity.
Qed.
Lemma scan_all_relax_prefix n : forall d d' fs x, dunder d -> scan_all L n d = (d', fs, x) ->
  exists d2 fs2 x2, scan_all L n (drelax d) = (d2, fs ++ fs2, x2).
Proof.
  induction n as [|n IH]; intros d d' fs x Hu H; cbn [scan_all] in *; [injection H as <- <- <-; exists (drelax d), [], (Ok true); reflexivity|].
  destruct (next_frame_info L d) as [d1 y] eqn:E.
  destruct y as [[|]|e| |]; try (injection H as <- <- <-; cbn [app]; destruct (next_frame_info L (drelax d)) as [d3 z];
    destruct z as [[|]|e2| |]; [destruct (scan_all L n d3) as [[d4 l] z]|..]; eexists _, _, _; reflexivity).
  destruct (next_frame_info_relax L o o' Hp _ _ _ Hu E I) as [J ->].
  destruct (scan_all L n d1) as [[d2 fs2] z] eqn:E2. injection H as <- <- <-.
  destruct (IH _ _ _ _ J E2) as (d3 & fs3 & x3 & ->). exists d3, fs3, x3. reflexivity.
Qed.

Lemma refusal_dec e : refusal o o' e \/ ~ refusal o o' e.
Proof.
  assert (Db : forall a b : bool, a = b \/ a <> b) by (intros [] []; auto; right; discriminate).
  assert (Dl : o_limit o = o_limit o' \/ o_limit o <> o_limit o') by (repeat decide equality).
  destruct (Db (o_check_frame_consistency o) (o_check_frame_consistency o')) as [E1|E1];
  destruct (Db (o_check_for_end_code o) (o_check_for_end_code o')) as [E2|E2];
  destruct (Db (o_allow_unknown_blocks o) (o_allow_unknown_blocks o')) as [E3|E3];
  destruct Dl as [E4|E4];
  destruct e as [f|k]; try (destruct f); try (destruct k);
    try (left; constructor; assumption); right; intros H; inversion H; contradiction.
Qed.
Lemma calm_dec {A} (x : dres A) : calm x \/ exists e, x = Err e /\ refusal o o' e.
Proof. destruct x as [a|e| |]; try (left; exact I). destruct (refusal_dec e); [right; eauto|left; assumption]. Qed.

(** What [o'] reads completely, [o] reads up to a refusal. *)
Lemma strict_all src n e all e' : read_info L src o' = Ok e -> read_all L umax n e = (e', all, Ok false) ->
  (exists k, refusal o o' k /\ read_info L src o = Err k) \/
  exists d d' fs rest x, read_info L src o = Ok d /\ read_all L umax n d = (d', fs, x) /\ all = fs ++ rest /\
    (x = Ok false /\ rest = [] \/ exists k, x = Err k /\ refusal o o' k).
Proof.
  intros E H. destruct (calm_dec (read_info L src o)) as [Hc|(k & Ek & Hk)]; [|left; eauto]. right.
  destruct (read_info_relax L o o' Hp src Hc) as [E1 Hu]. rewrite E in E1.
  destruct (read_info L src o) as [d|k| |] eqn:Ed; try discriminate E1. injection E1 as ->.
  destruct (read_all L umax n d) as [[d' fs] x] eqn:Ea. exists d, d', fs. destruct (calm_dec x) as [Hx|(k & -> & Hk)].
  - pose proof (read_all_relax _ _ _ _ _ Hu Ea Hx) as E2. rewrite H in E2. injection E2 as _ -> <-.
    exists [], (Ok false). rewrite app_nil_r. auto 6.
  - destruct (read_all_relax_prefix _ _ _ _ _ Hu Ea) as (d3 & fs3 & x3 & E3). rewrite H in E3. injection E3 as _ -> _.
    exists fs3, (Err k). split; [reflexivity|]. split; [exact Ea|]. split; [reflexivity|]. right. eauto.
Qed.
Lemma strict_scan src n e all e' : read_info L src o' = Ok e -> scan_all L n e = (e', all, Ok false) ->
  (exists k, refusal o o' k /\ read_info L src o = Err k) \/
  exists d d' fs rest x, read_info L src o = Ok d /\ scan_all L n d = (d', fs, x) /\ all = fs ++ rest /\
    (x = Ok false /\ rest = [] \/ exists k, x = Err k /\ refusal o o' k).
Proof.
  intros E H. destruct (calm_dec (read_info L src o)) as [Hc|(k & Ek & Hk)]; [|left; eauto]. right.
  destruct (read_info_relax L o o' Hp src Hc) as [E1 Hu]. rewrite E in E1.
  destruct (read_info L src o) as [d|k| |] eqn:Ed; try discriminate E1. injection E1 as ->.
  destruct (scan_all L n d) as [[d' fs] x] eqn:Ea. exists d, d', fs. destruct (calm_dec x) as [Hx|(k & -> & Hk)].
  - pose proof (scan_all_relax _ _ _ _ _ Hu Ea Hx) as E2. rewrite H in E2. injection E2 as _ -> <-.
    exists [], (Ok false). rewrite app_nil_r. auto 6.
  - destruct (scan_all_relax_prefix _ _ _ _ _ Hu Ea) as (d3 & fs3 & x3 & E3). rewrite H in E3. injection E3 as _ -> _.
    exists fs3, (Err k). split; [reflexivity|]. split; [exact Ea|]. split; [reflexivity|]. right. eauto.
Qed.

Theorem strict_file_frames : forall (S : lzw_spec L), 2 ^ 32 - 1 <= umax ->
  forall g tl src outs n, gif_ok o' g -> delivers src (ser_gif g tl) ->
  o_skip_frame_decoding o' = false -> o_check_for_end_code o' = false ->
  Forall2 (holds L S umax o') (gif_images g) outs -> (length outs < n)%nat ->
  (exists k, refusal o o' k /\ read_info L src o = Err k) \/
  exists d d' fs rest x, read_info L src o = Ok d /\ read_all L umax n d = (d', fs, x) /\
    all_seen o' g (gif_images g) outs = fs ++ rest /\
    (x = Ok false /\ rest = [] \/ exists k, x = Err k /\ refusal o o' k).
Proof.
  intros S Hu g tl src outs n Hg Hd N1 N2 Ho Hn.
  destruct (file_frames L S umax Hu o' g tl src outs n Hg Hd N1 N2 Ho Hn) as (e & e' & E & F & _).
  exact (strict_all src n e _ e' E F).
Qed.
Theorem strict_file_scan : forall (S : lzw_spec L), 2 ^ 32 - 1 <= umax ->
  forall g tl src n, gif_ok o' g -> delivers src (ser_gif g tl) ->
  scannable o' -> (length (gif_images g) < n)%nat ->
  (exists k, refusal o o' k /\ read_info L src o = Err k) \/
  exists d d' fs rest x, read_info L src o = Ok d /\ scan_all L n d = (d', fs, x) /\
    map meta_seen (gif_images g) = fs ++ rest /\
    (x = Ok false /\ rest = [] \/ exists k, x = Err k /\ refusal o o' k).
Proof.
  intros S Hu g tl src n Hg Hd Ho Hn.
  destruct (file_scan L S umax Hu o' g tl src n Hg Hd Ho Hn) as (e & e' & E & F & _).
  exact (strict_scan src n e _ e' E F).
Qed.
End ST.

(** ** The end-code check alone *)
Section EC.
Variable L : lzw_codec.
Variable umax : N.
Variable o : options.
Hypothesis Hcheck : o_check_for_end_code o = true.
Definition no_end_check : options :=
  mk_opts (o_limit o) (o_color o) (o_check_frame_consistency o) (o_skip_frame_decoding o) false (o_allow_unknown_blocks o).
Lemma no_end_permits : permits o no_end_check.
Proof.
  unfold permits, no_end_check. cbn. split; [reflexivity|]. split; [reflexivity|]. split; [|auto].
  destruct (o_limit o) as [n|]; cbn; [exists n; split; [reflexivity|lia]|exact I].
Qed.
Lemma no_end_refusal e : refusal o no_end_check e -> e = DIo InvalidData.
Proof. intros H. inversion H; subst; try reflexivity; cbn in *; congruence. Qed.
Lemma no_end_unknown_ok bs : forall l n, unknown_ok o l n bs -> unknown_ok no_end_check l n bs.
Proof. induction bs as [|b bs IH]; intros l n; [exact (fun h => h)|]. destruct b; cbn [unknown_ok]; try apply IH. intros (A & B & C). auto. Qed.
Lemma no_end_gif_ok g : gif_ok o g -> gif_ok no_end_check g.
Proof.
  unfold gif_ok. intros (A1 & A2 & A3 & A4 & A5 & A6 & A7 & A8 & A9). do 7 (split; [assumption|]).
  split; [|apply no_end_unknown_ok, A9]. eapply Forall_impl; [|exact A8]. intros b Hb. destruct b; exact Hb.
Qed.
Theorem end_check_frames : forall (S : lzw_spec L), 2 ^ 32 - 1 <= umax ->
  forall g tl src outs n, gif_ok o g -> delivers src (ser_gif g tl) -> o_skip_frame_decoding o = false ->
  Forall2 (holds L S umax o) (gif_images g) outs -> (length outs < n)%nat ->
  exists d d' fs rest x, read_info L src o = Ok d /\ read_all L umax n d = (d', fs, x) /\
    all_seen o g (gif_images g) outs = fs ++ rest /\ (x = Ok false /\ rest = [] \/ x = Err (DIo InvalidData)).
Proof.
  intros S Hu g tl src outs n Hg Hd N1 Ho Hn.
  destruct (strict_file_frames L umax o no_end_check no_end_permits S Hu g tl src outs n (no_end_gif_ok g Hg) Hd N1 eq_refl Ho Hn) as [(k & _ & E)|H].
  - exfalso. destruct (file_info L S umax Hu o g tl src Hg Hd) as (d & E' & _). congruence.
  - destruct H as (d & d' & fs & rest & x & H1 & H2 & H3 & H4). exists d, d', fs, rest, x.
    split; [exact H1|]. split; [exact H2|]. split; [exact H3|].
    destruct H4 as [H4|(k & -> & Hk)]; [left; exact H4|right]. now rewrite (no_end_refusal k Hk).
Qed.
Theorem end_check_scan : forall (S : lzw_spec L), 2 ^ 32 - 1 <= umax ->
  forall g tl src n, gif_ok o g -> delivers src (ser_gif g tl) -> (length (gif_images g) < n)%nat ->
  exists d d' fs rest x, read_info L src o = Ok d /\ scan_all L n d = (d', fs, x) /\
    map meta_seen (gif_images g) = fs ++ rest /\ (x = Ok false /\ rest = [] \/ x = Err (DIo InvalidData)).
Proof.
  intros S Hu g tl src n Hg Hd Hn.
  assert (Ho' : scannable no_end_check) by (right; reflexivity).
  destruct (strict_file_scan L umax o no_end_check no_end_permits S Hu g tl src n (no_end_gif_ok g Hg) Hd Ho' Hn) as [(k & _ & E)|H].
  - exfalso. destruct (file_info L S umax Hu o g tl src Hg Hd) as (d & E' & _). congruence.
  - destruct H as (d & d' & fs & rest & x & H1 & H2 & H3 & H4). exists d, d', fs, rest, x.
    split; [exact H1|]. split; [exact H2|]. split; [exact H3|].
    destruct H4 as [H4|(k & -> & Hk)]; [left; exact H4|right]. now rewrite (no_end_refusal k Hk).
Qed.
End EC.
