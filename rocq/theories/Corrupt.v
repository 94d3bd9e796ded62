(** A frame whose image data contain an invalid LZW code, from the codec to [Decoder]. *)
From Verif Require Import Base Common Lzw LzwErrs Encoder Stream Converter Reader StreamInv Steps StepsRev
  ReaderInv Interlace Ranges ConvInv DecoderSafe Canon CanonReader SpecGif DocTrace DocBlocks SpecPixels Pixels PixelRead.
Open Scope N_scope.

(** ** The streaming decoder *)
Section CR.
Variable L : lzw_codec.
Variable S : lzw_spec L.
Variable Z : lzw_errs S.
Notation safe := (lz_is_safe L S).
Notation sd := (sd L).
Notation rd := (rd L).
Variable o : options.
Variable g : gif.
Notation midst := (midst L S o g).
Notation lzr_ok := (lzr_ok L S o).
Hypothesis noskip : o_skip_frame_decoding o = false.
Hypothesis nocheck : o_check_for_end_code o = false.

(** In the data of a frame, with [out] to be delivered before the invalid code. *)
Definition bad (s : sd) (str : list N) (rest : tail) (out : list N) : Prop :=
  exists data z, midst s str data rest /\ lr_decoder L (sd_lzw L s) = Some z /\ lz_fails Z z data out.

Lemma bad_start s str data rest z m out : midst s str data rest -> lr_decoder L (sd_lzw L s) = Some z -> begun L S z m ->
  lz_fails Z (lz_new L m) data out -> bad s str rest out.
Proof.
  intros M Hz Hb Hf. exists data, z. split; [exact M|]. split; [exact Hz|].
  destruct Hb as [->|(z0 & Hs & ->)]; [exact Hf|]. eapply lf_reset; eassumption.
Qed.

Lemma lr_bad r z data sl r1 ob1 x X out : lzr_ok r -> lr_decoder L r = Some z -> lz_fails Z z (data ++ X) out ->
  lr_decode_bytes L r data (OSlice sl) = (r1, ob1, x) ->
  (x = Err (DIo InvalidData) /\ (length out <= length sl)%nat) \/
  exists z' n w out' st, lz_decode L z data (length sl) = (z', (n, w, st)) /\ st <> LzInvalid /\ x = Ok (n, length w) /\
    ob1 = OSlice (w ++ skipn (length w) sl) /\ (n <= length data)%nat /\ (length w <= length sl)%nat /\
    lzr_ok r1 /\ lr_decoder L r1 = Some z' /\ out = w ++ out' /\ lz_fails Z z' (skipn n data ++ X) out'.
Proof.
  intros [K1 K2] Hz Hp H. unfold lr_decode_bytes in H. rewrite Hz in *.
  destruct (lz_decode L z data (length sl)) as [z' [[n w] st]] eqn:E.
  destruct (safe _ _ _ _ _ _ _ E) as [Hn Hw].
  pose proof (lz_size_decode L S _ _ _ _ _ _ K2 E) as Hsz.
  destruct (lf_step S Z z data X (length sl) out z' n w st Hp E) as [[-> ->]|(Hst & out' & Ho & Hp')].
  { left. injection H as <- <- <-. auto. }
  right. rewrite K1, nocheck in H.
  exists z', n, w, out', st. split; [reflexivity|]. split; [exact Hst|].
  assert (Hq : (mk_lr L (Some z') (lr_min_code_size L r) (lr_check L r), OSlice (w ++ skipn (length w) sl), Ok (n, length w)) = (r1, ob1, x)).
  { rewrite K1, nocheck. destruct st; try congruence; exact H. }
  injection Hq as <- <- <-. split; [reflexivity|]. split; [reflexivity|]. split; [exact Hn|]. split; [exact Hw|].
  split; [split; [exact K1|exact Hsz]|]. split; [reflexivity|]. auto.
Qed.

Lemma bad_step s buf tl rest out sl s' ob' r : bad s (buf ++ tl) rest out -> zero_ok L s buf -> buf <> [] -> sl <> [] ->
  next_state L s buf (OSlice sl) = (s', ob', r) ->
  (r = Err (DIo InvalidData) /\ (length out <= length sl)%nat) \/
  exists n, (n <= length buf)%nat /\
   ((r = Ok (n, DNothing) /\ ob' = OSlice sl /\ bad s' (skipn n buf ++ tl) rest out) \/
    (exists w out', r = Ok (n, DBytesDecoded (length w)) /\ ob' = OSlice (w ++ skipn (length w) sl) /\
       w <> [] /\ (length w <= length sl)%nat /\ out = w ++ out' /\ bad s' (skipn n buf ++ tl) rest out')).
Proof.
  intros (data & z & M & Hz & Hp) Hzo Hb Hsl H.
  pose proof (md_wf _ _ _ _ _ _ _ _ M) as W.
  pose proof (next_state_good L safe s buf (OSlice sl) W Hzo Hb) as Hg. rewrite H in Hg.
  apply next_state_nst in H; [|exact safe|exact W|exact Hzo|exact Hb].
  destruct M as [M1 M2 M3 M4 M5 M6 M7 (k & Hi & Hk)]. rewrite noskip in Hk. destruct Hk as [Hst _].
  assert (Hcap : (0 < length sl)%nat) by (destruct sl; [congruence|cbn; lia]).
  assert (Happ : forall n, (n <= length buf)%nat -> skipn n buf ++ tl = skipn n (buf ++ tl)).
  { intros n Hn. rewrite skipn_app. replace (n - length buf)%nat with O by lia. reflexivity. }
  assert (Hfst : forall n, (n <= length buf)%nat -> firstn n buf = firstn n (buf ++ tl)).
  { intros n Hn. rewrite firstn_app. replace (n - length buf)%nat with O by lia. cbn. now rewrite app_nil_r. }
  inversion H as [| | | | | | | | | | | | | | | | | | | | | | | | | | | | | | | | | | | 
     k' n Hs1 Hk0 Hn Hend | k' n r1 ob1 c0 c w Hs1 Hk0 Hn Hend Hdec Hc0 Hc | k' n r1 ob1 e Hs1 Hk0 Hn Hend Hdec
     | b t Hs1 Hbuf Hb0 | t r1 ob1 c0 w Hs1 Hbuf Hdec | t r1 ob1 e Hs1 Hbuf Hdec | | ]; subst;
    try congruence; try (rewrite Hst in *; discriminate).
  - (* already ended: not before the invalid code *)
    exfalso. cbn [is_none_ob] in Hend. rewrite orb_false_r in Hend.
    unfold lr_has_ended in Hend. rewrite Hz in Hend. rewrite (lf_ended S Z _ _ _ Hp) in Hend. discriminate.
  - (* decode *)
    assert (k' = k) by congruence. subst k'.
    set (n := Nat.min k (length buf)) in *.
    destruct (inblk_drop o k _ _ _ n ltac:(lia) Hi) as (_ & Hf & Hfl).
    assert (Ed : firstn n buf = firstn n data) by (rewrite Hfst by lia; exact Hf).
    assert (Hp2 : lz_fails Z z (firstn n buf ++ skipn n data) out) by (rewrite Ed, firstn_skipn; exact Hp).
    destruct (lr_bad _ _ _ _ _ _ _ _ _ M5 Hz Hp2 Hdec)
      as [[Ex _]|(z' & c1 & w1 & out' & st & E & Hst' & Ex & Eo & Hc1 & Hw1 & Hr1 & Hd1 & Eout & Hp')]; [discriminate|].
    right. injection Ex as Ec Ew. subst c0 w.
    assert (Eb : skipn c1 (firstn n buf) ++ skipn n data = skipn c1 data).
    { rewrite Ed. rewrite <- (firstn_skipn n data) at 3. rewrite skipn_app.
      replace (c1 - length (firstn n data))%nat with O by lia. reflexivity. }
    rewrite Eb in Hp'. destruct Hg as (_ & _ & _ & W' & _).
    destruct (inblk_drop o k _ _ _ c1 ltac:(lia) Hi) as (Hi' & _ & _).
    destruct (Nat.eqb_spec (length w1) 0) as [Hw0|Hw0].
    + assert (w1 = []) as -> by (destruct w1; [reflexivity|discriminate]). cbn [app length skipn] in *. subst out'.
      destruct (Nat.eqb_spec c1 0) as [Hc10|Hc10]; cbn [andb] in *.
      { exfalso. subst c1. destruct (lf_live S Z z (firstn n buf) (skipn n data) (length sl) out z' 0 [] st Hp2 E) as [Hl|[Hl|Hl]];
          [|exact Hcap|congruence|lia|congruence].
        intros E0. apply (f_equal (@length N)) in E0. rewrite Ed, Hfl in E0. cbn in E0. destruct buf; [congruence|cbn in *; lia]. }
      exists c1. split; [lia|]. left. split; [reflexivity|]. split; [exact Eo|].
      exists (skipn c1 data), z'. split; [|split; [exact Hd1|exact Hp']].
      constructor; try assumption. exists (k - c1)%nat. split.
      * rewrite Happ by lia. exact Hi'.
      * rewrite noskip. split; [reflexivity|]. exists z'. exact Hd1.
    + rewrite andb_false_r in *.
      exists c1. split; [lia|]. right. exists w1, out'. split; [reflexivity|]. split; [exact Eo|].
      split; [intros ->; cbn in Hw0; lia|]. split; [exact Hw1|]. split; [exact Eout|].
      exists (skipn c1 data), z'. split; [|split; [exact Hd1|exact Hp']].
      constructor; try assumption. exists (k - c1)%nat. split.
      -- rewrite Happ by lia. exact Hi'.
      -- rewrite noskip. split; [reflexivity|]. exists z'. exact Hd1.
  - (* decode error *)
    left. assert (k' = k) by congruence. subst k'.
    set (n := Nat.min k (length buf)) in *.
    destruct (inblk_drop o k _ _ _ n ltac:(lia) Hi) as (_ & Hf & Hfl).
    assert (Ed : firstn n buf = firstn n data) by (rewrite Hfst by lia; exact Hf).
    assert (Hp2 : lz_fails Z z (firstn n buf ++ skipn n data) out) by (rewrite Ed, firstn_skipn; exact Hp).
    destruct (lr_bad _ _ _ _ _ _ _ _ _ M5 Hz Hp2 Hdec) as [[Ex Hl]|(z' & c1 & w1 & out' & st & E & _ & Ex & _)]; [|discriminate].
    injection Ex as ->. auto.
  - (* next sub-block *)
    right. assert (k = 0)%nat as -> by congruence.
    apply inblk_cases in Hi. destruct Hi as [(cur & tl' & Hlt & _)|(_ & [(b1 & t1 & Et & Hb1 & Hi)|(Et & _)])]; [lia| |].
    2:{ injection Et as -> _. congruence. }
    cbn [app] in Et. injection Et as <- <-.
    exists 1%nat. split; [cbn; lia|]. left. split; [reflexivity|]. split; [reflexivity|].
    destruct Hg as (_ & _ & _ & W' & _).
    exists data, z. split; [|auto]. constructor; try assumption. exists (N.to_nat b). split; [exact Hi|].
    rewrite noskip. split; [reflexivity|]. exists z. exact Hz.
  - (* terminator *)
    right. assert (k = 0)%nat as -> by congruence.
    pose proof Hi as Hi0.
    apply inblk_cases in Hi. destruct Hi as [(cur & tl' & Hlt & _)|(_ & [(b1 & t1 & Et & Hb1 & Hi)|(Et & Hd0)])]; [lia| |].
    { injection Et as <- _. congruence. }
    subst data. destruct Hg as (_ & _ & _ & W' & _).
    destruct (lr_bad _ _ [] _ _ _ _ [] _ M5 Hz Hp Hdec)
      as [[Ex _]|(z' & c1 & w1 & out' & st & E & Hst' & Ex & Eo & Hc1 & Hw1 & Hr1 & Hd1 & Eout & Hp')]; [discriminate|].
    injection Ex as Ec Ew. subst c0 w. exists O. split; [lia|]. cbn [skipn] in *. rewrite skipn_nil in Hp'. cbn [app] in Hp'.
    destruct (lf_drain S Z z (length sl) out z' c1 w1 st Hp E Hcap) as [Hl|Hl]; [congruence|].
    destruct (Nat.eqb_spec (length w1) 0) as [Hw0|Hw0]; [destruct w1; [congruence|discriminate]|].
    right. exists w1, out'. split; [reflexivity|]. split; [exact Eo|].
    split; [exact Hl|]. split; [exact Hw1|]. split; [exact Eout|].
    exists [], z'. split; [|split; [exact Hd1|exact Hp']].
    constructor; try assumption. exists O. split; [exact Hi0|]. rewrite noskip. split; [reflexivity|]. exists z'. exact Hd1.
  - (* terminator, error *)
    left. assert (k = 0)%nat as -> by congruence.
    apply inblk_cases in Hi. destruct Hi as [(cur & tl' & Hlt & _)|(_ & [(b1 & t1 & Et & Hb1 & Hi)|(Et & Hd0)])]; [lia| |].
    { injection Et as <- _. congruence. }
    subst data.
    destruct (lr_bad _ _ [] _ _ _ _ [] _ M5 Hz Hp Hdec) as [[Ex Hl]|(z' & c1 & w1 & out' & st & E & _ & Ex & _)]; [|discriminate].
    injection Ex as ->. auto.
Qed.

Lemma bad_str s str rest out : bad s str rest out -> str <> [].
Proof.
  intros (data & z & M & _). destruct (md_blk _ _ _ _ _ _ _ _ M) as (k & (cur & subs & -> & _) & _).
  destruct cur; [|discriminate]. destruct (concat _); discriminate.
Qed.

Lemma bad_dnext r ob r' ob' x : dnext L r ob r' ob' x -> forall sl out rest, ob = OSlice sl -> sl <> [] ->
  rd_wf L r -> good_src (rd_src L r) -> rd_eof L r = false -> bad (rd_dec L r) (rd_rest L r) rest out ->
  (x = Err (DIo InvalidData) /\ (length out <= length sl)%nat) \/
  (exists w out', x = Ok (Some (DBytesDecoded (length w))) /\ ob' = OSlice (w ++ skipn (length w) sl) /\
     w <> [] /\ (length w <= length sl)%nat /\ out = w ++ out' /\ bad (rd_dec L r') (rd_rest L r') rest out').
Proof.
  induction 1 as [buf src s ob|k src s ob|s ob|src s ob|bs src s ob r' ob' x Hb Hn IH
    |buf src s ob s1 ob1 n r' ob' x Hb He Hn IH|buf src s ob s1 ob1 n Hb He
    |buf src s ob s1 ob1 n d Hb He Hd1 Hd2|pr buf src s ob s1 ob1 e Hb He];
    intros sl out rest Eob Hsl Hwf Hsrc Heof Hp; cbn [rd_src rd_eof rd_dec] in *; try discriminate.
  - inversion Hsrc as [|? ? Hev _]; subst. easy.
  - exfalso. apply bad_str in Hp. now apply Hp.
  - inversion Hsrc as [|? ? Hev _]; subst. easy.
  - inversion Hsrc as [|? ? Hev Hsrc']; subst. destruct Hwf as [H1 H2]. destruct (H2 eq_refl) as [H3 H4].
    apply IH; auto. split; [exact H1|]. intros _. split; [|exact H4]. intros E. destruct (H3 E) as [t Ht]. discriminate.
  - subst ob. destruct Hwf as [H1 H2]. cbn in H1. destruct (H2 eq_refl) as [H3 H4]. cbn in H3, H4.
    pose proof (next_state_good L safe s buf (OSlice sl) H1 H3 Hb) as Hg. rewrite He in Hg.
    destruct Hg as (_ & _ & Hg1 & Hg2 & Hg3 & Hg4 & _).
    unfold rd_rest in Hp. cbn [rd_buf rd_src] in Hp.
    destruct (bad_step _ _ _ _ _ _ _ _ _ Hp H3 Hb Hsl He) as [[E _]|(m & Hm & [(E & Eo & Hcase)|(w & out' & E & _)])];
      [discriminate| |discriminate].
    injection E as <-. eapply IH; auto.
    split; [exact Hg2|]. intros _. split; [exact Hg3|]. intros E. destruct (Hg4 E); [contradiction|discriminate].
  - subst ob. destruct Hwf as [H1 H2]. cbn in H1. destruct (H2 eq_refl) as [H3 H4]. cbn in H3, H4. exfalso.
    unfold rd_rest in Hp; cbn [rd_buf rd_src] in Hp.
    destruct (bad_step _ _ _ _ _ _ _ _ _ Hp H3 Hb Hsl He) as [[E _]|(m & Hm & [(E & Eo & Hcase)|(w & out' & E & _)])]; discriminate.
  - subst ob. destruct Hwf as [H1 H2]. cbn in H1. destruct (H2 eq_refl) as [H3 H4]. cbn in H3, H4.
    unfold rd_rest in Hp; cbn [rd_buf rd_src] in Hp.
    destruct (bad_step _ _ _ _ _ _ _ _ _ Hp H3 Hb Hsl He)
      as [[E _]|(m & Hm & [(E & Eo & Hcase)|(w & out' & E & Eo & Hw & Hwl & Eout & Hp')])]; [discriminate| |].
    + injection E as <- ->. congruence.
    + injection E as <- ->. right. exists w, out'. split; [reflexivity|]. auto 10.
  - subst ob. destruct Hwf as [H1 H2]. cbn in H1. destruct (H2 eq_refl) as [H3 H4]. cbn in H3, H4. left.
    unfold rd_rest in Hp; cbn [rd_buf rd_src] in Hp.
    destruct (bad_step _ _ _ _ _ _ _ _ _ Hp H3 Hb Hsl He) as [[E Hl]|(m & Hm & [(E & Eo & Hcase)|(w & out' & E & _)])];
      [|discriminate|discriminate].
    injection E as ->. auto.
Qed.

(** The reader in the middle of such a frame. *)
Definition badr (rest : tail) (r : rd) (out : list N) : Prop :=
  rd_good L r /\ good_src (rd_src L r) /\ rd_eof L r = false /\ bad (rd_dec L r) (rd_rest L r) rest out.

Lemma cb_badr rest r out sl : badr rest r out -> sl <> [] ->
  (exists r' ob', decode_next_bytes L r (OSlice sl) = (r', ob', Err (DIo InvalidData)) /\ (length out <= length sl)%nat) \/
  (exists r' w out', decode_next_bytes L r (OSlice sl) = (r', OSlice (w ++ skipn (length w) sl), Ok (length w)) /\
    w <> [] /\ (length w <= length sl)%nat /\ out = w ++ out' /\ badr rest r' out').
Proof.
  intros (G & Hs & He & Hp) Hsl. unfold decode_next_bytes.
  destruct (decode_next L r (OSlice sl)) as [[r' ob'] x] eqn:E.
  pose proof (decode_next_all L safe _ _ _ _ _ G E) as (G' & Hgn & _).
  pose proof (decode_next_src L safe _ _ _ _ _ (proj1 G) Hs E) as Hs'.
  destruct Hgn as (_ & _ & _ & _ & Hx).
  apply decode_next_dnext in E; [|exact safe|apply G].
  destruct (bad_dnext _ _ _ _ _ E sl out rest eq_refl Hsl (proj1 G) Hs He Hp)
    as [[-> Hl]|(w & out' & -> & -> & Hw & Hl & -> & Hp')].
  - left. exists r', ob'. auto.
  - right. destruct Hx as (_ & _ & He' & _). exists r', w, out'. split; [reflexivity|]. split; [exact Hw|]. split; [exact Hl|].
    split; [reflexivity|]. split; [exact G'|]. auto.
Qed.
End CR.

(** ** The pixel converter *)
Open Scope nat_scope.
Section Lock.
Variable umax : N.
Variable St : Type.
Variable cb : St -> obuf -> St * obuf * dres nat.
Variable e0 : derr.
(** [P x out]: the source in state [x] is going to deliver [out] and then fails with [e0]. *)
Variable P : St -> list N -> Prop.
Hypothesis cb_bad : forall x out sl, P x out -> sl <> [] ->
  (exists x' ob', cb x (OSlice sl) = (x', ob', Err e0) /\ length out <= length sl) \/
  (exists x' w out', cb x (OSlice sl) = (x', OSlice (w ++ skipn (length w) sl), Ok (length w)) /\
    w <> [] /\ length w <= length sl /\ out = w ++ out' /\ P x' out').

(** For the proof: the same source, which delivers [pad] where [cb] fails. *)
Section Pad.
Variable pad : list N.
Definition give (l sl : list N) : (St * list N + list N) * obuf * dres nat :=
  let w := firstn (length sl) l in (inr (skipn (length sl) l), OSlice (w ++ skipn (length w) sl), Ok (length w)).
Definition cbg (y : St * list N + list N) (ob : obuf) : (St * list N + list N) * obuf * dres nat :=
  match ob with
  | OSlice sl =>
    match y with
    | inl (x, out) =>
      let '(x1, ob1, r) := cb x ob in
      match r with
      | Ok n => (inl (x1, skipn n out), ob1, Ok n)
      | _ => give (out ++ pad) sl
      end
    | inr l => give l sl
    end
  | _ => (y, ob, Panic)
  end.
Definition PG (y : St * list N + list N) (l : list N) : Prop :=
  match y with inl (x, out) => P x out /\ l = out ++ pad | inr l' => l = l' end.

Lemma give_px l sl : l <> [] -> sl <> [] ->
  exists y' w l', give l sl = (y', OSlice (w ++ skipn (length w) sl), Ok (length w)) /\
    w <> [] /\ length w <= length sl /\ l = w ++ l' /\ PG y' l'.
Proof.
  intros Hl Hs. unfold give. eexists. exists (firstn (length sl) l), (skipn (length sl) l). split; [reflexivity|].
  split; [destruct l; [congruence|]; destruct sl; [congruence|]; discriminate|].
  split; [rewrite firstn_length; lia|]. split; [symmetry; apply firstn_skipn|reflexivity].
Qed.

Lemma cbg_px y l sl : PG y l -> l <> [] -> sl <> [] ->
  exists y' w l', cbg y (OSlice sl) = (y', OSlice (w ++ skipn (length w) sl), Ok (length w)) /\
    w <> [] /\ length w <= length sl /\ l = w ++ l' /\ PG y' l'.
Proof.
  intros Hp Hl Hs. destruct y as [[x out]|l0]; cbn [cbg PG] in *.
  - destruct Hp as [Hp ->]. destruct (cb_bad x out sl Hp Hs) as [(x' & ob' & E & _)|(x' & w & out' & E & Hw & Hwl & -> & Hp')]; rewrite E.
    + apply give_px; assumption.
    + exists (inl (x', out')), w, (out' ++ pad). split; [|split; [exact Hw|split; [exact Hwl|split; [now rewrite app_assoc|split; [exact Hp'|reflexivity]]]]].
      rewrite skipn_app, skipn_all, Nat.sub_diag. reflexivity.
  - subst l0. apply give_px; assumption.
Qed.

Lemma fill_lock f : forall fuel x c done buf out n, P x out -> 0 < n -> length buf = px_bytes (cv_color c) * n ->
  (exists x1 c1 b1, fill_loop St cb fuel x c f done buf = (x1, c1, b1, Err e0) /\ length out <= n) \/
  (exists x1 out1 c1 b1 r, fill_loop St cb fuel x c f done buf = (x1, c1, b1, r) /\
     fill_loop _ cbg fuel (inl (x, out)) c f done buf = (inl (x1, out1), c1, b1, r)).
Proof.
  induction fuel as [|fuel IH]; intros x c done buf out n Hp Hn Hb.
  { right. exists x, out, c, (done ++ buf), Hang. auto. }
  cbn [fill_loop cbg]. destruct (cv_color c) eqn:Ec; cbn [px_bytes] in Hb.
  - (* colours *)
    assert (Esz : length buf / 4 = n) by (rewrite Hb, Nat.mul_comm, Nat.div_mul by lia; reflexivity). rewrite Esz.
    destruct (Nat.eqb_spec n 0) as [|_]; [lia|].
    set (scratch := if (length (cv_buffer c) <? n) then grow (cv_buffer c) n else cv_buffer c).
    assert (Hsc : length (firstn n scratch) = n).
    { rewrite firstn_length. unfold scratch. destruct (Nat.ltb_spec (length (cv_buffer c)) n); [|lia].
      unfold grow. rewrite app_length, repeat_length. lia. }
    assert (Hsn : firstn n scratch <> []) by (intros E; rewrite E in Hsc; cbn in Hsc; lia).
    destruct (cb_bad x out _ Hp Hsn) as [(x' & ob' & E & Hl)|(x' & w & out' & E & Hw & Hwl & -> & Hp')]; rewrite E.
    { left. eexists. eexists. eexists. split; [reflexivity|]. lia. }
    rewrite Hsc in Hwl. rewrite (skipn_app (length w) w out'), skipn_all, Nat.sub_diag. cbn [app skipn].
    destruct (length w) as [|k] eqn:Ew; [destruct w; [congruence|discriminate]|]. rewrite <- Ew in *.
    destruct (Nat.ltb_spec (length buf) (length w * 4)) as [|_]; [lia|].
    match goal with |- context [fill_loop St cb fuel x' ?a f ?b (skipn ?d buf)] => set (c1 := a); set (dn := b) end.
    assert (Hl2 : length (skipn (length w * 4) buf) = 4 * (n - length w)) by (rewrite skipn_length; lia).
    destruct (is_nil (skipn (length w * 4) buf)) eqn:Enil.
    { right. eexists. exists out'. eexists. eexists. eexists. split; reflexivity. }
    assert (Hn' : 0 < n - length w).
    { destruct (skipn (length w * 4) buf); [discriminate|cbn in Hl2; lia]. }
    destruct (IH x' c1 dn (skipn (length w * 4) buf) out' (n - length w) Hp' Hn') as [(x1 & c2 & b1 & E1 & Hl)|H].
    { unfold c1. cbn [with_cbuf cv_color]. rewrite Ec. exact Hl2. }
    { left. exists x1, c2, b1. split; [exact E1|]. rewrite app_length. lia. }
    right. exact H.
  - (* indices *)
    assert (Hbn : buf <> []) by (intros ->; cbn in Hb; lia).
    destruct (cb_bad x out _ Hp Hbn) as [(x' & ob' & E & Hl)|(x' & w & out' & E & Hw & Hwl & -> & Hp')]; rewrite E.
    { left. eexists. eexists. eexists. split; [reflexivity|]. lia. }
    rewrite (skipn_app (length w) w out'), skipn_all, Nat.sub_diag. cbn [app skipn obuf_bytes].
    destruct (length w) as [|k] eqn:Ew; [destruct w; [congruence|discriminate]|]. rewrite <- Ew in *.
    assert (Hl1 : length (w ++ skipn (length w) buf) = length buf) by (rewrite app_length, skipn_length; lia).
    rewrite Hl1. destruct (Nat.ltb_spec (length buf) (length w)) as [|_]; [lia|].
    assert (Hsk : skipn (length w) (w ++ skipn (length w) buf) = skipn (length w) buf).
    { rewrite skipn_app, skipn_all, Nat.sub_diag. reflexivity. }
    rewrite Hsk.
    assert (Hl2 : length (skipn (length w) buf) = 1 * (n - length w)) by (rewrite skipn_length; lia).
    destruct (is_nil (skipn (length w) buf)) eqn:Enil.
    { right. eexists. exists out'. eexists. eexists. eexists. split; reflexivity. }
    assert (Hn' : 0 < n - length w).
    { destruct (skipn (length w) buf); [discriminate|cbn in Hl2; lia]. }
    match goal with |- context [fill_loop St cb fuel x' c f ?b (skipn _ buf)] => set (dn := b) end.
    destruct (IH x' c dn (skipn (length w) buf) out' (n - length w) Hp' Hn') as [(x1 & c2 & b1 & E1 & Hl)|H].
    { rewrite Ec. exact Hl2. }
    { left. exists x1, c2, b1. split; [exact E1|]. rewrite app_length. lia. }
    right. exact H.
Qed.

Lemma conv_fill_lock x c f buf out n : P x out -> 0 < n -> length buf = px_bytes (cv_color c) * n ->
  (exists x1 c1 b1, conv_fill_buffer St cb x c f buf = (x1, c1, b1, Err e0) /\ length out <= n) \/
  (exists x1 out1 c1 b1 r, conv_fill_buffer St cb x c f buf = (x1, c1, b1, r) /\
     conv_fill_buffer _ cbg (inl (x, out)) c f buf = (inl (x1, out1), c1, b1, r)).
Proof. intros. apply fill_lock; assumption. Qed.

Lemma rows_lock f w : N.to_nat (f_width f) = w -> 0 < w -> w <= length pad ->
  forall rows x c buf out, P x out ->
  (exists x1 c1 b1, read_rows umax St cb rows x c f buf = (x1, c1, b1, Err e0) /\ length out <= length rows * w) \/
  (exists x1 out1 c1 b1 r, read_rows umax St cb rows x c f buf = (x1, c1, b1, r) /\
     read_rows umax _ cbg rows (inl (x, out)) c f buf = (inl (x1, out1), c1, b1, r)).
Proof.
  intros Ew Hw Hpad. induction rows as [|row rows IH]; intros x c buf out Hp.
  { right. exists x, out, c, buf, (Ok tt). auto. }
  cbn [read_rows]. cbn zeta.
  assert (Hll : line_length c f = N.of_nat (px_bytes (cv_color c) * w)).
  { unfold line_length, px_bytes. destruct (cv_color c); lia. }
  rewrite Hll. set (cs := px_bytes (cv_color c)) in *.
  assert (Hcs : 0 < cs) by (unfold cs, px_bytes; destruct (cv_color c); lia).
  destruct (N.ltb_spec umax (N.of_nat row * N.of_nat (cs * w))) as [|Hu].
  { right. exists x, out, c, buf, Panic. auto. }
  destruct ((N.of_nat row * N.of_nat (cs * w) <=? len buf)%N &&
            (N.of_nat row * N.of_nat (cs * w) + N.of_nat (cs * w) <=? len buf)%N) eqn:Eb.
  2:{ right. exists x, out, c, buf, (Err (DFormat BufferTooSmall)). auto. }
  apply andb_true_iff in Eb as [_ Eb]. apply N.leb_le in Eb. unfold len in Eb. rewrite <- Nat2N.inj_mul, !Nat2N.id in *.
  set (st := row * (cs * w)) in *.
  assert (Hlen : length (firstn (cs * w) (skipn st buf)) = cs * w) by (rewrite firstn_length, skipn_length; lia).
  destruct (conv_fill_lock x c f (firstn (cs * w) (skipn st buf)) out w Hp Hw Hlen) as [(x1 & c1 & b1 & E & Hl)|(x1 & out1 & c1 & b1 & r & E & Eg)].
  { left. rewrite E. eexists. eexists. eexists. split; [reflexivity|]. cbn [length]. lia. }
  rewrite E, Eg.
  destruct (fill_spec _ cbg PG cbg_px (inl (x, out)) c f (firstn (cs * w) (skipn st buf)) (out ++ pad) w)
    as (y & c2 & line & E2 & Hs & Hpy & _).
  { split; [exact Hp|reflexivity]. } { exact Hw. } { exact Hlen. } { rewrite app_length. lia. }
  rewrite Eg in E2. injection E2 as <- <- <- ->. destruct Hpy as [Hp1 Eo].
  destruct (IH x1 c1 (firstn st buf ++ b1 ++ skipn (cs * w) (skipn st buf)) out1 Hp1) as [(x2 & c2 & b2 & E2 & Hl)|H].
  - left. exists x2, c2, b2. split; [exact E2|].
    apply (f_equal (@length N)) in Eo. rewrite skipn_length, !app_length in Eo. cbn [length]. lia.
  - right. exact H.
Qed.

Lemma into_lock x c f buf out w h : N.to_nat (f_width f) = w -> N.to_nat (f_height f) = h -> 0 < w -> 0 < h ->
  w <= length pad -> P x out ->
  (exists x1 c1 b1, conv_read_into_buffer umax St cb x c f buf = (x1, c1, b1, Err e0) /\ length out <= w * h) \/
  (exists x1 out1 c1 b1 r, conv_read_into_buffer umax St cb x c f buf = (x1, c1, b1, r) /\
     conv_read_into_buffer umax _ cbg (inl (x, out)) c f buf = (inl (x1, out1), c1, b1, r)).
Proof.
  intros Ew Eh Hw Hh Hpad Hp. unfold conv_read_into_buffer. destruct (f_interlaced f).
  { rewrite interlace_rows_order, Eh.
    destruct (rows_lock f w Ew Hw Hpad (gif_row_order h) x c buf out Hp) as [(x1 & c1 & b1 & E & Hl)|H].
    - left. exists x1, c1, b1. split; [exact E|]. rewrite gif_row_order_length in Hl. lia.
    - right. exact H. }
  destruct (buffer_size umax c f) as [n|] eqn:Es.
  2:{ right. exists x, out, c, buf, (Err (DFormat BufferTooSmall)). auto. }
  assert (En : n = N.of_nat (px_bytes (cv_color c) * (w * h))).
  { unfold buffer_size, line_length in Es.
    assert (E : (match cv_color c with CIndexed => f_width f | CRgba => f_width f * 4 end * f_height f =
             N.of_nat (px_bytes (cv_color c) * (w * h)))%N) by (unfold px_bytes; destruct (cv_color c); lia).
    rewrite E in Es. destruct (_ <=? _)%N; [congruence|discriminate]. }
  destruct (N.leb_spec n (len buf)) as [Hb|Hb].
  2:{ right. exists x, out, c, buf, (Err (DFormat BufferTooSmall)). auto. }
  subst n. rewrite Nat2N.id. unfold len in Hb.
  destruct (conv_fill_lock x c f (firstn (px_bytes (cv_color c) * (w * h)) buf) out (w * h) Hp) as [(x1 & c1 & b1 & E & Hl)|(x1 & out1 & c1 & b1 & r & E & Eg)].
  { nia. } { rewrite firstn_length. lia. }
  { left. rewrite E. eexists. eexists. eexists. split; [reflexivity|exact Hl]. }
  right. rewrite E, Eg. exists x1, out1, c1. destruct r as [[|]|e| | ]; eexists; eexists; split; reflexivity.
Qed.

Lemma frame_lock x c f out w h : N.to_nat (f_width f) = w -> N.to_nat (f_height f) = h -> 0 < w -> 0 < h ->
  w <= length pad -> P x out ->
  (exists x1 c1 f1, conv_read_frame umax St cb x c f = (x1, c1, f1, Err e0) /\ length out <= w * h /\ f1 = set_buffer f []) \/
  (exists x1 out1 c1 f1 r, conv_read_frame umax St cb x c f = (x1, c1, f1, r) /\
     conv_read_frame umax _ cbg (inl (x, out)) c f = (inl (x1, out1), c1, f1, r)).
Proof.
  intros Ew Eh Hw Hh Hpad Hp. unfold conv_read_frame. destruct (check_buffer_size umax c f) as [n|e| | ].
  2-4: right; exists x, out; eexists; eexists; eexists; split; reflexivity.
  cbn zeta. destruct (umax / 2 <? n)%N; [right; exists x, out; eexists; eexists; eexists; split; reflexivity|].
  destruct (into_lock x c (set_buffer f []) (grow (firstn (N.to_nat n) (f_buffer f)) (N.to_nat n)) out w h Ew Eh Hw Hh Hpad Hp)
    as [(x1 & c1 & b1 & E & Hl)|(x1 & out1 & c1 & b1 & r & E & Eg)].
  - left. rewrite E. eexists. eexists. eexists. split; [reflexivity|]. auto.
  - right. rewrite E, Eg. exists x1, out1, c1. destruct r; eexists; eexists; split; reflexivity.
Qed.

(** What the padded source has left tells that the padding was not touched. *)
Lemma untouched x1 out1 n out : PG (inl (x1, out1)) (skipn n (out ++ pad)) -> n <= length pad -> n <= length out /\ P x1 (skipn n out).
Proof.
  intros [Hp E] Hn. pose proof (f_equal (@length N) E) as El. rewrite skipn_length, !app_length in El.
  assert (Hl : n <= length out) by lia. split; [exact Hl|].
  rewrite skipn_app in E. replace (n - length out) with 0 in E by lia. cbn [skipn] in E.
  apply app_inv_tail in E. rewrite E. exact Hp.
Qed.
End Pad.

Lemma index_of_lt x l : In x l -> index_of x l < length l.
Proof.
  induction l as [|y l IH]; intros H; [destruct H|]. cbn [index_of length]. destruct (Nat.eqb_spec y x) as [->|Hn]; [lia|].
  destruct H as [->|H]; [congruence|]. apply IH in H. lia.
Qed.

Lemma picture_pad w h il out pad : 0 < w -> w * h <= length out -> picture w h il (out ++ pad) = picture w h il out.
Proof.
  intros Hw Hl. unfold picture. destruct il.
  - unfold deinterlace. apply map_ext_in. intros k Hk. apply in_seq in Hk. rewrite app_nth1; [reflexivity|].
    assert (H1 : k / w < h) by (apply Nat.div_lt_upper_bound; lia).
    assert (H2 : k mod w < w) by (apply Nat.mod_upper_bound; lia).
    assert (H3 : index_of (k / w) (gif_row_order h) < h).
    { rewrite <- (gif_row_order_length h) at 2. apply index_of_lt. now apply gif_row_order_in. }
    nia.
  - rewrite firstn_app. replace (w * h - length out) with 0 by lia. cbn. apply app_nil_r.
Qed.

(** A slice of [n] pixels, a buffer and a frame: the error, or what the pixels before it allow. *)
Lemma bad_fill x c f buf out n : P x out -> 0 < n -> length buf = px_bytes (cv_color c) * n ->
  (exists x1 c1 b1, conv_fill_buffer St cb x c f buf = (x1, c1, b1, Err e0) /\ length out <= n) \/
  (exists x' c' line, conv_fill_buffer St cb x c f buf = (x', c', line, Ok true) /\ n <= length out /\
    same_settings c c' /\ P x' (skipn n out) /\ length line = length buf /\
    forall k, k < n -> cell (px_bytes (cv_color c)) k line = cellf c f (nth k out 0%N) (cell (px_bytes (cv_color c)) k buf)).
Proof.
  intros Hp Hn Hb. set (pad := repeat 0%N n).
  assert (Hpl : length pad = n) by apply repeat_length.
  destruct (conv_fill_lock pad x c f buf out n Hp Hn Hb) as [H|(x1 & out1 & c1 & b1 & r & E & Eg)]; [left; exact H|right].
  destruct (fill_spec _ (cbg pad) (PG pad) (cbg_px pad) (inl (x, out)) c f buf (out ++ pad) n)
    as (y & c2 & line & E2 & Hs & Hpy & Hll & Hc).
  { split; [exact Hp|reflexivity]. } { exact Hn. } { exact Hb. } { rewrite app_length. lia. }
  rewrite Eg in E2. injection E2 as <- <- <- ->.
  apply untouched in Hpy; [|lia]. destruct Hpy as [Hl Hp1].
  exists x1, c1, b1. split; [exact E|]. split; [exact Hl|]. split; [exact Hs|]. split; [exact Hp1|]. split; [exact Hll|].
  intros k Hk. rewrite (Hc k Hk). rewrite app_nth1 by lia. reflexivity.
Qed.

Lemma bad_into x c f buf out w h : N.to_nat (f_width f) = w -> N.to_nat (f_height f) = h -> 0 < w -> 0 < h ->
  P x out -> px_bytes (cv_color c) * (w * h) <= length buf -> (len buf <= umax)%N ->
  (exists x1 c1 b1, conv_read_into_buffer umax St cb x c f buf = (x1, c1, b1, Err e0) /\ length out <= w * h) \/
  (exists x' c', conv_read_into_buffer umax St cb x c f buf =
      (x', c', shown_over (cv_color c) (effective_palette c f) (f_transparent f) (picture w h (f_interlaced f) out) buf
               ++ skipn (px_bytes (cv_color c) * (w * h)) buf, Ok tt) /\ w * h <= length out /\
    same_settings c c' /\ P x' (skipn (w * h) out)).
Proof.
  intros Ew Eh Hw Hh Hp Hb Hu. set (pad := repeat 0%N (w * h)).
  assert (Hpl : length pad = w * h) by apply repeat_length.
  destruct (into_lock pad x c f buf out w h Ew Eh Hw Hh ltac:(nia) Hp) as [H|(x1 & out1 & c1 & b1 & r & E & Eg)]; [left; exact H|right].
  destruct (into_spec umax _ (cbg pad) (PG pad) (cbg_px pad) (inl (x, out)) c f buf (out ++ pad) w h Ew Eh Hw Hh)
    as (y & c2 & E2 & Hs & Hpy).
  { split; [exact Hp|reflexivity]. } { rewrite app_length. lia. } { exact Hb. } { exact Hu. }
  rewrite Eg in E2. injection E2 as <- <- -> ->.
  apply untouched in Hpy; [|lia]. destruct Hpy as [Hl Hp1].
  exists x1, c1. split; [|auto]. rewrite E, picture_pad by assumption. reflexivity.
Qed.

Lemma bad_frame x c f out w h : N.to_nat (f_width f) = w -> N.to_nat (f_height f) = h -> 0 < w -> 0 < h ->
  P x out -> f_buffer f = [] ->
  (N.of_nat (px_bytes (cv_color c) * (w * h)) <= umax / 2)%N ->
  match cv_limit c with Some l => (N.of_nat (px_bytes (cv_color c) * (w * h)) <= l)%N | None => True end ->
  (exists x1 c1 f1, conv_read_frame umax St cb x c f = (x1, c1, f1, Err e0) /\ length out <= w * h /\ f1 = set_buffer f []) \/
  (exists x' c', conv_read_frame umax St cb x c f =
      (x', c', set_interlaced (set_buffer f (shown (cv_color c) (effective_palette c f) (f_transparent f)
                (picture w h (f_interlaced f) out))) false, Ok tt) /\ w * h <= length out /\
    same_settings c c' /\ P x' (skipn (w * h) out)).
Proof.
  intros Ew Eh Hw Hh Hp Hb Hu Hlim. set (pad := repeat 0%N (w * h)).
  assert (Hpl : length pad = w * h) by apply repeat_length.
  destruct (frame_lock pad x c f out w h Ew Eh Hw Hh ltac:(nia) Hp) as [H|(x1 & out1 & c1 & f1 & r & E & Eg)]; [left; exact H|right].
  destruct (frame_spec umax _ (cbg pad) (PG pad) (cbg_px pad) (inl (x, out)) c f (out ++ pad) w h Ew Eh Hw Hh)
    as (y & c2 & E2 & Hs & Hpy).
  { split; [exact Hp|reflexivity]. } { rewrite app_length. lia. } { exact Hb. } { exact Hu. } { exact Hlim. }
  rewrite Eg in E2. injection E2 as <- <- -> ->.
  apply untouched in Hpy; [|lia]. destruct Hpy as [Hl Hp1].
  exists x1, c1. split; [|auto]. rewrite E, picture_pad by assumption. reflexivity.
Qed.
End Lock.
