(** Reading the pixels of a frame, whatever the reads and the slices are. *)
From Verif Require Import Base Common Lzw Encoder Stream Converter Reader StreamInv Steps StepsRev
  ReaderInv Interlace Ranges ConvInv DecoderSafe Canon CanonReader SpecGif DocTrace DocBlocks SpecPixels Pixels.
Open Scope N_scope.

Section PR.
Variable L : lzw_codec.
Variable S : lzw_spec L.
Notation safe := (lz_is_safe L S).
Notation sd := (sd L).
Notation rd := (rd L).
Variable o : options.
Variable g : gif.
Notation midst := (midst L S o g).
Notation docst := (docst L S o g).
Notation lzr_ok := (lzr_ok L S o).
Hypothesis noskip : o_skip_frame_decoding o = false.
Hypothesis nocheck : o_check_for_end_code o = false.

Lemma inblk_drop k str data rest n : (n <= k)%nat -> inblk k str data rest ->
  inblk (k - n) (skipn n str) (skipn n data) rest /\ firstn n str = firstn n data /\ length (firstn n data) = n.
Proof.
  intros Hn (cur & subs & -> & Hl & Hs & ->). split; [|split].
  - exists (skipn n cur), subs. rewrite !skipn_app. replace (n - length cur)%nat with O by lia.
    rewrite skipn_length. auto.
  - rewrite !firstn_app. replace (n - length cur)%nat with O by lia. reflexivity.
  - rewrite firstn_length, app_length. lia.
Qed.

(** In the data of a frame, with [out] still to be delivered. *)
Definition px (s : sd) (str : list N) (rest : tail) (out : list N) : Prop :=
  exists data z X, midst s str data rest /\ lr_decoder L (sd_lzw L s) = Some z /\
    lz_pending S z X out /\ (X = data \/ lz_ended L z = true).

(** At the terminator of the data. *)
Record fin (s : sd) (str : list N) (rest : tail) : Prop := mk_fin {
  fn_wf : sd_wf L s;
  fn_opts : sd_opts L s = o;
  fn_w : sd_width L s = g_w g;
  fn_h : sd_height L s = g_h g;
  fn_lzw : lzr_ok (sd_lzw L s);
  fn_he : sd_header_end L s = true;
  fn_st : sd_state L s = FrameDecoded;
  fn_ext : (sd_ext_id L s, sd_ext_data L s) = fst rest;
  fn_str : str = 0 :: snd rest
}.

Lemma px_start s str data rest z out : midst s str data rest -> lr_decoder L (sd_lzw L s) = Some z ->
  lz_pending S z data out -> px s str rest out.
Proof. intros. exists data, z, data. auto. Qed.

Lemma px_alive s str rest out : px s str rest out -> lzw_alive L S o s.
Proof. intros (data & z & X & H1 & H2 & H3 & H4). split; [exact nocheck|]. exists z, X, out. auto. Qed.

Lemma lr_dec r z data sl r1 ob1 x X out : lzr_ok r -> lr_decoder L r = Some z -> lz_pending S z (data ++ X) out ->
  lr_decode_bytes L r data (OSlice sl) = (r1, ob1, x) ->
  exists z' n w out' st, lz_decode L z data (length sl) = (z', (n, w, st)) /\ x = Ok (n, length w) /\
    ob1 = OSlice (w ++ skipn (length w) sl) /\ (n <= length data)%nat /\ (length w <= length sl)%nat /\
    lzr_ok r1 /\ lr_decoder L r1 = Some z' /\ out = w ++ out' /\ lz_pending S z' (skipn n data ++ X) out'.
Proof.
  intros [K1 K2] Hz Hp H. unfold lr_decode_bytes in H. rewrite Hz in *.
  destruct (lz_decode L z data (length sl)) as [z' [[n w] st]] eqn:E.
  destruct (safe _ _ _ _ _ _ _ E) as [Hn Hw].
  destruct (lz_step L S z data X (length sl) out z' n w st Hp E) as (Hst & out' & Ho & Hp').
  pose proof (lz_size_decode L S _ _ _ _ _ _ K2 E) as Hsz.
  rewrite K1, nocheck in H.
  exists z', n, w, out', st. split; [reflexivity|].
  assert (Hq : (mk_lr L (Some z') (lr_min_code_size L r) (lr_check L r), OSlice (w ++ skipn (length w) sl), Ok (n, length w)) = (r1, ob1, x)).
  { rewrite K1, nocheck. destruct st; try congruence; exact H. }
  injection Hq as <- <- <-. split; [reflexivity|]. split; [reflexivity|]. split; [exact Hn|]. split; [exact Hw|].
  split; [split; [exact K1|exact Hsz]|]. split; [reflexivity|]. auto.
Qed.

Lemma px_step s buf tl rest out sl s' ob' r : px s (buf ++ tl) rest out -> zero_ok L s buf -> buf <> [] -> sl <> [] ->
  next_state L s buf (OSlice sl) = (s', ob', r) ->
  exists n, (n <= length buf)%nat /\
   ((r = Ok (n, DNothing) /\ ob' = OSlice sl /\
       (px s' (skipn n buf ++ tl) rest out \/ (out = [] /\ fin s' (skipn n buf ++ tl) rest))) \/
    (exists w out', r = Ok (n, DBytesDecoded (length w)) /\ ob' = OSlice (w ++ skipn (length w) sl) /\
       w <> [] /\ (length w <= length sl)%nat /\ out = w ++ out' /\ px s' (skipn n buf ++ tl) rest out')).
Proof.
  intros (data & z & X & M & Hz & Hp & HX) Hzo Hb Hsl H.
  pose proof (md_wf _ _ _ _ _ _ _ _ M) as W.
  pose proof (next_state_good L safe s buf (OSlice sl) W Hzo Hb) as Hg. rewrite H in Hg.
  apply next_state_nst in H; [|exact safe|exact W|exact Hzo|exact Hb].
  destruct M as [M1 M2 M3 M4 M5 M6 M7 (k & Hi & Hk)]. rewrite noskip in Hk. destruct Hk as [Hst _].
  assert (Hcap : (0 < length sl)%nat) by (destruct sl; [congruence|cbn; lia]).
  assert (Happ : forall n, (n <= length buf)%nat -> skipn n buf ++ tl = skipn n (buf ++ tl)).
  { intros n Hn. rewrite skipn_app. replace (n - length buf)%nat with O by lia. reflexivity. }
  assert (Hfst : forall n, (n <= length buf)%nat -> firstn n buf = firstn n (buf ++ tl)).
  { intros n Hn. rewrite firstn_app. replace (n - length buf)%nat with O by lia. cbn. now rewrite app_nil_r. }
  inversion H as [| | | | | | | | | | | | | | | | | | | | | | | | | | | | | | | | | | | 
     k' n Hs1 Hk0 Hn Hend | k' n r1 ob1 c0 c w Hs1 Hk0 Hn Hend Hdec Hc0 Hc | k' n r1 ob1 e Hs1 Hk0 Hn Hend Hdec
     | b t Hs1 Hbuf Hb0 | t r1 ob1 c0 w Hs1 Hbuf Hdec | t r1 ob1 e Hs1 Hbuf Hdec | | ]; subst;
    try congruence; try (rewrite Hst in *; discriminate).
  - (* already ended *)
    assert (k' = k) by congruence. subst k'. cbn [is_none_ob] in Hend. rewrite orb_false_r in Hend.
    unfold lr_has_ended in Hend. rewrite Hz in Hend.
    destruct (inblk_drop k _ _ _ (Nat.min k (length buf)) ltac:(lia) Hi) as (Hi' & _ & _).
    exists (Nat.min k (length buf)). split; [lia|]. left. split; [reflexivity|]. split; [reflexivity|]. left.
    destruct Hg as (_ & _ & _ & W' & _).
    exists (skipn (Nat.min k (length buf)) data), z, X. split; [|split; [exact Hz|split; [exact Hp|right; exact Hend]]].
    constructor; try assumption. exists (k - Nat.min k (length buf))%nat. split.
    + rewrite Happ by lia. exact Hi'.
    + rewrite noskip. split; [reflexivity|]. exists z. exact Hz.
  - (* decode *)
    assert (k' = k) by congruence. subst k'. cbn [is_none_ob] in Hend. rewrite orb_false_r in Hend.
    unfold lr_has_ended in Hend. rewrite Hz in Hend.
    destruct HX as [->|HX]; [|congruence].
    set (n := Nat.min k (length buf)) in *.
    destruct (inblk_drop k _ _ _ n ltac:(lia) Hi) as (_ & Hf & Hfl).
    assert (Ed : firstn n buf = firstn n data) by (rewrite Hfst by lia; exact Hf).
    assert (Hp2 : lz_pending S z (firstn n buf ++ skipn n data) out) by (rewrite Ed, firstn_skipn; exact Hp).
    destruct (lr_dec _ _ _ _ _ _ _ _ _ M5 Hz Hp2 Hdec) as (z' & c1 & w1 & out' & st & E & Ex & Eo & Hc1 & Hw1 & Hr1 & Hd1 & Eout & Hp').
    injection Ex as Ec Ew. subst c0 w.
    assert (Eb : skipn c1 (firstn n buf) ++ skipn n data = skipn c1 data).
    { rewrite Ed. rewrite <- (firstn_skipn n data) at 3. rewrite skipn_app.
      replace (c1 - length (firstn n data))%nat with O by lia. reflexivity. }
    rewrite Eb in Hp'. destruct Hg as (_ & _ & _ & W' & _).
    destruct (Nat.eqb_spec (length w1) 0) as [Hw0|Hw0].
    + assert (w1 = []) as -> by (destruct w1; [reflexivity|discriminate]). cbn [app length skipn] in *. subst out'.
      destruct (Nat.eqb_spec c1 0) as [Hc10|Hc10]; cbn [andb] in *; [rewrite Hc10 in *; clear c1 Hc10|].
      * destruct (lz_live L S z (firstn n buf) (skipn n data) (length sl) out z' 0 [] st Hp2 E) as [Hl|[Hl|Hl]];
          [|exact Hcap|exact Hend|lia|congruence|].
        { intros E0. apply (f_equal (@length N)) in E0. rewrite Ed, Hfl in E0. cbn in E0.
          destruct buf; [congruence|cbn in *; lia]. }
        destruct (inblk_drop k _ _ _ n ltac:(lia) Hi) as (Hi' & _ & _).
        exists n. split; [lia|]. left. split; [reflexivity|]. split; [exact Eo|]. left.
        exists (skipn n data), z', data. split; [|split; [exact Hd1|split; [exact Hp'|right; exact Hl]]].
        constructor; try assumption. exists (k - n)%nat. split.
        -- rewrite Happ by lia. exact Hi'.
        -- rewrite noskip. split; [reflexivity|]. exists z'. exact Hd1.
      * destruct (inblk_drop k _ _ _ c1 ltac:(lia) Hi) as (Hi' & _ & _).
        exists c1. split; [lia|]. left. split; [reflexivity|]. split; [exact Eo|]. left.
        exists (skipn c1 data), z', (skipn c1 data). split; [|split; [exact Hd1|split; [exact Hp'|left; reflexivity]]].
        constructor; try assumption. exists (k - c1)%nat. split.
        -- rewrite Happ by lia. exact Hi'.
        -- rewrite noskip. split; [reflexivity|]. exists z'. exact Hd1.
    + rewrite andb_false_r in *.
      destruct (inblk_drop k _ _ _ c1 ltac:(lia) Hi) as (Hi' & _ & _).
      exists c1. split; [lia|]. right. exists w1, out'. split; [reflexivity|]. split; [exact Eo|].
      split; [intros ->; cbn in Hw0; lia|]. split; [exact Hw1|]. split; [exact Eout|].
      exists (skipn c1 data), z', (skipn c1 data). split; [|split; [exact Hd1|split; [exact Hp'|left; reflexivity]]].
      constructor; try assumption. exists (k - c1)%nat. split.
      -- rewrite Happ by lia. exact Hi'.
      -- rewrite noskip. split; [reflexivity|]. exists z'. exact Hd1.
  - (* decode error *)
    exfalso. assert (k' = k) by congruence. subst k'. cbn [is_none_ob] in Hend. rewrite orb_false_r in Hend.
    unfold lr_has_ended in Hend. rewrite Hz in Hend. destruct HX as [->|HX]; [|congruence].
    set (n := Nat.min k (length buf)) in *.
    destruct (inblk_drop k _ _ _ n ltac:(lia) Hi) as (_ & Hf & Hfl).
    assert (Ed : firstn n buf = firstn n data) by (rewrite Hfst by lia; exact Hf).
    assert (Hp2 : lz_pending S z (firstn n buf ++ skipn n data) out) by (rewrite Ed, firstn_skipn; exact Hp).
    destruct (lr_dec _ _ _ _ _ _ _ _ _ M5 Hz Hp2 Hdec) as (z' & c1 & w1 & out' & st & E & Ex & _). discriminate.
  - (* next sub-block *)
    assert (k = 0)%nat as -> by congruence.
    apply inblk_cases in Hi. destruct Hi as [(cur & tl' & Hlt & _)|(_ & [(b1 & t1 & Et & Hb1 & Hi)|(Et & _)])]; [lia| |].
    2:{ injection Et as -> _. congruence. }
    cbn [app] in Et. injection Et as <- <-.
    exists 1%nat. split; [cbn; lia|]. left. split; [reflexivity|]. split; [reflexivity|]. left.
    destruct Hg as (_ & _ & _ & W' & _).
    exists data, z, X. split; [|auto]. constructor; try assumption. exists (N.to_nat b). split; [exact Hi|].
    rewrite noskip. split; [reflexivity|]. exists z. exact Hz.
  - (* terminator *)
    assert (k = 0)%nat as -> by congruence.
    pose proof Hi as Hi0.
    apply inblk_cases in Hi. destruct Hi as [(cur & tl' & Hlt & _)|(_ & [(b1 & t1 & Et & Hb1 & Hi)|(Et & Hd0)])]; [lia| |].
    { injection Et as <- _. congruence. }
    subst data. destruct Hg as (_ & _ & _ & W' & _).
    destruct (lr_dec _ _ [] _ _ _ _ X _ M5 Hz Hp Hdec) as (z' & c1 & w1 & out' & st & E & Ex & Eo & Hc1 & Hw1 & Hr1 & Hd1 & Eout & Hp').
    injection Ex as Ec Ew. subst c0 w. exists O. split; [lia|]. cbn [skipn] in *. rewrite skipn_nil in Hp'. cbn [app] in Hp'.
    destruct (Nat.eqb_spec (length w1) 0) as [Hw0|Hw0].
    + assert (w1 = []) as -> by (destruct w1; [reflexivity|discriminate]). cbn [app length skipn] in *. subst out'.
      left. split; [reflexivity|]. split; [exact Eo|]. right. split.
      * destruct HX as [->|HX]; [|eapply lz_ended_nil; [exact Hp|exact HX]].
        destruct out as [|x out]; [reflexivity|]. exfalso.
        eapply (lz_drain L S z (length sl)); [exact Hp|exact E|discriminate|exact Hcap|reflexivity].
      * constructor; try assumption. reflexivity.
    + right. exists w1, out'. split; [reflexivity|]. split; [exact Eo|].
      split; [intros ->; cbn in Hw0; lia|]. split; [exact Hw1|]. split; [exact Eout|].
      exists [], z', X. split; [|split; [exact Hd1|split; [exact Hp'|]]].
      * constructor; try assumption. exists O. split; [exact Hi0|]. rewrite noskip. split; [reflexivity|]. exists z'. exact Hd1.
      * destruct HX as [HX|HX]; [left; exact HX|]. exfalso.
        pose proof (lz_ended_nil L S _ _ _ Hp HX) as Q. rewrite Q in Eout. destruct w1; [cbn in Hw0; lia|discriminate].
  - (* terminator, error *)
    exfalso. destruct (lr_dec _ _ [] _ _ _ _ X _ M5 Hz Hp Hdec) as (z' & c1 & w1 & out' & st & E & Ex & _). discriminate.
Qed.

Lemma px_str s str rest out : px s str rest out -> str <> [].
Proof.
  intros (data & z & X & M & _). destruct (md_blk _ _ _ _ _ _ _ _ M) as (k & (cur & subs & -> & _) & _).
  destruct cur; [|discriminate]. destruct (concat _); discriminate.
Qed.

(** The image data have been read to their end. *)
Definition ended (x : N * list N) (s : sd) : Prop :=
  docst s ctl_none x /\ sd_state L s = BlockEnd /\ sd_header_end L s = true.

Lemma fin_step s buf tl rest sl s' ob' r : fin s (buf ++ tl) rest -> zero_ok L s buf -> buf <> [] ->
  next_state L s buf (OSlice sl) = (s', ob', r) ->
  r = Ok (1%nat, DDataEnd) /\ ob' = OSlice sl /\ ended (fst rest) s' /\ skipn 1 buf ++ tl = snd rest.
Proof.
  intros [F1 F2 F3 F4 F5 F6 F7 F8 F9] Hz Hb H.
  pose proof (next_state_good L safe s buf (OSlice sl) F1 Hz Hb) as Hg. rewrite H in Hg.
  apply next_state_nst in H; [|exact safe|exact F1|exact Hz|exact Hb].
  inversion H; subst; try congruence; try (rewrite F7 in *; discriminate).
  split; [reflexivity|]. split; [reflexivity|]. split.
  - split; [|split; [reflexivity|exact F6]]. constructor; try assumption; [apply Hg|]. left. split; reflexivity.
  - cbn [app] in F9. injection F9 as E. exact E.
Qed.

Definition next_px (r : rd) (sl out : list N) (rest : tail) (r' : rd) (ob' : obuf) (x : dres (option decoded)) : Prop :=
  (exists w out', x = Ok (Some (DBytesDecoded (length w))) /\ ob' = OSlice (w ++ skipn (length w) sl) /\
     w <> [] /\ (length w <= length sl)%nat /\ out = w ++ out' /\ px (rd_dec L r') (rd_rest L r') rest out') \/
  (out = [] /\ ob' = OSlice sl /\ x = Ok (Some DDataEnd) /\ ended (fst rest) (rd_dec L r') /\ rd_rest L r' = snd rest).

Lemma px_dnext r ob r' ob' x : dnext L r ob r' ob' x -> forall sl out rest, ob = OSlice sl -> sl <> [] ->
  rd_wf L r -> good_src (rd_src L r) -> rd_eof L r = false ->
  (px (rd_dec L r) (rd_rest L r) rest out \/ (out = [] /\ fin (rd_dec L r) (rd_rest L r) rest)) ->
  next_px r sl out rest r' ob' x.
Proof.
  induction 1 as [buf src s ob|k src s ob|s ob|src s ob|bs src s ob r' ob' x Hb Hn IH
    |buf src s ob s1 ob1 n r' ob' x Hb He Hn IH|buf src s ob s1 ob1 n Hb He
    |buf src s ob s1 ob1 n d Hb He Hd1 Hd2|pr buf src s ob s1 ob1 e Hb He];
    intros sl out rest Eob Hsl Hwf Hsrc Heof Hp; cbn [rd_src rd_eof rd_dec] in *; try discriminate.
  - inversion Hsrc as [|? ? Hev _]; subst. easy.
  - exfalso. destruct Hp as [Hp|[_ Hp]]; [apply px_str in Hp; now apply Hp|].
    pose proof (fn_str _ _ _ Hp) as E. discriminate E.
  - inversion Hsrc as [|? ? Hev _]; subst. easy.
  - inversion Hsrc as [|? ? Hev Hsrc']; subst. destruct Hwf as [H1 H2]. destruct (H2 eq_refl) as [H3 H4].
    apply IH; auto. split; [exact H1|]. intros _. split; [|exact H4]. intros E. destruct (H3 E) as [t Ht]. discriminate.
  - subst ob. destruct Hwf as [H1 H2]. cbn in H1. destruct (H2 eq_refl) as [H3 H4]. cbn in H3, H4.
    pose proof (next_state_good L safe s buf (OSlice sl) H1 H3 Hb) as Hg. rewrite He in Hg.
    destruct Hg as (_ & _ & Hg1 & Hg2 & Hg3 & Hg4 & _).
    destruct Hp as [Hp|[-> Hp]].
    2:{ unfold rd_rest in Hp. cbn [rd_buf rd_src] in Hp.
        destruct (fin_step _ _ _ _ _ _ _ _ Hp H3 Hb He) as (E & _). discriminate. }
    unfold rd_rest in Hp. cbn [rd_buf rd_src] in Hp.
    destruct (px_step _ _ _ _ _ _ _ _ _ Hp H3 Hb Hsl He) as (m & Hm & [(E & Eo & Hcase)|(w & out' & E & _)]).
    2:{ discriminate. }
    injection E as <-. eapply IH; auto.
    split; [exact Hg2|]. intros _. split; [exact Hg3|]. intros E. destruct (Hg4 E); [contradiction|discriminate].
  - subst ob. destruct Hwf as [H1 H2]. cbn in H1. destruct (H2 eq_refl) as [H3 H4]. cbn in H3, H4. exfalso.
    destruct Hp as [Hp|[-> Hp]]; unfold rd_rest in Hp; cbn [rd_buf rd_src] in Hp.
    + destruct (px_step _ _ _ _ _ _ _ _ _ Hp H3 Hb Hsl He) as (m & Hm & [(E & Eo & Hcase)|(w & out' & E & _)]); discriminate.
    + destruct (fin_step _ _ _ _ _ _ _ _ Hp H3 Hb He) as (E & _). discriminate.
  - subst ob. destruct Hwf as [H1 H2]. cbn in H1. destruct (H2 eq_refl) as [H3 H4]. cbn in H3, H4.
    destruct Hp as [Hp|[-> Hp]]; unfold rd_rest in Hp; cbn [rd_buf rd_src] in Hp.
    + destruct (px_step _ _ _ _ _ _ _ _ _ Hp H3 Hb Hsl He) as (m & Hm & [(E & Eo & Hcase)|(w & out' & E & Eo & Hw & Hwl & Eout & Hp')]).
      * injection E as <- ->. congruence.
      * injection E as <- ->. left. exists w, out'. split; [reflexivity|]. auto 10.
    + destruct (fin_step _ _ _ _ _ _ _ _ Hp H3 Hb He) as (E & Eo & Hend & Hrest). injection E as -> ->.
      right. split; [reflexivity|]. split; [exact Eo|]. split; [reflexivity|]. split; [exact Hend|exact Hrest].
  - subst ob. destruct Hwf as [H1 H2]. cbn in H1. destruct (H2 eq_refl) as [H3 H4]. cbn in H3, H4. exfalso.
    destruct Hp as [Hp|[-> Hp]]; unfold rd_rest in Hp; cbn [rd_buf rd_src] in Hp.
    + destruct (px_step _ _ _ _ _ _ _ _ _ Hp H3 Hb Hsl He) as (m & Hm & [(E & Eo & Hcase)|(w & out' & E & _)]); discriminate.
    + destruct (fin_step _ _ _ _ _ _ _ _ Hp H3 Hb He) as (E & _). discriminate.
Qed.

(** The reader in the middle of a frame. *)
Definition pxr (rest : tail) (r : rd) (out : list N) : Prop :=
  rd_good L r /\ good_src (rd_src L r) /\ rd_eof L r = false /\ px (rd_dec L r) (rd_rest L r) rest out.
(** .. and at its end. *)
Definition endr (rest : tail) (r : rd) : Prop :=
  rd_good L r /\ good_src (rd_src L r) /\ rd_eof L r = false /\ ended (fst rest) (rd_dec L r) /\ rd_rest L r = snd rest.

Lemma bytes_px rest r out sl : pxr rest r out -> sl <> [] ->
  exists r' w out', decode_next_bytes L r (OSlice sl) = (r', OSlice (w ++ skipn (length w) sl), Ok (length w)) /\
    (length w <= length sl)%nat /\ out = w ++ out' /\
    ((w <> [] /\ pxr rest r' out') \/ (w = [] /\ out = [] /\ endr rest r')).
Proof.
  intros (G & Hs & He & Hp) Hsl. unfold decode_next_bytes.
  destruct (decode_next L r (OSlice sl)) as [[r' ob'] x] eqn:E.
  pose proof (decode_next_all L safe _ _ _ _ _ G E) as (G' & Hgn & _).
  pose proof (decode_next_src L safe _ _ _ _ _ (proj1 G) Hs E) as Hs'.
  destruct Hgn as (_ & _ & _ & _ & Hx).
  apply decode_next_dnext in E; [|exact safe|apply G].
  destruct (px_dnext _ _ _ _ _ E sl out rest eq_refl Hsl (proj1 G) Hs He (or_introl Hp))
    as [(w & out' & -> & -> & Hw & Hl & -> & Hp')|(-> & -> & -> & Hend & Hrest)].
  - destruct Hx as (_ & _ & He' & _). exists r', w, out'. split; [reflexivity|]. split; [exact Hl|]. split; [reflexivity|].
    left. split; [exact Hw|]. split; [exact G'|]. auto.
  - destruct Hx as (_ & _ & He' & _). exists r', [], []. split; [reflexivity|]. split; [cbn; lia|]. split; [reflexivity|].
    right. split; [reflexivity|]. split; [reflexivity|]. split; [exact G'|]. auto.
Qed.

Lemma cb_pxr rest r out sl : pxr rest r out -> out <> [] -> sl <> [] ->
  exists r' w out', decode_next_bytes L r (OSlice sl) = (r', OSlice (w ++ skipn (length w) sl), Ok (length w)) /\
    w <> [] /\ (length w <= length sl)%nat /\ out = w ++ out' /\ pxr rest r' out'.
Proof.
  intros Hp Ho Hsl. destruct (bytes_px rest r out sl Hp Hsl) as (r' & w & out' & E & Hl & Eo & [[Hw H]|(-> & H & _)]).
  - exists r', w, out'. auto.
  - contradiction.
Qed.
End PR.
