(** The destinations passed to [StreamingDecoder::update]: what is reported is what was written, and the
    pieces of an image's data put together are the data. *)
From Verif Require Import Base Common Lzw Encoder Stream Converter Reader StreamInv Steps StepsRev
  ReaderInv Interlace Ranges ConvInv DecoderSafe Canon CanonReader SpecGif DocTrace DocBlocks PixelRead DocRead DocAll SpecStream
  StreamProps StreamCount SpecWatch StreamTrace SpecOutput SpecEnc SpecRound EncSession RoundTrip RoundProps RawExt.
Open Scope N_scope.

(** ** What is reported is what was written *)
Section Exact.
Variable L : lzw_codec.
Hypothesis safe : lzw_safe L.
Notation sd := (sd L).

Lemma put_nil ob : put ob [] = ob.
Proof. destruct ob; cbn; rewrite ?app_nil_r; reflexivity. Qed.
Lemma taken_put ob w : match ob with OSlice s => (length w <= length s)%nat | OVec _ => True | ONone => w = [] end ->
  taken (length w) (put ob w) = w.
Proof.
  destruct ob as [s|v|]; cbn [put taken]; intros H.
  - rewrite firstn_app, Nat.sub_diag, firstn_all. cbn [firstn]. now rewrite app_nil_r.
  - rewrite app_length, Nat.add_sub, skipn_app, skipn_all, Nat.sub_diag. reflexivity.
  - now rewrite H.
Qed.

(** One step. *)
Definition exact (buf : list N) (ob ob' : obuf) (n : nat) (d : decoded) : Prop :=
  exists w, length w = amount d /\ ob' = put ob w /\
    match ob with OSlice s => (length w <= length s)%nat | OVec _ => True | ONone => w = [] end /\
    match d with DLzwDataCopied _ => ob <> ONone -> w = firstn n buf | _ => True end.
Lemma exact_same buf ob n d : amount d = O -> match d with DLzwDataCopied _ => False | _ => True end -> exact buf ob ob n d.
Proof.
  intros H1 H2. exists []. rewrite put_nil. split; [cbn; congruence|]. split; [reflexivity|].
  split; [destruct ob; cbn; [lia|exact I|reflexivity]|]. destruct d; try exact I. contradiction.
Qed.
Lemma decode_exact r data ob r1 ob1 n k : lr_decode_bytes L r data ob = (r1, ob1, Ok (n, k)) ->
  exists w, length w = k /\ ob1 = put ob w /\
    match ob with OSlice s => (length w <= length s)%nat | OVec _ => True | ONone => w = [] end.
Proof.
  unfold lr_decode_bytes. intros H. destruct (lr_decoder L r) as [z|]; [|discriminate].
  destruct ob as [s|v|]; [|discriminate|].
  - destruct (lz_decode L z data (length s)) as [z' [[n' w] st]] eqn:E.
    destruct (safe _ _ _ _ _ _ _ E) as [_ Hw]. exists w.
    destruct st; try discriminate; try (destruct (lr_check L r); [discriminate|]); injection H as <- <- <- <-;
      (split; [reflexivity|]); (split; [reflexivity|exact Hw]).
  - cbn [length] in H. destruct (lz_decode L z data 0) as [z' [[n' w] st]] eqn:E.
    destruct (safe _ _ _ _ _ _ _ E) as [_ Hw]. assert (w = []) as -> by (destruct w; [reflexivity|cbn in Hw; lia]).
    exists []. destruct st; try discriminate; try (destruct (lr_check L r); [discriminate|]); injection H as <- <- <- <-;
      (split; [reflexivity|]); (split; [reflexivity|reflexivity]).
Qed.
Lemma step_exact s buf ob s' ob' n d : sd_wf L s -> zero_ok L s buf -> buf <> [] ->
  next_state L s buf ob = (s', ob', Ok (n, d)) -> exact buf ob ob' n d.
Proof.
  intros Hw Hz Hb H. apply next_state_nst in H; [|exact safe|exact Hw|exact Hz|exact Hb].
  inversion H; subst; try (apply exact_same; [reflexivity|exact I]).
  all: try (match goal with |- exact _ _ _ _ (if ?c then _ else _) => destruct c; apply exact_same; [reflexivity|exact I|reflexivity|exact I] end).
  - (* copying *)
    match goal with Hd : obuf_append _ _ _ = _ |- _ => rename Hd into H7 end.
    unfold obuf_append in H7. destruct ob as [sl|v|].
    + injection H7 as <- E1 E2. rewrite firstn_length in E1, E2.
      exists (firstn n buf). cbn [amount put].
      assert (El : length (firstn n buf) = copied) by (rewrite firstn_length; lia).
      split; [exact El|]. split; [|split; [rewrite El; lia|reflexivity]]. rewrite El. rewrite firstn_length. f_equal.
      rewrite firstn_firstn. f_equal; f_equal; lia.
    + destruct (check_size _ _) in H7; [|discriminate]. injection H7 as <- E1 E2.
      rewrite firstn_length in E1, E2.
      exists (firstn n buf). cbn [amount put].
      assert (El : length (firstn n buf) = copied) by (rewrite firstn_length; lia).
      split; [exact El|]. split; [|split; [exact I|reflexivity]]. do 3 f_equal. lia.
    + injection H7 as <- E1 E2. exists []. cbn [amount put length]. split; [exact E2|]. split; [reflexivity|].
      split; [reflexivity|]. congruence.
  - (* decoding *)
    match goal with Hd : lr_decode_bytes _ _ _ _ = _ |- _ => destruct (decode_exact _ _ _ _ _ _ _ Hd) as (b & E1 & E2 & E3) end. exists b.
    destruct (Nat.eqb_spec w 0) as [Ew|Hne]; cbn [amount]; rewrite ?Ew in E1; auto.
  - match goal with Hd : lr_decode_bytes _ _ _ _ = _ |- _ => destruct (decode_exact _ _ _ _ _ _ _ Hd) as (b & E1 & E2 & E3) end. exists b.
    destruct (Nat.eqb_spec w 0) as [Ew|Hne]; cbn [amount]; rewrite ?Ew in E1; auto.
Qed.

Lemma exact_nothing buf ob ob' n : exact buf ob ob' n DNothing -> ob' = ob.
Proof. intros (w & E & -> & _). destruct w; [apply put_nil|discriminate E]. Qed.

Lemma nsteps_ob s buf ob s1 buf1 ob1 : nsteps L s buf ob s1 buf1 ob1 -> pre L s buf -> ob1 = ob.
Proof.
  induction 1 as [|s buf ob s1 ob1 n s' buf' ob' Hb He Hn IH]; intros (Hw & Hz & Ht); [reflexivity|].
  pose proof (exact_nothing _ _ _ _ (step_exact _ _ _ _ _ _ _ Hw Hz Hb He)) as ->.
  pose proof (next_state_good L safe s buf ob Hw Hz Hb) as Hg. rewrite He in Hg.
  destruct Hg as (_ & Hsh & _ & Gw & Gz & Gt & _).
  apply IH. split; [exact Gw|]. split; [exact Gz|]. intros E. destruct (Gt E) as [A|A]; [congruence|discriminate A].
Qed.

(** One call. *)
Theorem update_exact o s buf tl evs ob s' ob' n d : driven L o s (buf ++ tl) evs ->
  update L s buf ob = (s', ob', Ok (n, d)) ->
  (n <= length buf)%nat /\ length (taken (amount d) ob') = amount d /\ ob' = put ob (taken (amount d) ob') /\
  (forall k, d = DLzwDataCopied k -> ob <> ONone -> exists front, firstn n buf = front ++ taken k ob').
Proof.
  intros Hd Hu. destruct (driven_drv L safe _ _ _ _ Hd) as (_ & Hw & Hz & _).
  destruct buf as [|b0 buf].
  { cbn in Hu. injection Hu as _ <- <- <-. split; [cbn; lia|]. cbn [amount]. 
    assert (E : taken 0 ob = []) by (destruct ob; cbn [taken]; [reflexivity|rewrite Nat.sub_0_r; apply skipn_all|reflexivity]).
    rewrite E, put_nil. split; [reflexivity|]. split; [reflexivity|]. discriminate. }
  assert (Hb : b0 :: buf <> []) by discriminate. remember (b0 :: buf) as bf eqn:Eb. clear Eb b0 buf.
  assert (Ht : sd_state L s <> Trailer).
  { intros E. pose proof (trailer_hangs L s bf ob (update_fuel bf) (length bf) E Hb Hw
      : snd (update L s bf ob) = Hang) as Hh. rewrite Hu in Hh. discriminate Hh. }
  pose proof (conj Hw (conj (zero_piece L _ _ _ Hz Hb) Ht) : pre L s bf) as Hpre.
  destruct (update_flat L safe _ _ _ _ _ _ Hpre Hu) as (s1 & buf1 & ob1 & Hns & Hpre1 & _ & Hc).
  pose proof (nsteps_ob _ _ _ _ _ _ Hns Hpre) as ->.
  destruct (nsteps_suffix L safe _ _ _ _ _ _ Hns Hpre) as (k & Hk & Hkl).
  destruct Hc as [(Hnil & -> & -> & E)|(Hb1 & r0 & Hn0 & [(n0 & d0 & -> & Hdn & E)|(e & _ & E)])]; [| |discriminate E].
  - injection E as -> ->. split; [lia|]. cbn [amount].
    assert (E : taken 0 ob = []) by (destruct ob; cbn [taken]; [reflexivity|rewrite Nat.sub_0_r; apply skipn_all|reflexivity]).
    rewrite E, put_nil. split; [reflexivity|]. split; [reflexivity|]. discriminate.
  - injection E as -> ->. split; [lia|]. destruct Hpre1 as (W1 & Z1 & T1).
    pose proof (step_exact _ _ _ _ _ _ _ W1 Z1 Hb1 Hn0) as (w & E1 & E2 & E3 & E4).
    assert (Et : taken (amount d0) ob' = w) by (rewrite <- E1, E2; now apply taken_put).
    rewrite Et. split; [exact E1|]. split; [exact E2|]. intros q -> Hno. cbn [amount] in Et. rewrite Et.
    rewrite (E4 Hno).
    pose proof (next_state_good L safe _ _ ob W1 Z1 Hb1) as Hg. rewrite Hn0 in Hg. destruct Hg as (_ & _ & Gn & _).
    exists (firstn k bf). subst buf1. rewrite !skipn_length in *.
    match goal with |- firstn ?m _ = _ => replace m with (k + n0)%nat by lia end.
    rewrite <- (firstn_skipn k bf) at 1. rewrite firstn_app, firstn_firstn, firstn_length.
    f_equal; f_equal; lia.
Qed.
End Exact.

(** ** The data of the images *)
Section Out.
Variable L : lzw_codec.
Variable S : lzw_spec L.
Notation safe := (lz_is_safe L S).
Notation sd := (sd L).
Notation cn := (cn L).
Notation CEv := (CEv L).

(** Outside the data of an image the destination does not matter. *)
Definition outside (s : sd) : Prop :=
  match sd_state L s with DecodeSubBlock _ | CopySubBlock _ => False | _ => True end.
Definition eventful (d : decoded) : Prop :=
  match d with DNothing | DBytesDecoded _ | DLzwDataCopied _ => False | _ => True end.
Definition reports (s' : sd) (d : decoded) : Prop :=
  (d = DNothing \/ eventful d) /\ match d with DFrameMetadata _ => True | _ => outside s' end.
Lemma outside_step s buf ob s' ob' r : sd_wf L s -> zero_ok L s buf -> buf <> [] -> outside s ->
  next_state L s buf ONone = (s', ob', r) ->
  next_state L s buf ob = (s', ob, r) /\ match r with Ok (n, d) => reports s' d | _ => True end.
Proof.
  intros Hw Hz Hb Ho H. apply next_state_nst in H; [|exact safe|exact Hw|exact Hz|exact Hb].
  assert (G : nst L s buf ob s' ob r /\ match r with Ok (n, d) => reports s' d | _ => True end).
  { unfold outside in Ho. inversion H; subst;
      try (match goal with E : sd_state L ?x = _ |- _ => rewrite E in Ho; contradiction end).
    all: split; [once (econstructor; (eassumption || reflexivity))|].
    all: try exact I.
    all: split; [first [left; reflexivity|right; exact I|destruct (is_netscape _); [right; exact I|left; reflexivity]]|].
    all: try exact I.
    - exact Ho.
    - unfold after_screen, outside. destruct (_ =? _); cbn; exact I.
    - unfold after_image, outside. destruct (negb _); cbn; exact I.
    - destruct (is_netscape _); exact I. }
  destruct G as [G1 G2]. split; [|exact G2]. eapply nst_next_state; eassumption.
Qed.
Lemma outside_loop fuel : forall s buf total ob s' ob' x, sd_wf L s -> zero_ok L s buf -> outside s ->
  update_loop L fuel s buf ONone total = (s', ob', x) ->
  update_loop L fuel s buf ob total = (s', ob, x) /\ match x with Ok (n, d) => reports s' d | _ => True end.
Proof.
  induction fuel as [|fuel IH]; intros s buf total ob s' ob' x Hw Hz Ho H.
  - destruct buf as [|b buf]; cbn [update_loop] in *; injection H as <- _ <-; (split; [reflexivity|]); try exact I.
    split; [left; reflexivity|exact Ho].
  - destruct buf as [|b buf].
    { cbn [update_loop] in *. injection H as <- _ <-. split; [reflexivity|]. split; [left; reflexivity|exact Ho]. }
    assert (Hb : b :: buf <> []) by discriminate. cbn [update_loop] in *. remember (b :: buf) as bf eqn:Eb.
    destruct (next_state L s bf ONone) as [[s1 ob1] r] eqn:En.
    destruct (outside_step s bf ob s1 ob1 r Hw Hz Hb Ho En) as [E Hr]. rewrite E.
    pose proof (next_state_good L safe s bf ONone Hw Hz Hb) as Hg. rewrite En in Hg. destruct Hg as (_ & Hsh & Hg).
    cbn [same_shape] in Hsh. subst ob1.
    destruct r as [[n d]|e| | ]; try (injection H as <- _ <-; (split; [reflexivity|exact I])).
    destruct Hg as (Gn & Gw & Gz & _).
    destruct d; try (injection H as <- _ <-; (split; [reflexivity|exact Hr])).
    apply IH with (ob' := ob'); try assumption. apply Hr.
Qed.

Section File.
Variable o : options.
Variable g : gif.
Variable tl : list N.
Notation midst := (midst L S o g).
Notation docst := (docst L S o g).
Notation fin := (fin L S o g).
Notation ended := (ended L S o g).
Notation px := (px L S o g).

(** In the data of an image, [out] being still to come. *)
Definition indata (s : sd) (str : list N) (rest : tail) (out : list N) : Prop :=
  (out = [] /\ fin s str rest) \/
  (if o_skip_frame_decoding o then midst s str out rest
   else o_check_for_end_code o = false /\ px s str rest out).
Lemma indata_wf s str rest out : indata s str rest out -> sd_wf L s /\ sd_state L s <> Trailer /\ sd_opts L s = o /\ str <> [].
Proof.
  intros [[_ F]|H].
  - split; [apply F|]. split; [rewrite (fn_st _ _ _ _ _ _ _ F); discriminate|]. split; [apply F|].
    rewrite (fn_str _ _ _ _ _ _ _ F). discriminate.
  - destruct (o_skip_frame_decoding o) eqn:Esk.
    + destruct H as [M1 M2 M3 M4 M5 M6 M7 (k & Hi & Hk)]. rewrite Esk in Hk. split; [exact M1|].
      split; [rewrite Hk; discriminate|]. split; [exact M2|].
      destruct Hi as (cur & subs & -> & _). destruct cur; [|discriminate]. destruct (concat _); discriminate.
    + destruct H as (_ & H). pose proof (px_str _ _ _ _ _ _ _ _ H) as Hs.
      destruct H as (data & z & X & [M1 M2 M3 M4 M5 M6 M7 (k & Hi & Hk)] & _). rewrite Esk in Hk. destruct Hk as [Hk _].
      split; [exact M1|]. split; [rewrite Hk; discriminate|]. split; [exact M2|exact Hs].
Qed.

Lemma fin_step' s buf r rest ob s' ob' x : fin s (buf ++ r) rest -> zero_ok L s buf -> buf <> [] ->
  next_state L s buf ob = (s', ob', x) ->
  x = Ok (1%nat, DDataEnd) /\ ob' = ob /\ ended (fst rest) s' /\ skipn 1 buf ++ r = snd rest.
Proof.
  intros [F1 F2 F3 F4 F5 F6 F7 F8 F9] Hz Hb H.
  pose proof (next_state_good L safe s buf ob F1 Hz Hb) as Hg. rewrite H in Hg.
  apply next_state_nst in H; [|exact safe|exact F1|exact Hz|exact Hb].
  inversion H; subst; try congruence; try (rewrite F7 in *; discriminate).
  split; [reflexivity|]. split; [reflexivity|]. split.
  - split; [|split; [reflexivity|exact F6]]. constructor; try assumption; try reflexivity; [apply Hg|]. left. split; reflexivity.
  - cbn [app] in F9. injection F9 as E. exact E.
Qed.

(** One step in the data. *)
Definition image_outcome (buf r : list N) (rest : tail) (out : list N) (ob : obuf) (s' : sd) (ob' : obuf)
  (x : dres (nat * decoded)) : Prop :=
  (exists n, x = Ok (n, DNothing) /\ ob' = ob /\ indata s' (skipn n buf ++ r) rest out) \/
  (exists n d out', x = Ok (n, d) /\ ~ eventful d /\ d <> DNothing /\ taken (amount d) ob' <> [] /\
     out = taken (amount d) ob' ++ out' /\ indata s' (skipn n buf ++ r) rest out') \/
  (exists n, x = Ok (n, DDataEnd) /\ out = [] /\ ob' = ob /\ ended (fst rest) s' /\ skipn n buf ++ r = snd rest) \/
  (exists e, x = Err e /\ ~ accepted o buf ob).

Lemma image_step s buf r rest out ob s' ob' x : indata s (buf ++ r) rest out -> zero_ok L s buf -> buf <> [] ->
  keeps o ob -> next_state L s buf ob = (s', ob', x) -> image_outcome buf r rest out ob s' ob' x.
Proof.
  intros [[-> F]|Hin] Hz Hb Hk H.
  { destruct (fin_step' _ _ _ _ _ _ _ _ F Hz Hb H) as (-> & -> & He & Hr). right. right. left. exists 1%nat. auto 10. }
  destruct (o_skip_frame_decoding o) eqn:Esk.
  - (* copying *)
    pose proof (md_wf _ _ _ _ _ _ _ _ Hin) as W.
    pose proof (next_state_good L safe s buf ob W Hz Hb) as Hg. rewrite H in Hg.
    pose proof (step_exact L safe s buf ob s' ob') as Hex.
    pose proof H as Hn. apply next_state_nst in H; [|exact safe|exact W|exact Hz|exact Hb].
    destruct Hin as [M1 M2 M3 M4 M5 M6 M7 (k & Hi & Hst)]. rewrite Esk in Hst.
    assert (Happ : forall n, (n <= length buf)%nat -> skipn n buf ++ r = skipn n (buf ++ r)).
    { intros n Hnn. rewrite skipn_app. replace (n - length buf)%nat with O by lia. reflexivity. }
    assert (Hfst : forall n, (n <= length buf)%nat -> firstn n buf = firstn n (buf ++ r)).
    { intros n Hnn. rewrite firstn_app. replace (n - length buf)%nat with O by lia. cbn. now rewrite app_nil_r. }
    assert (Hlen : (0 < length buf)%nat) by (destruct buf; [congruence|cbn; lia]).
    inversion H; subst; try (match goal with Es : sd_state L ?z = _ |- _ => rewrite Es in Hst; discriminate Hst end).
    + match goal with Hh : is_hdr _ = true |- _ => rewrite Hst in Hh; discriminate Hh end.
    + (* bytes of the sub-block *)
      match goal with Ha : obuf_append _ _ _ = _ |- _ => rename Ha into Hap end.
      match goal with Hc : (consumed <= _)%nat |- _ => rename Hc into Hcn end.
      match goal with Es : sd_state L s = CopySubBlock ?q |- _ => assert (q = k) by congruence; subst q end.
      specialize (Hex _ _ W Hz Hb Hn). destruct Hex as (w & E1 & E2 & E3 & E4).
      assert (Hno : ob <> ONone) by (intros ->; exact Hk). specialize (E4 Hno). cbn [amount] in E1.
      destruct (inblk_drop o k _ _ _ consumed ltac:(lia) Hi) as (Hi' & Hf & Hfl).
      assert (Ew : w = firstn consumed out) by (rewrite E4, Hfst by lia; exact Hf).
      assert (Et : taken copied ob' = w) by (rewrite <- E1, E2; now apply taken_put).
      right. left. exists consumed, (DLzwDataCopied copied), (skipn consumed out).
      split; [reflexivity|]. split; [auto|]. split; [discriminate|]. cbn [amount]. rewrite Et.
      split.
      { intros E0. rewrite E0 in E1. cbn in E1. subst copied. unfold obuf_append in Hap.
        destruct ob as [sl|v|]; [| |congruence].
        - injection Hap as _ _ E. rewrite firstn_length in E. cbn in Hk. destruct sl; [congruence|]. cbn [length] in E. lia.
        - destruct (check_size _ _) in Hap; [|discriminate]. injection Hap as _ _ E. rewrite firstn_length in E. lia. }
      split; [rewrite Ew; symmetry; apply firstn_skipn|]. right. rewrite Esk.
      destruct Hg as (_ & _ & _ & W' & _).
      constructor; try assumption. exists (k - consumed)%nat. split; [rewrite Happ by lia; exact Hi'|].
      rewrite Esk. reflexivity.
    + (* the memory limit *)
      right. right. right. eexists. split; [reflexivity|]. intros [_ Ha].
      match goal with Hq : obuf_append _ _ _ = _ |- _ => rename Hq into Hap end. unfold obuf_append in Hap.
      destruct ob' as [sl|v|]; [discriminate| |discriminate].
      destruct (check_size _ _) eqn:Ec in Hap; [discriminate|].
      assert (Hc : check_size (o_limit (sd_opts L s')) (len v + len (firstn (Nat.min k0 (length buf)) buf)) = true); [|congruence].
      apply fits_check. rewrite M2. eapply fits_mono; [|exact Ha]. unfold len. rewrite firstn_length. lia.
    + (* the next sub-block *)
      assert (k = O) as -> by congruence.
      apply inblk_cases in Hi. destruct Hi as [(cur & tl' & Hlt & _)|(_ & [(b1 & t1 & Et & Hb1 & Hi)|(Et & _)])]; [lia| |].
      2:{ injection Et as -> _. congruence. }
      cbn [app] in Et. injection Et as <- <-. left. exists 1%nat. split; [reflexivity|]. split; [reflexivity|].
      destruct Hg as (_ & _ & _ & W' & _). right. rewrite Esk. constructor; try assumption. exists (N.to_nat b). split; [exact Hi|].
      rewrite Esk. reflexivity.
    + (* the end *)
      assert (k = O) as -> by congruence.
      apply inblk_cases in Hi. destruct Hi as [(cur & tl' & Hlt & _)|(_ & [(b1 & t1 & Et & Hb1 & Hi)|(Et & Hd0)])]; [lia| |].
      { injection Et as <- _. congruence. }
      left. exists O. split; [reflexivity|]. split; [reflexivity|]. left. split; [exact Hd0|].
      destruct Hg as (_ & _ & _ & W' & _). constructor; try assumption. reflexivity.
  - (* decoding *)
    destruct Hin as (Hck & Hp). destruct ob as [sl|v|]; [|cbn in Hk; congruence|contradiction]. cbn in Hk.
    destruct (px_step L S o g Esk Hck _ _ _ _ _ _ _ _ _ Hp Hz Hb Hk H) as
      (n & Hn & [(-> & -> & Hc)|(w & out' & -> & -> & Hw & Hwl & -> & Hp')]).
    + left. exists n. split; [reflexivity|]. split; [reflexivity|]. unfold indata. rewrite Esk. tauto.
    + right. left. exists n, (DBytesDecoded (length w)), out'. split; [reflexivity|]. split; [auto|]. split; [discriminate|].
      cbn [amount].
      assert (Et : taken (length w) (OSlice (w ++ skipn (length w) sl)) = w) by (apply (taken_put (OSlice sl)); exact Hwl).
      rewrite Et. split; [exact Hw|]. split; [reflexivity|]. right. rewrite Esk. auto.
Qed.

(** One call in the data. *)
Lemma image_nsteps s buf ob s1 buf1 ob1 : nsteps L s buf ob s1 buf1 ob1 -> forall r rest out, keeps o ob -> zero_ok L s buf ->
  indata s (buf ++ r) rest out -> (length buf1 <= length buf)%nat /\ ob1 = ob /\ zero_ok L s1 buf1 /\ indata s1 (buf1 ++ r) rest out.
Proof.
  induction 1 as [|s buf ob s1 ob1 n s' buf' ob' Hb He Hn IH]; intros r rest out Hk Hz Hin; [auto|].
  destruct (indata_wf _ _ _ _ Hin) as (Hw & Ht & _).
  pose proof (next_state_good L safe s buf ob Hw Hz Hb) as Hg. rewrite He in Hg. destruct Hg as (_ & _ & Gn & Gw & Gz & _).
  destruct (image_step _ _ _ _ _ _ _ _ _ Hin Hz Hb Hk He) as
    [(m & E & -> & Hi)|[(m & d & out' & E & _ & Hd & _)|[(m & E & _)|(e & E & _)]]]; try discriminate E.
  - injection E as <-. destruct (IH r rest out Hk Gz Hi) as (I1 & I2 & I3 & I4). rewrite skipn_length in I1.
    split; [lia|]. auto.
  - injection E as _ <-. congruence.
Qed.
Lemma accepted_less buf buf' ob : (length buf' <= length buf)%nat -> accepted o buf ob -> accepted o buf' ob.
Proof.
  intros Hl [H1 H2]. split; [exact H1|]. destruct ob; try exact I. eapply fits_mono; [|exact H2]. lia.
Qed.
Lemma image_call s buf r rest out ob s' ob' x : indata s (buf ++ r) rest out -> zero_ok L s (buf ++ r) ->
  keeps o ob -> update L s buf ob = (s', ob', x) ->
  image_outcome buf r rest out ob s' ob' x /\
  match x with
  | Ok (n, d) => zero_ok L s' (skipn n buf ++ r) /\ (n <= length buf)%nat /\ (d = DNothing -> n = length buf)
  | Err _ => True | _ => False end.
Proof.
  intros Hin Hz Hk Hu. destruct buf as [|b0 buf].
  { cbn in Hu. injection Hu as <- <- <-. split; [left; exists O; auto|]. auto. }
  assert (Hb : b0 :: buf <> []) by discriminate. remember (b0 :: buf) as bf eqn:Eb. clear Eb b0 buf.
  destruct (indata_wf _ _ _ _ Hin) as (Hw & Ht & _). pose proof (zero_piece L _ _ _ Hz Hb) as Hz1.
  destruct (update_flat L safe _ _ _ _ _ _ (conj Hw (conj Hz1 Ht) : pre L s bf) Hu) as (s1 & buf1 & ob1 & Hns & Hpre1 & _ & Hc).
  destruct (image_nsteps _ _ _ _ _ _ Hns r rest out Hk Hz1 Hin) as (Hl & -> & Hz2 & Hin1).
  destruct (nsteps_suffix L safe _ _ _ _ _ _ Hns (conj Hw (conj Hz1 Ht))) as (k & Hkk & Hkl).
  destruct Hc as [(Hnil & -> & -> & ->)|(Hb1 & r0 & Hn0 & Hc)].
  - rewrite Hnil in *. cbn [app] in Hin1. split.
    + left. exists (length bf). rewrite skipn_all. auto.
    + rewrite skipn_all. cbn [app]. split; [apply (zero_longer L s1 [] r); exact Hz2|]. auto.
  - destruct (indata_wf _ _ _ _ Hin1) as (Hw1 & _).
    pose proof (next_state_good L safe s1 buf1 ob Hw1 Hz2 Hb1) as Hg. rewrite Hn0 in Hg. destruct Hg as (_ & _ & Hg).
    pose proof (image_step _ _ _ _ _ _ _ _ _ Hin1 Hz2 Hb1 Hk Hn0) as Ho.
    destruct Hc as [(n0 & d & -> & Hd & ->)|(e & -> & ->)].
    + destruct Hg as (Gn & Gw & Gz & _).
      assert (En : skipn (length bf - length (skipn n0 buf1)) bf = skipn n0 buf1).
      { rewrite Hkk in *. now apply skipn_skipn_suffix. }
      split; [|rewrite En; split; [now apply zero_longer|]; split; [lia|contradiction]].
      destruct Ho as [(m & E & _)|[(m & d' & out' & E & H1 & H2 & H3 & H4 & H5)|[(m & E & H1 & H2 & H3 & H4)|(e & E & _)]]];
        try discriminate E.
      * injection E as _ ->. congruence.
      * injection E as <- <-. right. left. eexists _, d, out'. split; [reflexivity|]. rewrite En. auto 10.
      * injection E as <- ->. right. right. left. eexists. split; [reflexivity|]. rewrite En. auto 10.
    + split; [|exact I]. right. right. right. exists e. split; [reflexivity|]. intros Ha.
      destruct Ho as [(m & E & _)|[(m & d' & out' & E & _)|[(m & E & _)|(e' & E & H1)]]]; try discriminate E.
      apply H1. eapply accepted_less; eassumption.
Qed.

(** ** The rest of a file *)

(** All that is still to be seen, up to the trailer, and the data of the images still to come. *)
Inductive full2 : sd -> list N -> list sight -> list (list N) -> Prop :=
| f2_end s : full2 s tl [] []
| f2_ev s str s1 str1 d obs outs :
    cn s str ONone (CEv s1 str1 ONone d) -> match d with DFrameMetadata _ => False | _ => True end ->
    (obs = [] -> d = DBlockStart BkTrailer) -> full2 s1 str1 obs outs -> full2 s str (observe s1 d :: obs) outs
| f2_img s str s1 str1 ty rest out obs outs :
    cn s str ONone (CEv s1 str1 ONone (DFrameMetadata ty)) -> indata s1 str1 rest out -> obs <> [] ->
    (forall s2, ended (fst rest) s2 -> full2 s2 (snd rest) obs outs) ->
    full2 s str (observe s1 (DFrameMetadata ty) :: SPlain DDataEnd :: obs) (out :: outs).

Definition calm (x : sight) : Prop := match x with SFrame _ _ => False | _ => True end.
Lemma atr_full2 s str obs s' str' : atr L s str obs s' str' -> Forall calm obs ->
  forall obs' outs, obs' <> [] -> full2 s' str' obs' outs -> full2 s str (obs ++ obs') outs.
Proof.
  induction 1 as [s str s1 str1 Hs|s str s3 str3 d evs s1 str1 H1 H2 IH]; intros Hc obs' outs Hne H.
  - cbn [app]. destruct H as [s'|s' str' s2 str2 d obs' outs H Hm Hl H'|s' str' s2 str2 ty rest out obs' outs H Hi Hn H']; [congruence| |].
    + econstructor; [apply Hs; exact H|exact Hm|exact Hl|exact H'].
    + eapply f2_img; [apply Hs; exact H|exact Hi|exact Hn|exact H'].
  - cbn [app]. inversion Hc as [|? ? Hc1 Hc2]; subst. econstructor; [exact H1| | |].
    + destruct d; try exact I. exact Hc1.
    + intros E. apply app_eq_nil in E. destruct E as [_ E]. congruence.
    + now apply IH.
Qed.
Lemma calm_sub l sofar subs : Forall calm (sub_sights l sofar subs).
Proof. revert sofar. induction subs as [|b subs IH]; intros sofar; cbn [sub_sights]; constructor; [exact I|apply IH]. Qed.
Lemma calm_ext l subs : Forall calm (ext_sights l subs).
Proof.
  destruct subs as [|b subs]; cbn [ext_sights]; [constructor|]. constructor; [exact I|].
  apply Forall_app. split; [apply calm_sub|]. constructor; [exact I|].
  destruct (if l =? 0xFF then _ else _); repeat constructor.
Qed.
Lemma calm_unk x subs : Forall calm (unk_sights x subs).
Proof.
  destruct subs as [|b subs]; cbn [unk_sights]; [constructor|].
  apply Forall_app. split; [apply calm_sub|]. constructor; [exact I|].
  destruct (if fst x =? 0xFF then _ else _); repeat constructor.
Qed.
Lemma header_full2 s str bs c x h : docst s c x -> pos L s str bs (0x3B :: tl) -> sd_header_end L s = h ->
  heads_on bs (0x3B :: tl) ->
  exists s1 str1, docst s1 c x /\ pos L s1 str1 bs (0x3B :: tl) /\ sd_header_end L s1 = true /\
    forall obs outs, obs <> [] -> full2 s1 str1 obs outs -> full2 s str ((if h then [] else [SPlain DHeaderEnd]) ++ obs) outs.
Proof.
  intros Hd Hp Hh Hb. destruct h.
  - exists s, str. auto.
  - destruct (pos_header_end L S o g _ _ _ _ _ _ Hd Hp Hh Hb) as (s1 & str1 & H1 & H2 & H3 & H4).
    exists s1, str1. repeat (split; [assumption|]). intros obs outs Hne Hf. cbn [app].
    change (SPlain DHeaderEnd) with (@observe L s1 DHeaderEnd). econstructor; [eassumption|exact I|congruence|exact Hf].
Qed.

Lemma apos_meta2 s str i bs c x : docst s c x -> pos L s str (BImg i :: bs) (0x3B :: tl) -> sd_header_end L s = true ->
  img_ok o g i ->
  exists s0 str0 s1 str1, atr L s str [SPlain (DBlockStart BkImage)] s0 str0 /\
    cn s0 str0 ONone (CEv s1 str1 ONone (DFrameMetadata (img_ty o i))) /\
    sd_current L s1 = Some (meta_frame c i (is_interlaced (im_flags i)) []) /\
    midst s1 str1 (payload (im_subs i)) (x, ser_blocks bs ++ 0x3B :: tl) /\
    (o_skip_frame_decoding o = false ->
       exists z, lr_decoder L (sd_lzw L s1) = Some z /\
         forall inp out, lz_pending S (lz_new L (im_mcs i)) inp out -> lz_pending S z inp out).
Proof.
  intros Hd Hp Hh Hok.
  destruct (pos_image L S o g _ _ _ _ _ _ _ Hd Hp Hh Hok) as (s0 & R0 & E1 & E2 & E3 & E4 & E5 & E6 & E7 & E8).
  destruct Hok as (K1 & K2 & K3 & K4 & K5 & (K6 & K6') & K7 & (K8 & K8') & K9 & K10).
  destruct (im_subs i) as [|b subs] eqn:Esub; [congruence|]. clear K8.
  pose proof (Forall_inv K8') as Kb. pose proof (Forall_inv_tail K8') as Kr. clear K8'.
  unfold ser_subs in R0. cbn [map concat] in R0. unfold ser_sub at 1 in R0. cbn [app] in R0.
  rewrite <- !app_assoc in R0. cbn [app] in R0.
  set (rest := ser_blocks bs ++ 0x3B :: tl) in *. set (b0 := N.of_nat (length b)) in *.
  set (str1 := b ++ concat (map ser_sub subs) ++ 0 :: rest) in *.
  assert (Hgo : forall s1, nst L s0 [b0] ONone s1 ONone (Ok (1%nat, DFrameMetadata (img_ty o i))) ->
     cn s0 (b0 :: str1) ONone (CEv s1 str1 ONone (DFrameMetadata (img_ty o i))) /\ sd_wf L s1).
  { intros s1 Hn.
    assert (Hz : zero_ok L s0 [b0]) by (intros E; rewrite E1 in E; discriminate E).
    pose proof (absorb L safe s0 [b0] ONone s1 ONone _ str1 (proj2 R0) Hz ltac:(discriminate) eq_refl Hn) as Ha.
    cbn [absorbed silent] in Ha. split; [apply Ha; reflexivity|].
    pose proof (next_state_good L safe s0 [b0] ONone (proj2 R0) Hz ltac:(discriminate)) as Hg.
    assert (Hne : [b0] <> []) by discriminate.
    rewrite (nst_next_state L _ _ _ _ _ _ (proj2 R0) Hne Hn) in Hg. apply Hg. }
  assert (A0 : atr L s str [SPlain (DBlockStart BkImage)] s0 (b0 :: str1)).
  { apply (ctr_atr L _ _ [DBlockStart BkImage]); [apply R0|repeat constructor]. }
  unfold img_ty in *. destruct (o_skip_frame_decoding o) eqn:Esk.
  - set (s1 := set_state L s0 (CopySubBlock (N.to_nat b0))) in *.
    destruct (Hgo s1) as [G1 G2].
    { apply (N_init_skip L s0 [b0] ONone b0 []); [exact E1|reflexivity|congruence|apply code_size_ok; exact K7]. }
    exists s0, (b0 :: str1), s1, str1. split; [exact A0|]. split; [exact G1|]. split; [exact E5|]. split; [|discriminate].
    constructor; try assumption. exists (N.to_nat b0). split; [now apply inblk_first|].
    rewrite Esk. reflexivity.
  - destruct (lr_reset_ok L S o _ _ E6 K7) as (r & z & Er & Er2 & Er3 & Er4 & _ & Er5).
    set (s1 := set_state L (set_lzw L s0 r) (DecodeSubBlock (N.to_nat b0))) in *.
    destruct (Hgo s1) as [G1 G2].
    { apply (N_init L s0 [b0] ONone b0 [] (im_mcs i) r); [exact E1|reflexivity|congruence|exact Er|apply code_size_ok; exact K7]. }
    exists s0, (b0 :: str1), s1, str1. split; [exact A0|]. split; [exact G1|]. split; [exact E5|]. split.
    + constructor; try assumption. exists (N.to_nat b0). split; [now apply inblk_first|].
      rewrite Esk. split; [reflexivity|]. exists z. exact Er3.
    + intros _. exists z. split; [exact Er3|exact Er5].
Qed.

Lemma blocks_full2 bs : forall s str c x h outs, docst s c x -> pos L s str bs (0x3B :: tl) -> sd_header_end L s = h ->
  follow o g x bs -> Forall2 (image_data L S o) (controlled c bs) outs -> full2 s str (blocks_sights o h c x bs) outs.
Proof.
  induction bs as [|b bs IH]; intros s str c x h outs Hd Hp Hh Hok Hsc; pose proof (follow_lead o g _ _ Hok) as Hlead.
  - cbn [blocks_sights]. cbn [controlled] in Hsc. inversion Hsc; subst outs.
    destruct (header_full2 _ _ _ _ _ _ Hd Hp Hh (or_introl (conj eq_refl (ex_intro _ tl eq_refl)))) as (s1 & str1 & D1 & P1 & H1 & Hf). apply Hf; [discriminate|].
    destruct (pos_trailer L S o g _ _ _ _ _ D1 P1 H1) as (s2 & H2).
    change (SPlain (DBlockStart BkTrailer)) with (@observe L s2 (DBlockStart BkTrailer)).
    econstructor; [exact H2|exact I|reflexivity|constructor].
  - destruct b as [l subs|i|t subs]; cbn [blocks_sights].
    + apply follow_ext in Hok as [Hb Hok']. destruct (apos_ext L S o g tl _ _ _ _ _ _ _ Hd Hp Hb) as (s1 & str1 & [R1 _] & D1 & P1 & H1).
      eapply atr_full2; [exact R1|apply calm_ext|apply sights_nonempty|]. apply IH; try assumption; [congruence|].
      destruct subs; [destruct Hb as (_ & (Hne & _) & _); congruence|exact Hok'].
    + apply follow_img in Hok as [Hb Hok']. destruct (header_full2 _ _ _ _ _ _ Hd Hp Hh (heads_on_cons _ _ _ (proj1 Hlead) (proj2 Hlead))) as (s1 & str1 & D1 & P1 & H1 & Hf). apply Hf; [discriminate|].
      cbn [controlled] in Hsc. inversion Hsc as [|? out ? outs' Hs1 Hs2]; subst.
      destruct (apos_meta2 _ _ _ _ _ _ D1 P1 H1 Hb) as (sa & stra & s2 & str2 & A2 & C2 & Hcur & M2 & Hl).
      match goal with |- full2 _ _ ([?x; ?y; ?z] ++ ?w) _ => change ([x; y; z] ++ w) with ([x] ++ y :: z :: w) end.
      eapply atr_full2; [exact A2|repeat constructor|discriminate|].
      assert (Ey : SFrame (DFrameMetadata (if o_skip_frame_decoding o then FLzw (im_mcs i) else FPixels))
                     (Some (meta_frame c i (is_interlaced (im_flags i)) [])) = @observe L s2 (DFrameMetadata (img_ty o i))).
      { cbn [observe]. rewrite Hcur. reflexivity. }
      rewrite Ey. eapply f2_img; [exact C2| |apply sights_nonempty|].
      * right. unfold image_data in Hs1. cbn [snd] in Hs1. destruct (o_skip_frame_decoding o) eqn:Esk.
        -- subst out. exact M2.
        -- destruct Hs1 as (Hck & Ho). split; [exact Hck|]. destruct (Hl eq_refl) as (z & Hz & Hz'). specialize (Hz' _ _ Ho).
           eapply px_start; eassumption.
      * intros s3 (D3 & E3 & H3). cbn [fst snd] in *. apply IH; [exact D3|left; auto|exact H3|assumption|assumption].
    + apply follow_unk in Hok as (Hb & Hx & Hf9 & Hok').
      destruct (header_full2 _ _ _ _ _ _ Hd Hp Hh (heads_on_cons _ _ _ (proj1 Hlead) (proj2 Hlead))) as (s1 & str1 & D1 & P1 & H1 & Hf).
      destruct (apos_unk L S o g tl _ _ _ _ _ _ _ D1 P1 H1 Hb Hx Hf9) as (s2 & str2 & [A2 _] & D2 & P2 & H2).
      apply Hf; [intros E; apply app_eq_nil in E; destruct E as [_ E]; revert E; apply sights_nonempty|].
      eapply atr_full2; [exact A2|apply calm_unk|apply sights_nonempty|]. apply IH; assumption.
Qed.

Lemma file_full2 outs : gif_ok o g -> Forall2 (image_data L S o) (gif_images g) outs ->
  full2 (sd_new L o) (ser_gif g tl) (file_sights o g) outs.
Proof.
  intros (G1 & G2 & G3 & G4 & G5 & G6 & G7 & G8 & G9) Hsc. unfold file_sights, ser_gif.
  assert (E : exists b q, ser_blocks (g_blocks g) ++ 0x3B :: tl = b :: q /\ pos L (head_sd L o g b) q (g_blocks g) (0x3B :: tl)).
  { destruct (g_blocks g) as [|b bs]; [congruence|]. exists (lead b), (body b ++ ser_blocks bs ++ 0x3B :: tl).
    assert (E : ser_blocks (b :: bs) ++ 0x3B :: tl = lead b :: body b ++ ser_blocks bs ++ 0x3B :: tl).
    { unfold ser_blocks. cbn [map concat]. rewrite ser_blk_lead. cbn [app]. now rewrite <- app_assoc. }
    split; [exact E|]. right. left. exists (lead b). split; [reflexivity|]. split; [left; discriminate|]. symmetry. exact E. }
  destruct E as (b & q & E & P). rewrite E.
  destruct (run_head L safe o g b q G1 G2 G6) as [R W].
  eapply (atr_full2 _ _ (map SPlain (head_events g))); [apply ctr_atr; [exact R|repeat constructor]|repeat constructor|apply sights_nonempty|].
  apply blocks_full2; try assumption; [|reflexivity|split; assumption].
  constructor; try reflexivity; try assumption; [left; split; reflexivity|]. split; [reflexivity|exact I].
Qed.

(** One call between the images. *)
Lemma between_call s buf r ob missing outs : sd_wf L s -> zero_ok L s (buf ++ r) -> outside s ->
  full2 s (buf ++ r) missing outs -> missing <> [] -> sd_state L s <> Trailer ->
  exists s' n d, update L s buf ob = (s', ob, Ok (n, d)) /\ (d = DNothing -> n = length buf) /\ (n <= length buf)%nat /\
    sd_wf L s' /\ zero_ok L s' (skipn n buf ++ r) /\
    ((d = DNothing /\ outside s' /\ sd_state L s' <> Trailer /\ full2 s' (skipn n buf ++ r) missing outs) \/
     (eventful d /\ match d with DFrameMetadata _ => False | _ => outside s' end /\
      exists missing', missing = observe s' d :: missing' /\ full2 s' (skipn n buf ++ r) missing' outs /\
        (missing' = [] <-> sd_state L s' = Trailer)) \/
     (exists ty missing' out outs' rest, d = DFrameMetadata ty /\ missing = observe s' d :: SPlain DDataEnd :: missing' /\
        outs = out :: outs' /\ indata s' (skipn n buf ++ r) rest out /\ missing' <> [] /\
        forall s2, ended (fst rest) s2 -> full2 s2 (snd rest) missing' outs')).
Proof.
  intros Hw Hz Hout Hfull Hm Ht.
  destruct buf as [|b0 buf].
  { exists s, O, DNothing. split; [reflexivity|]. split; [reflexivity|]. split; [lia|]. cbn [skipn app] in *.
    split; [exact Hw|]. split; [exact Hz|]. left. auto. }
  assert (Hb : b0 :: buf <> []) by discriminate. remember (b0 :: buf) as bf eqn:Eb. clear Eb b0 buf.
  pose proof (zero_piece L _ _ _ Hz Hb) as Hzb.
  pose proof (conj Hw (conj Hzb Ht) : pre L s bf) as Hpre.
  destruct (update L s bf ONone) as [[s' ob'] x] eqn:Hu.
  destruct (outside_loop _ _ _ _ ob _ _ _ Hw Hzb Hout Hu) as [Hu2 Hrep].
  change (update_loop L (update_fuel bf) s bf ob (length bf)) with (update L s bf ob) in Hu2.
  destruct (update_flat L safe _ _ _ _ _ _ Hpre Hu) as (s1 & buf1 & ob1 & Hns & _ & _ & Hc).
  destruct (nsteps_cn L S _ _ _ _ _ _ Hns Hpre eq_refl) as (-> & Hpre1 & Hslide).
  destruct (nsteps_suffix L safe _ _ _ _ _ _ Hns Hpre) as (k & Hk & Hkl).
  remember (bf ++ r) as str0 eqn:Estr. symmetry in Estr.
  assert (Hgo : forall s3 str3, (forall y, cn s3 str3 ONone y -> cn s str0 ONone y) -> pre L s3 str3 ->
    full2 s3 str3 missing outs).
  { intros s3 str3 Hs3 Hp3. destruct (cn_total L S _ s3 str3 (Nat.lt_succ_diag_r _) Hp3) as (y & Hy).
    pose proof (Hs3 _ Hy) as Hy'.
    destruct Hfull as [|s str s2 str2 d2 obs2 outs2 Hcn Hd Hlast Hfull|s str s2 str2 ty rest out obs2 outs2 Hcn Hi Hne Hfull]; [congruence| |].
    - pose proof (cn_det L _ _ _ _ Hcn _ Hy') as <-. econstructor; eassumption.
    - pose proof (cn_det L _ _ _ _ Hcn _ Hy') as <-. eapply f2_img; eassumption. }
  destruct Hc as [(Hnil & -> & -> & ->)|(Hb1 & r0 & Hn0 & [(n0 & d & -> & Hd & ->)|(e & -> & ->)])].
  - exists s1, (length bf), DNothing. split; [exact Hu2|]. split; [reflexivity|]. split; [lia|]. rewrite skipn_all. cbn [app].
    destruct Hpre1 as (W1 & Z1 & T1). rewrite Hnil in Z1.
    assert (Z : zero_ok L s1 r) by (apply (zero_longer L s1 [] r); exact Z1).
    split; [exact W1|]. split; [exact Z|]. left. split; [reflexivity|]. split; [apply Hrep|]. split; [exact T1|].
    apply Hgo; [|split; [|split]; assumption]. intros y Hy. subst str0. apply Hslide. rewrite Hnil. exact Hy.
  - destruct Hpre1 as (W1 & Z1 & T1).
    pose proof (next_state_nst L safe _ _ _ _ _ _ W1 Z1 Hb1 Hn0) as Hst.
    pose proof (next_state_good L safe _ _ ONone W1 Z1 Hb1) as Hg. rewrite Hn0 in Hg.
    destruct Hg as (_ & Hsh & Gn & Gw & Gz & Gt & _). cbn [same_shape] in Hsh. subst ob'.
    pose proof (absorb L safe _ _ ONone _ ONone _ r W1 Z1 Hb1 eq_refl Hst) as Ha. cbn [absorbed] in Ha.
    set (n := (length bf - length (skipn n0 buf1))%nat) in *.
    assert (En : skipn n bf = skipn n0 buf1).
    { unfold n. rewrite Hk in *. apply skipn_skipn_suffix. exact Hkl. exact Gn. }
    exists s', n, d. split; [exact Hu2|]. split; [contradiction|]. split; [lia|]. rewrite En.
    assert (Z : zero_ok L s' (skipn n0 buf1 ++ r)) by (now apply zero_longer).
    split; [exact Gw|]. split; [exact Z|].
    destruct Hrep as [[E|Hev] Hrep]; [congruence|].
    assert (Es : silent d = false) by (destruct d; try reflexivity; contradiction).
    rewrite Es in Ha. specialize (Ha _ eq_refl). apply Hslide in Ha. rewrite Estr in Ha.
    destruct Hfull as [|s str s2 str2 d2 obs2 outs2 Hcn Hd2 Hlast Hfull|s str s2 str2 ty rest out obs2 outs2 Hcn Hi Hne Hfull]; [congruence| |].
    + pose proof (cn_det L _ _ _ _ Hcn _ Ha) as E. injection E as -> -> ->.
      right. left. split; [exact Hev|]. split; [destruct d; try exact Hrep; contradiction|].
      exists obs2. split; [reflexivity|]. split; [exact Hfull|]. split.
      * intros E. specialize (Hlast E). subst d.
        clear - Hst. inversion Hst; subst; try reflexivity; exfalso;
          [destruct (is_netscape _) in *|destruct (w =? 0)%nat in *|destruct (w =? 0)%nat in *]; discriminate.
      * intros E. destruct Hfull as [|s' str' s3 str3 d3 obs3 outs3 Q|s' str' s3 str3 ty rest out obs3 outs3 Q]; [reflexivity| |].
        -- apply cn_trailer in Q; [discriminate Q|exact E].
        -- apply cn_trailer in Q; [discriminate Q|exact E].
    + pose proof (cn_det L _ _ _ _ Hcn _ Ha) as E. injection E as -> -> <-.
      right. right. exists ty, obs2, out, outs2, rest. auto 10.
  - exfalso. destruct Hpre1 as (W1 & Z1 & T1).
    pose proof (next_state_nst L safe _ _ _ _ _ _ W1 Z1 Hb1 Hn0) as Hst.
    pose proof (next_state_good L safe _ _ ONone W1 Z1 Hb1) as Hg. rewrite Hn0 in Hg.
    destruct Hg as (_ & Hsh & _). cbn [same_shape] in Hsh. subst ob'.
    pose proof (absorb L safe _ _ ONone _ ONone _ r W1 Z1 Hb1 eq_refl Hst) as Ha. cbn [absorbed] in Ha.
    apply Hslide in Ha. rewrite Estr in Ha.
    destruct Hfull as [|s str s2 str2 d2 obs2 outs2 Hcn Hd2 Hlast Hfull|s str s2 str2 ty rest out obs2 outs2 Hcn Hi Hne Hfull]; [congruence| |];
      pose proof (cn_det L _ _ _ _ Hcn _ Ha) as E; discriminate E.
Qed.

(** ** Any caller *)
Variable outs : list (list N).
Hypothesis Hok : gif_ok o g.
Hypothesis Houts : Forall2 (image_data L S o) (gif_images g) outs.

Definition cinv (s : sd) (rest : list N) (obs : list sight) (imgs : list (list N)) (cur : option (list N)) : Prop :=
  sd_wf L s /\ zero_ok L s rest /\ exists missing, file_sights o g = obs ++ missing /\
    match cur with
    | None => exists more, outs = imgs ++ more /\ outside s /\ full2 s rest missing more /\ (missing = [] <-> sd_state L s = Trailer)
    | Some data => exists rs out missing' more, missing = SPlain DDataEnd :: missing' /\
        outs = imgs ++ (data ++ out) :: more /\ indata s rest rs out /\ missing' <> [] /\
        forall s2, ended (fst rs) s2 -> full2 s2 (snd rs) missing' more
    end.

(** One call at any time. *)
Definition next_obs (s' : sd) (d : decoded) : list sight :=
  match d with DNothing | DBytesDecoded _ | DLzwDataCopied _ => [] | _ => [observe s' d] end.
Definition next_imgs (d : decoded) (imgs : list (list N)) (cur : option (list N)) : list (list N) :=
  match d, cur with DDataEnd, Some data => imgs ++ [data] | _, _ => imgs end.
Definition next_cur (d : decoded) (ob' : obuf) (cur : option (list N)) : option (list N) :=
  match d, cur with
  | DFrameMetadata _, _ => Some []
  | DDataEnd, _ => None
  | _, Some data => Some (data ++ taken (amount d) ob')
  | _, None => None
  end.
Lemma taken_0 ob : taken 0 ob = [].
Proof. destruct ob; cbn [taken]; [reflexivity|rewrite Nat.sub_0_r; apply skipn_all|reflexivity]. Qed.

Lemma collect_call s buf r ob obs imgs cur s' ob' x : cinv s (buf ++ r) obs imgs cur -> (cur <> None -> keeps o ob) ->
  file_sights o g <> obs -> update L s buf ob = (s', ob', x) ->
  (exists n d, x = Ok (n, d) /\ (d = DNothing -> n = length buf) /\ (n <= length buf)%nat /\
     cinv s' (skipn n buf ++ r) (obs ++ next_obs s' d) (next_imgs d imgs cur) (next_cur d ob' cur) /\
     (cur <> None -> (eventful d /\ d = DDataEnd /\ (length (skipn n buf ++ r) < length (buf ++ r))%nat) \/ d = DNothing \/ taken (amount d) ob' <> [])) \/
  (exists e, x = Err e /\ cur <> None /\ ~ accepted o buf ob).
Proof.
  intros (Hw & Hz & missing & Hf & Hc) Hk Hne Hu. destruct cur as [data|].
  - destruct Hc as (rs & out & missing' & more & -> & Ho & Hin & Hm & Hfull).
    specialize (Hk ltac:(discriminate)).
    destruct (image_call _ _ _ _ _ _ _ _ _ Hin Hz Hk Hu) as [Hoc Hx].
    destruct Hoc as [(n & -> & -> & Hi)|[(n & d & out' & -> & He & Hd & Ht & -> & Hi)|[(n & -> & -> & -> & He & Hr)|(e & -> & Ha)]]].
    + left. destruct Hx as (Hx & Hn1 & Hn2). exists n, DNothing. split; [reflexivity|]. split; [exact Hn2|]. split; [exact Hn1|].
      split; [|intros _; right; left; reflexivity].
      cbn [next_obs next_imgs next_cur amount]. rewrite taken_0, !app_nil_r.
      split; [apply (indata_wf _ _ _ _ Hi)|]. split; [exact Hx|]. exists (SPlain DDataEnd :: missing'). split; [exact Hf|].
      exists rs, out, missing', more. auto 10.
    + left. destruct Hx as (Hx & Hn1 & Hn2). exists n, d. split; [reflexivity|]. split; [exact Hn2|]. split; [exact Hn1|].
      split; [|intros _; right; right; exact Ht].
      assert (E1 : next_obs s' d = []) by (destruct d; try reflexivity; exfalso; apply He; exact I).
      assert (E2 : next_imgs d imgs (Some data) = imgs) by (destruct d; try reflexivity; exfalso; apply He; exact I).
      assert (E3 : next_cur d ob' (Some data) = Some (data ++ taken (amount d) ob')) by (destruct d; try reflexivity; exfalso; apply He; exact I).
      rewrite E1, E2, E3, app_nil_r.
      split; [apply (indata_wf _ _ _ _ Hi)|]. split; [exact Hx|]. exists (SPlain DDataEnd :: missing'). split; [exact Hf|].
      exists rs, out', missing', more. split; [reflexivity|]. split; [rewrite <- app_assoc; exact Ho|]. auto 10.
    + left. destruct Hx as (Hx & Hn1 & Hn2). exists n, DDataEnd. split; [reflexivity|]. split; [exact Hn2|]. split; [exact Hn1|].
      assert (Hlt : (length (skipn n buf ++ r) < length (buf ++ r))%nat).
      { rewrite Hr. destruct Hin as [[_ F]|Hin].
        - rewrite (fn_str _ _ _ _ _ _ _ F). cbn [length]. lia.
        - assert (Hin' : exists k data', inblk k (buf ++ r) data' (snd rs)).
          { destruct (o_skip_frame_decoding o).
            - destruct (md_blk _ _ _ _ _ _ _ _ Hin) as (k & Hi & _). eauto.
            - destruct Hin as (_ & data' & z & X & M & _). destruct (md_blk _ _ _ _ _ _ _ _ M) as (k & Hi & _). eauto. }
          destruct Hin' as (k & data' & cur & subs & -> & _). rewrite !app_length. cbn [length]. lia. }
      split; [|intros _; left; cbn [eventful]; auto].
      cbn [next_obs next_imgs next_cur observe].
      split; [apply (ds_wf _ _ _ _ _ _ _ (proj1 He))|]. split; [exact Hx|]. exists missing'.
      split; [rewrite <- app_assoc; exact Hf|].
      exists more. split; [rewrite <- app_assoc; cbn [app]; rewrite app_nil_r in Ho; exact Ho|].
      destruct He as (D & E & H). split; [unfold outside; rewrite E; exact I|].
      split; [rewrite Hr; apply Hfull; split; [exact D|split; [exact E|exact H]]|].
      rewrite E. split; [contradiction|discriminate].
    + right. exists e. split; [reflexivity|]. split; [discriminate|exact Ha].
  - destruct Hc as (more & Ho & Hout & Hfull & Hm).
    assert (Hmiss : missing <> []) by (intros ->; rewrite app_nil_r in Hf; congruence).
    destruct (between_call s buf r ob missing more Hw Hz Hout Hfull Hmiss) as
      (s2 & n & d & E & Hn & Hnl & Hw2 & Hz2 & Hcase); [tauto|].
    rewrite E in Hu. injection Hu as <- <- <-. left. exists n, d. split; [reflexivity|]. split; [exact Hn|]. split; [exact Hnl|].
    split; [|congruence].
    destruct Hcase as [(-> & H1 & H2 & H3)|[(H1 & H2 & missing' & -> & H3 & H4)|(ty & missing' & out & more' & rest & -> & -> & -> & H1 & H2 & H3)]].
    + cbn [next_obs next_imgs next_cur]. rewrite app_nil_r. split; [exact Hw2|]. split; [exact Hz2|]. exists missing.
      split; [exact Hf|]. exists more. tauto.
    + assert (E1 : next_obs s2 d = [observe s2 d]) by (destruct d; try reflexivity; contradiction).
      assert (E2 : next_imgs d imgs None = imgs) by (destruct d; reflexivity).
      assert (E3 : next_cur d ob None = None) by (destruct d; try reflexivity; contradiction).
      rewrite E1, E2, E3. split; [exact Hw2|]. split; [exact Hz2|]. exists missing'.
      split; [rewrite <- app_assoc; exact Hf|]. exists more. split; [exact Ho|].
      split; [destruct d; try exact H2; contradiction|]. split; [exact H3|exact H4].
    + cbn [next_obs next_imgs next_cur]. split; [exact Hw2|]. split; [exact Hz2|]. exists (SPlain DDataEnd :: missing').
      split; [rewrite <- app_assoc; exact Hf|]. exists rest, out, missing', more'. auto 10.
Qed.

Lemma collected_inv s rest obs imgs cur : collected L o (ser_gif g tl) s rest obs imgs cur -> cinv s rest obs imgs cur.
Proof.
  induction 1 as [|s buf r ob s' ob' n d obs imgs cur _ IH Hk Hu].
  - split; [apply sd_new_wf|]. split; [intros E; discriminate E|]. exists (file_sights o g). split; [reflexivity|].
    exists outs. split; [reflexivity|]. split; [exact I|]. split; [now apply file_full2|].
    split; [|discriminate]. unfold file_sights. discriminate.
  - assert (Hd : file_sights o g = obs \/ file_sights o g <> obs).
    { destruct IH as (_ & _ & missing & Hf & _). destruct missing; [left; now rewrite app_nil_r in Hf|].
      right. rewrite Hf. intros E. apply (f_equal (@length _)) in E. rewrite app_length in E. cbn [length] in E. lia. }
    destruct Hd as [Hd|Hd].
    + pose proof IH as (Hw & Hz & missing & Hf & Hc).
      assert (missing = []) as ->.
      { rewrite Hd in Hf. destruct missing; [reflexivity|]. apply (f_equal (@length _)) in Hf. rewrite app_length in Hf. cbn [length] in Hf. lia. }
      destruct cur as [data|]; [destruct Hc as (? & ? & ? & ? & E & _); discriminate E|].
      destruct Hc as (more & Ho & Hout & Hfull & Hm). pose proof (proj1 Hm eq_refl) as Ht. destruct buf as [|b buf].
      * cbn in Hu. injection Hu as <- <- <- <-. cbn [skipn app] in *. rewrite app_nil_r. exact IH.
      * pose proof (trailer_hangs L s (b :: buf) ob (update_fuel (b :: buf)) (length (b :: buf)) Ht ltac:(discriminate) Hw
          : snd (update L s (b :: buf) ob) = Hang) as Hh. rewrite Hu in Hh. discriminate Hh.
    + destruct (collect_call _ _ _ _ _ _ _ _ _ _ IH Hk Hd Hu) as [(n2 & d2 & E & _ & _ & Hi & _)|(e & E & _)]; [|discriminate E].
      injection E as <- <-. exact Hi.
Qed.

(** The images completed and the beginning of the one at hand are those of the file; until the trailer the
    caller can go on with any piece of what is left, and every call that reports nothing has taken its whole
    piece. *)
Theorem collect_report s rest obs imgs cur : collected L o (ser_gif g tl) s rest obs imgs cur ->
  right_so_far outs imgs cur /\
  exists missing, file_sights o g = obs ++ missing /\ (missing = [] -> rest = tl /\ imgs = outs /\ cur = None) /\
    (missing <> [] -> rest <> [] /\
       forall buf r ob, rest = buf ++ r -> (cur <> None -> accepted o buf ob) ->
       exists s' ob' n d, update L s buf ob = (s', ob', Ok (n, d)) /\ (d = DNothing -> n = length buf)).
Proof.
  intros H. pose proof (collected_inv _ _ _ _ _ H) as Hi. split.
  - destruct Hi as (_ & _ & missing & _ & Hc). destruct cur as [data|].
    + destruct Hc as (rs & out & missing' & more & _ & -> & _). eexists. split; [reflexivity|]. eauto.
    + destruct Hc as (more & -> & _). exists more. auto.
  - pose proof Hi as (Hw & Hz & missing & Hf & Hc). exists missing. split; [exact Hf|]. split.
    + intros ->. destruct cur as [data|]; [destruct Hc as (? & ? & ? & ? & E & _); discriminate E|].
      destruct Hc as (more & -> & _ & Hfull & _). inversion Hfull; subst. rewrite app_nil_r. auto.
    + intros Hne. split.
      * destruct cur as [data|].
        -- destruct Hc as (rs & out & missing' & more & _ & _ & Hin & _). apply (indata_wf _ _ _ _ Hin).
        -- destruct Hc as (more & _ & _ & Hfull & _). intros ->.
           destruct missing as [|x missing]; [congruence|].
           inversion Hfull as [|? ? ? ? ? ? ? Q|? ? ? ? ? ? ? ? ? Q]; subst; inversion Q.
      * intros buf r ob -> Ha. destruct (update L s buf ob) as [[s' ob'] x] eqn:Hu.
        assert (Hno : file_sights o g <> obs).
        { intros E. rewrite Hf in E. apply Hne. apply (app_inv_head obs). now rewrite app_nil_r. }
        destruct (collect_call _ _ _ _ _ _ _ _ _ _ Hi (fun E => proj1 (Ha E)) Hno Hu)
          as [(n & d & -> & Hn & _)|(e & _ & Hc1 & Hc2)].
        -- eauto 10.
        -- exfalso. auto.
Qed.

(** All of it is collected if the caller goes on. *)
Definition todo (imgs : list (list N)) (cur : option (list N)) : nat :=
  (length (concat outs) - length (concat imgs) - match cur with Some data => length data | None => 0 end)%nat.
Lemma collect_on m : forall s rest obs imgs cur, (meas L s rest + 4 * todo imgs cur < m)%nat ->
  collected L o (ser_gif g tl) s rest obs imgs cur ->
  exists s', collected L o (ser_gif g tl) s' tl (file_sights o g) outs None.
Proof.
  induction m as [|m IH]; intros s rest obs imgs cur Hm H; [lia|].
  destruct (collect_report _ _ _ _ _ H) as (Hso & missing & Hf & Hend & Hgo).
  pose proof (collected_inv _ _ _ _ _ H) as Hi.
  destruct missing as [|x missing].
  - destruct (Hend eq_refl) as (-> & -> & ->). rewrite app_nil_r in Hf. rewrite Hf. eauto.
  - destruct (Hgo ltac:(discriminate)) as [Hr Hu]. clear Hgo Hend.
    set (ob := match cur with Some _ => OSlice [0] | None => ONone end).
    assert (Hka : cur <> None -> accepted o rest ob).
    { intros E. unfold ob. destruct cur; [|congruence]. split; [cbn; discriminate|exact I]. }
    destruct (Hu rest [] ob ltac:(now rewrite app_nil_r) Hka) as (s' & ob' & n & d & E & Hn).
    assert (H0 : collected L o (ser_gif g tl) s (rest ++ []) obs imgs cur) by (now rewrite app_nil_r).
    pose proof (co_call L o (ser_gif g tl) _ _ _ _ _ _ _ _ _ _ _ H0 (fun E => proj1 (Hka E)) E) as H1.
    rewrite app_nil_r in H1.
    assert (Hi0 : cinv s (rest ++ []) obs imgs cur) by (now rewrite app_nil_r).
    assert (Hne : file_sights o g <> obs).
    { rewrite Hf. intros Q. apply (f_equal (@length _)) in Q. rewrite app_length in Q. cbn [length] in Q. lia. }
    destruct (collect_call _ _ _ _ _ _ _ _ _ _ Hi0 (fun E => proj1 (Hka E)) Hne E) as
      [(n2 & d2 & Q & _ & Hnl & Hi2 & Hpr)|(e & Q & _)]; [|discriminate Q].
    injection Q as <- <-. rewrite !app_nil_r in Hpr. rewrite app_nil_r in Hi2.
    revert H1. apply IH. pose proof (erank_le3 L s) as Hr3. pose proof (erank_le3 L s') as Hr4.
    fold (next_imgs d imgs cur). change (match d, cur with DFrameMetadata _, _ => _ | _, _ => _ end) with (next_cur d ob' cur).
    assert (Hd2 : right_so_far outs (next_imgs d imgs cur) (next_cur d ob' cur)).
    { destruct Hi2 as (_ & _ & missing2 & _ & Hc). destruct (next_cur d ob' cur) as [data|].
      - destruct Hc as (rs & out & missing' & more & _ & -> & _). eexists. split; [reflexivity|]. eauto.
      - destruct Hc as (more & -> & _). exists more. auto. }
    destruct cur as [data|].
    + specialize (Hpr ltac:(discriminate)). unfold todo in *.
      destruct Hpr as [(_ & -> & Hlt)|[->|Ht]].
      * cbn [next_imgs next_cur]. rewrite concat_app, app_length. cbn [concat]. rewrite app_nil_r.
        unfold meas in *. lia.
      * exfalso. specialize (Hn eq_refl). subst n. rewrite skipn_all in Hi2. cbn [next_cur next_imgs] in Hi2.
        destruct Hi2 as (_ & _ & missing2 & _ & (rs & out & missing' & more & _ & _ & Hin & _)).
        apply indata_wf in Hin. destruct Hin as (_ & _ & _ & Hin). congruence.
      * assert (Hl : (0 < length (taken (amount d) ob'))%nat) by (destruct (taken (amount d) ob'); [congruence|cbn; lia]).
        assert (Ed : (exists k, d = DBytesDecoded k) \/ (exists k, d = DLzwDataCopied k)).
        { destruct d; try (rewrite taken_0 in Ht; congruence); eauto. }
        assert (E1 : next_imgs d imgs (Some data) = imgs) by (destruct Ed as [[k ->]|[k ->]]; reflexivity).
        assert (E2 : next_cur d ob' (Some data) = Some (data ++ taken (amount d) ob')) by (destruct Ed as [[k ->]|[k ->]]; reflexivity).
        rewrite E1, E2 in *. rewrite app_length.
        destruct Hd2 as (more & -> & rest2 & outs2 & ->).
        rewrite !concat_app, !app_length in *. cbn [concat] in *. rewrite !app_length in *.
        unfold meas in *. rewrite skipn_length. lia.
    + assert (Hpre : pre L s rest).
      { destruct Hi as (Hw & Hz & missing2 & Hf2 & (more & _ & _ & _ & Hmm)). split; [exact Hw|]. split; [exact Hz|].
        intros A. apply Hmm in A. subst missing2. rewrite app_nil_r in Hf2. congruence. }
      destruct (update_meas L safe s rest ONone s' ob' n d Hpre Hr E) as [_ Hmm]. specialize (Hmm eq_refl).
      unfold todo in *.
      assert (E1 : next_imgs d imgs None = imgs) by (destruct d; reflexivity).
      assert (E2 : next_cur d ob' None = None \/ next_cur d ob' None = Some []) by (destruct d; auto).
      rewrite E1. destruct E2 as [-> | ->]; cbn [length]; lia.
Qed.
Theorem collect_complete s rest obs imgs cur : collected L o (ser_gif g tl) s rest obs imgs cur ->
  exists s', collected L o (ser_gif g tl) s' tl (file_sights o g) outs None.
Proof. apply collect_on with (m := Datatypes.S (meas L s rest + 4 * todo imgs cur)). lia. Qed.
End File.
End Out.

(** ** The file of a session *)
Section Session.
Variable L : lzw_codec.
Variable S : lzw_spec L.
Variable umax : N.
Hypothesis Humax : 2 ^ 32 - 1 <= umax.

Theorem session_collect o w sw sh pal dbg ops e1 e2 e3 w3 frames tl :
  u16_ok sw -> u16_ok sh -> bytes_ok pal -> Forall op_rng ops ->
  encoder_new w sw sh pal = (e1, Ok tt) -> run_ops L dbg e1 ops = (e2, Ok tt) -> into_inner e2 = (e3, Ok w3) ->
  w_out w = [] -> Forall (call_readable o) ops -> written S ops frames -> Exists writes_block ops ->
  Forall (fun p => frame_readable o umax sw sh (fst p) (snd p)) frames ->
  o_check_for_end_code o = false -> o_skip_frame_decoding o = false ->
  (forall s rest obs imgs cur, collected L o (w_out w3 ++ tl) s rest obs imgs cur -> right_so_far (map snd frames) imgs cur) /\
  exists s, collected L o (w_out w3 ++ tl) s tl (file_sights o (enc_gif L sw sh pal ops)) (map snd frames) None.
Proof.
  intros Rw Rh Rp Ro H1 H2 H3 Hw0 Hread Hwr Hne Hfr Hck Hsk.
  destruct (session_ok L dbg w sw sh pal ops e1 e2 e3 w3 Rw Rh Ro H1 H2 H3) as (Hout & _ & Hc & Hok).
  rewrite Hw0 in Hout. cbn [app] in Hout.
  assert (Etl : w_out w3 ++ tl = ser_gif (enc_gif L sw sh pal ops) tl).
  { rewrite Hout. unfold ser_gif. rewrite <- !app_assoc. reflexivity. }
  rewrite Etl.
  pose proof (enc_gif_ok L S umax Humax o sw sh pal dbg ops Rw Rh Rp Ro Hc Hok Hread frames Hwr Hfr (some_blocks L ops Hne)) as Hg.
  destruct (enc_images L S umax Humax o sw sh pal dbg ops Ro Hc Hok frames Hwr Hfr) as [Hi _].
  assert (Hd : Forall2 (image_data L S o) (gif_images (enc_gif L sw sh pal ops)) (map snd frames)).
  { clear - Hi Hck Hsk. induction Hi as [|ci px l pxs Hh Hi IH]; constructor; [|exact IH].
    unfold image_data. rewrite Hsk. split; [exact Hck|]. apply Hh. }
  split.
  - intros s rest obs imgs cur H. exact (proj1 (collect_report L S o _ tl _ Hg Hd _ _ _ _ _ H)).
  - exact (collect_complete L S o _ tl _ Hg Hd _ _ _ _ _ (co_new L o _)).
Qed.
End Session.
