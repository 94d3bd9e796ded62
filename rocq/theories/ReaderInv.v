(** The loops of [update] and [decode_next] unfolded into single steps of [next_state]; they never
    panic and never run out of fuel. *)
From Verif Require Import Base Common Lzw Encoder Stream Converter Reader StreamInv.
Open Scope N_scope.

Section RInv.
Variable L : lzw_codec.
Hypothesis safe : lzw_safe L.
Notation sd := (sd L).
Notation rd := (rd L).
Notation sd_wf := (sd_wf L).
Notation zero_ok := (zero_ok L).

(** Steps that report nothing. *)
Inductive nsteps : sd -> list N -> obuf -> sd -> list N -> obuf -> Prop :=
| ns_refl s buf ob : nsteps s buf ob s buf ob
| ns_step s buf ob s1 ob1 n s' buf' ob' :
    buf <> [] -> next_state L s buf ob = (s1, ob1, Ok (n, DNothing)) ->
    nsteps s1 (skipn n buf) ob1 s' buf' ob' ->
    nsteps s buf ob s' buf' ob'.

Definition pre (s : sd) (buf : list N) : Prop :=
  sd_wf s /\ zero_ok s buf /\ sd_state L s <> Trailer.

Lemma update_loop_flat fuel : forall s buf ob total,
  pre s buf -> (meas L s buf < fuel)%nat -> (length buf <= total)%nat ->
  exists s1 buf1 ob1, nsteps s buf ob s1 buf1 ob1 /\ pre s1 buf1 /\
    (exists k, buf1 = skipn k buf) /\
    (let '(s', ob', r) := update_loop L fuel s buf ob total in
     (buf1 = [] /\ s' = s1 /\ ob' = ob1 /\ r = Ok (total, DNothing)) \/
     (buf1 <> [] /\ exists r0, next_state L s1 buf1 ob1 = (s', ob', r0) /\
       ((exists n d, r0 = Ok (n, d) /\ d <> DNothing /\
                     r = Ok ((total - length (skipn n buf1))%nat, d)) \/
        (exists e, r0 = Err e /\ r = Err e)))).
Proof.
  induction fuel as [|fuel IH]; intros s buf ob total Hp Hf Ht; [lia|].
  destruct buf as [|b buf'].
  - exists s, [], ob. split; [constructor|]. split; [exact Hp|]. split; [now exists O|].
    cbn [update_loop]. left. rewrite Nat.sub_0_r. auto.
  - remember (b :: buf') as buf eqn:Eb.
    assert (Hne : buf <> []) by (subst; discriminate).
    destruct Hp as (Hwf & Hz & Htr).
    pose proof (next_state_good L safe s buf ob Hwf Hz Hne) as Hg.
    assert (Hu : update_loop L (S fuel) s buf ob total =
      let '(s1, ob1, r) := next_state L s buf ob in
      match r with
      | Ok (n, d) =>
        let buf'0 := skipn n buf in
        match d with
        | DNothing => update_loop L fuel s1 buf'0 ob1 total
        | _ => (s1, ob1, Ok ((total - length buf'0)%nat, d))
        end
      | Err e => (s1, ob1, Err e)
      | Panic => (s1, ob1, Panic)
      | Hang => (s1, ob1, Hang)
      end) by (rewrite Eb; reflexivity).
    rewrite Hu. clear Hu.
    destruct (next_state L s buf ob) as [[s1 ob1] r] eqn:En.
    destruct Hg as (Ho & Hsh & Hg).
    assert (Hself : pre s buf) by (split; [|split]; assumption).
    destruct r as [[n d]|e| | ]; [ | |easy|easy].
    + destruct Hg as (Hn & Hwf1 & Hz1 & Htr1 & Hm1 & _).
      assert (Hd : d = DNothing \/ d <> DNothing) by (destruct d; auto; right; discriminate).
      destruct Hd as [->|Hd].
      * assert (Hp1 : pre s1 (skipn n buf)).
        { split; [assumption|split; [assumption|]]. intros H. destruct (Htr1 H); [congruence|discriminate]. }
        assert (Hlt : (meas L s1 (skipn n buf) < meas L s buf)%nat) by (apply Hm1; auto).
        edestruct (IH s1 (skipn n buf) ob1 total Hp1) as (s2 & buf2 & ob2 & H1 & H2 & [k Hk] & H3).
        { lia. }
        { rewrite skipn_length. lia. }
        exists s2, buf2, ob2. split; [econstructor; eassumption|]. split; [exact H2|].
        split; [|exact H3]. exists (k + n)%nat. now rewrite Hk, skipn_skipn.
      * exists s, buf, ob. split; [constructor|]. split; [exact Hself|]. split; [now exists O|].
        assert (E : match d with
          | DNothing => update_loop L fuel s1 (skipn n buf) ob1 total
          | _ => (s1, ob1, Ok ((total - length (skipn n buf))%nat, d))
          end = (s1, ob1, Ok ((total - length (skipn n buf))%nat, d))) by (destruct d; congruence).
        cbn zeta. rewrite E. right. split; [exact Hne|]. eexists. split; [exact En|].
        left. exists n, d. auto.
    + exists s, buf, ob. split; [constructor|]. split; [exact Hself|]. split; [now exists O|].
      right. split; [exact Hne|]. eexists. split; [exact En|]. right. eauto.
Qed.

Lemma erank_le3 s : (erank L s <= 3)%nat.
Proof. unfold erank. destruct (sd_state L s); try destruct (sd_header_end L s); lia. Qed.

Lemma update_flat s buf ob s' ob' r :
  pre s buf -> update L s buf ob = (s', ob', r) ->
  exists s1 buf1 ob1, nsteps s buf ob s1 buf1 ob1 /\ pre s1 buf1 /\
    (exists k, buf1 = skipn k buf) /\
    ((buf1 = [] /\ s' = s1 /\ ob' = ob1 /\ r = Ok (length buf, DNothing)) \/
     (buf1 <> [] /\ exists r0, next_state L s1 buf1 ob1 = (s', ob', r0) /\
       ((exists n d, r0 = Ok (n, d) /\ d <> DNothing /\
                     r = Ok ((length buf - length (skipn n buf1))%nat, d)) \/
        (exists e, r0 = Err e /\ r = Err e)))).
Proof.
  intros Hp H. unfold update in H.
  destruct (update_loop_flat (update_fuel buf) s buf ob (length buf) Hp) as
    (s1 & buf1 & ob1 & H1 & H2 & H3 & H4).
  - unfold meas, update_fuel. pose proof (erank_le3 s). lia.
  - lia.
  - rewrite H in H4. exists s1, buf1, ob1. auto.
Qed.

(** [decode_next] as a sequence of single steps. In [DN_err] the reader keeps the bytes that
    [update] had already gone through ([pr]). *)
Inductive dnext : rd -> obuf -> rd -> obuf -> dres (option decoded) -> Prop :=
| DN_eof buf src s ob : dnext (mk_rd L buf src s true) ob (mk_rd L buf src s true) ob (Ok None)
| DN_ioerr k src s ob :
    dnext (mk_rd L [] (RErr k :: src) s false) ob (mk_rd L [] src s false) ob (Err (DIo k))
| DN_end s ob :
    dnext (mk_rd L [] [] s false) ob (mk_rd L [] [] s false) ob (Err (DIo UnexpectedEof))
| DN_empty src s ob :
    dnext (mk_rd L [] (RChunk [] :: src) s false) ob (mk_rd L [] src s false) ob
      (Err (DIo UnexpectedEof))
| DN_fill bs src s ob r' ob' x :
    bs <> [] -> dnext (mk_rd L bs src s false) ob r' ob' x ->
    dnext (mk_rd L [] (RChunk bs :: src) s false) ob r' ob' x
| DN_nothing buf src s ob s1 ob1 n r' ob' x :
    buf <> [] -> next_state L s buf ob = (s1, ob1, Ok (n, DNothing)) ->
    dnext (mk_rd L (skipn n buf) src s1 false) ob1 r' ob' x ->
    dnext (mk_rd L buf src s false) ob r' ob' x
| DN_trailer buf src s ob s1 ob1 n :
    buf <> [] -> next_state L s buf ob = (s1, ob1, Ok (n, DBlockStart BkTrailer)) ->
    dnext (mk_rd L buf src s false) ob (mk_rd L (skipn n buf) src s1 true) ob1 (Ok None)
| DN_event buf src s ob s1 ob1 n d :
    buf <> [] -> next_state L s buf ob = (s1, ob1, Ok (n, d)) ->
    d <> DNothing -> d <> DBlockStart BkTrailer ->
    dnext (mk_rd L buf src s false) ob (mk_rd L (skipn n buf) src s1 false) ob1 (Ok (Some d))
| DN_err pr buf src s ob s1 ob1 e :
    buf <> [] -> next_state L s buf ob = (s1, ob1, Err e) ->
    dnext (mk_rd L buf src s false) ob (mk_rd L (pr ++ buf) src s1 false) ob1 (Err e).

Lemma nsteps_dnext s buf ob s' buf' ob' :
  nsteps s buf ob s' buf' ob' -> forall src r'' ob'' x,
  dnext (mk_rd L buf' src s' false) ob' r'' ob'' x ->
  dnext (mk_rd L buf src s false) ob r'' ob'' x.
Proof. induction 1; intros; [assumption|]. eapply DN_nothing; eauto. Qed.

Definition rd_wf (r : rd) : Prop :=
  sd_wf (rd_dec L r) /\
  (rd_eof L r = false -> zero_ok (rd_dec L r) (rd_buf L r) /\ sd_state L (rd_dec L r) <> Trailer).

Lemma skipn_suffix {A} (l : list A) k : (k <= length l)%nat ->
  skipn (length l - length (skipn k l)) l = skipn k l.
Proof. intros. rewrite skipn_length. f_equal. lia. Qed.

Lemma skipn_skipn_suffix {A} k n (l : list A) : (k <= length l)%nat -> (n <= length (skipn k l))%nat ->
  skipn (length l - length (skipn n (skipn k l))) l = skipn n (skipn k l).
Proof.
  intros Hk Hn. rewrite skipn_skipn. rewrite skipn_length in *. f_equal. lia.
Qed.

Lemma nsteps_suffix s buf ob s' buf' ob' : nsteps s buf ob s' buf' ob' ->
  pre s buf -> exists k, buf' = skipn k buf /\ (k <= length buf)%nat.
Proof.
  induction 1 as [|s buf ob s1 ob1 n s' buf' ob' Hb He Hn IH]; intros Hp.
  - exists O. split; [reflexivity|lia].
  - destruct Hp as (H1 & H2 & H3).
    pose proof (next_state_good L safe s buf ob H1 H2 Hb) as Hg. rewrite He in Hg.
    destruct Hg as (_ & _ & Hg1 & Hg2 & Hg3 & Hg4 & _).
    destruct IH as (k & -> & Hk).
    { split; [assumption|split; [assumption|]]. intros E. destruct (Hg4 E); [congruence|discriminate]. }
    exists (k + n)%nat. rewrite skipn_skipn. split; [reflexivity|].
    rewrite skipn_length in Hk. lia.
Qed.

Lemma decode_next_loop_dnext fuel : forall r ob r' ob' x,
  rd_wf r -> (length (rd_src L r) + (if is_nil (rd_buf L r) then 1 else 2) <= fuel)%nat ->
  decode_next_loop L fuel r ob = (r', ob', x) -> dnext r ob r' ob' x.
Proof.
  induction fuel as [|fuel IH]; intros r ob r' ob' x Hwf Hf H.
  { destruct (is_nil (rd_buf L r)); lia. }
  destruct r as [buf src s eof]. cbn [rd_src rd_buf] in Hf.
  cbn [decode_next_loop rd_eof] in H. destruct eof.
  { injection H as <- <- <-. constructor. }
  assert (Hbody : forall bs src1, pre s bs -> bs <> [] -> (length src1 + 1 <= fuel)%nat ->
    (let '(d, ob1, x1) := update L s bs ob in
        match x1 with
        | Err e => (mk_rd L bs src1 d false, ob1, Err e)
        | Panic => (mk_rd L bs src1 d false, ob1, Panic)
        | Hang => (mk_rd L bs src1 d false, ob1, Hang)
        | Ok (n, ev) =>
          let rest := skipn n bs in
          match ev with
          | DNothing => decode_next_loop L fuel (mk_rd L rest src1 d false) ob1
          | DBlockStart BkTrailer => decode_next_loop L fuel (mk_rd L rest src1 d true) ob1
          | _ => (mk_rd L rest src1 d false, ob1, Ok (Some ev))
          end
        end) = (r', ob', x) ->
    dnext (mk_rd L bs src1 s false) ob r' ob' x).
  { clear H. intros bs src1 Hp Hbs Hfu H.
    destruct (update L s bs ob) as [[d ob1] x1] eqn:Eu.
    destruct (update_flat s bs ob d ob1 x1 Hp Eu) as (s2 & bs2 & ob2 & Hns & Hp2 & _ & Hcase).
    destruct (nsteps_suffix _ _ _ _ _ _ Hns Hp) as (k & Hk & Hkl).
    destruct Hcase as [(-> & -> & -> & ->)|(Hne & r0 & Hn0 & Hcase)].
    - cbn zeta in H. rewrite skipn_all in H.
      eapply nsteps_dnext; [exact Hns|].
      eapply IH in H; [exact H| |cbn; lia].
      split; [apply Hp2|]. intros _. split; apply Hp2.
    - destruct Hcase as [(n & ev & -> & Hev & ->)|(e & -> & ->)].
      + pose proof Hp2 as (Hw2 & Hz2 & Ht2).
        pose proof (next_state_good L safe s2 bs2 ob2 Hw2 Hz2 Hne) as Hg. rewrite Hn0 in Hg.
        destruct Hg as (_ & _ & Hg1 & Hg2 & Hg3 & Hg4 & _).
        subst bs2. cbn zeta in H. rewrite skipn_skipn_suffix in H by assumption.
        eapply nsteps_dnext; [exact Hns|].
        assert (Hd : ev = DBlockStart BkTrailer \/ ev <> DBlockStart BkTrailer).
        { destruct ev as [ | | | | |[ | | ]| | | | | | ]; auto; right; discriminate. }
        destruct Hd as [->|Hd].
        * assert (E : decode_next_loop L fuel (mk_rd L (skipn n (skipn k bs)) src1 d true) ob1 =
                      (mk_rd L (skipn n (skipn k bs)) src1 d true, ob1, Ok None)).
          { destruct fuel; [lia|]. reflexivity. }
          rewrite E in H. injection H as <- <- <-. eapply DN_trailer; eassumption.
        * assert (E : (mk_rd L (skipn n (skipn k bs)) src1 d false, ob1, Ok (Some ev)) = (r', ob', x)).
          { destruct ev as [ | | | | |[ | | ]| | | | | | ]; congruence. }
          injection E as <- <- <-. eapply DN_event; eassumption.
      + injection H as <- <- <-. eapply nsteps_dnext; [exact Hns|].
        subst bs2. rewrite <- (firstn_skipn k bs) at 2.
        eapply DN_err; eassumption. }
  destruct Hwf as [Hw1 Hw2]. cbn in Hw1, Hw2. destruct (Hw2 eq_refl) as [Hw3 Hw4].
  unfold fill_buf in H. cbn [rd_buf rd_src rd_dec rd_eof] in H.
  destruct buf as [|b buf].
  - destruct src as [|[[|b bs]|k] src].
    + injection H as <- <- <-. constructor.
    + cbn in H. injection H as <- <- <-. constructor.
    + apply DN_fill; [discriminate|].
      apply Hbody; [|discriminate|cbn in *; lia|exact H].
      split; [assumption|split; [|assumption]].
      intros E. destruct (Hw3 E) as [t Ht]. discriminate.
    + cbn in H. injection H as <- <- <-. constructor.
  - apply Hbody; [|discriminate|cbn in *; lia|exact H]. split; [|split]; assumption.
Qed.

Lemma decode_next_dnext r ob r' ob' x : rd_wf r -> decode_next L r ob = (r', ob', x) ->
  dnext r ob r' ob' x.
Proof.
  intros Hwf H. eapply decode_next_loop_dnext; [exact Hwf| |exact H].
  destruct (is_nil (rd_buf L r)); lia.
Qed.

(** Consequences for one call. *)
Definition rmeas (r : rd) : nat := meas L (rd_dec L r) (rd_rest L r).

Lemma rest_app buf src s eof s' eof' n :
  (n <= length buf)%nat ->
  rd_rest L (mk_rd L (skipn n buf) src s eof) = skipn n (rd_rest L (mk_rd L buf src s' eof')).
Proof.
  intros H. unfold rd_rest. cbn [rd_buf rd_src]. rewrite skipn_app.
  replace (n - length buf)%nat with O by lia. reflexivity.
Qed.

Definition good_next (r : rd) (ob : obuf) (r' : rd) (ob' : obuf) (x : dres (option decoded)) : Prop :=
  rd_wf r' /\ sd_opts L (rd_dec L r') = sd_opts L (rd_dec L r) /\ same_shape ob ob' /\
  (exists evs, rd_src L r = evs ++ rd_src L r') /\
  match x with
  | Ok (Some d) =>
    d <> DNothing /\ d <> DBlockStart BkTrailer /\ rd_eof L r' = false /\
    (is_slice ob = false -> (rmeas r' < rmeas r)%nat) /\
    (exists k, rd_rest L r' = skipn k (rd_rest L r)) /\
    (forall k, d = DBytesDecoded k -> exists s0, ob = OSlice s0 /\ (0 < k <= length s0)%nat)
  | Ok None => rd_eof L r' = true /\ (exists k, rd_rest L r' = skipn k (rd_rest L r))
  | Err _ => rd_eof L r' = false
  | Panic | Hang => False
  end.

Lemma same_shape_trans a b c : same_shape a b -> same_shape b c -> same_shape a c.
Proof.
  destruct a; simpl.
  - intros (s1 & -> & H1) (s2 & -> & H2). exists s2. split; [reflexivity|congruence].
  - intros (v1 & ->) (v2 & ->). exists (v1 ++ v2). now rewrite app_assoc.
  - intros ->. simpl. auto.
Qed.
Lemma same_shape_slice a b : same_shape a b -> is_slice b = is_slice a.
Proof. destruct a; simpl; [intros (s1 & -> & _)|intros (v1 & ->)|intros ->]; reflexivity. Qed.

Lemma meas_rest s s' n buf (tl : list N) : (n <= length buf)%nat ->
  (meas L s' (skipn n buf) < meas L s buf)%nat ->
  (meas L s' (skipn n buf ++ tl) < meas L s (buf ++ tl))%nat.
Proof. unfold meas. rewrite !app_length, skipn_length. lia. Qed.

Lemma dnext_good r ob r' ob' x : dnext r ob r' ob' x -> rd_wf r -> good_next r ob r' ob' x.
Proof.
  induction 1 as [buf src s ob|k src s ob|s ob|src s ob|bs src s ob r' ob' x Hb Hn IH
    |buf src s ob s1 ob1 n r' ob' x Hb He Hn IH|buf src s ob s1 ob1 n Hb He
    |buf src s ob s1 ob1 n d Hb He Hd1 Hd2|pr buf src s ob s1 ob1 e Hb He]; intros Hwf.
  - split; [exact Hwf|]. split; [reflexivity|]. split; [apply same_shape_refl|].
    split; [now exists []|]. split; [reflexivity|]. now exists O.
  - destruct Hwf as [H1 H2]. cbn in *. split.
    { split; [exact H1|]. intros _. cbn. apply H2. reflexivity. }
    split; [reflexivity|]. split; [apply same_shape_refl|]. split; [now exists [RErr k]|]. reflexivity.
  - split; [exact Hwf|]. split; [reflexivity|]. split; [apply same_shape_refl|].
    split; [now exists []|]. reflexivity.
  - destruct Hwf as [H1 H2]. cbn in *. split.
    { split; [exact H1|]. intros _. cbn. apply H2. reflexivity. }
    split; [reflexivity|]. split; [apply same_shape_refl|]. split; [now exists [RChunk []]|]. reflexivity.
  - destruct Hwf as [H1 H2]. cbn in H1, H2. destruct (H2 eq_refl) as [H3 H4].
    destruct IH as (G1 & G2 & G3 & (evs & G4) & G5).
    { split; [exact H1|]. intros _. cbn. split; [|exact H4].
      intros E. destruct (H3 E) as [t Ht]. discriminate. }
    split; [exact G1|]. split; [exact G2|]. split; [exact G3|].
    split. { exists (RChunk bs :: evs). cbn in *. now rewrite G4. }
    exact G5.
  - destruct Hwf as [H1 H2]. cbn in H1, H2. destruct (H2 eq_refl) as [H3 H4].
    pose proof (next_state_good L safe s buf ob H1 H3 Hb) as Hg. rewrite He in Hg.
    destruct Hg as (Ho & Hsh & Hg1 & Hg2 & Hg3 & Hg4 & Hg5 & _).
    destruct IH as (G1 & G2 & G3 & G4 & G5).
    { split; [exact Hg2|]. intros _. cbn. split; [exact Hg3|].
      intros E. destruct (Hg4 E); [congruence|discriminate]. }
    split; [exact G1|]. split; [cbn in *; congruence|]. split; [eapply same_shape_trans; eassumption|].
    split; [exact G4|].
    destruct x as [[d|]|e| | ]; try exact G5.
    + destruct G5 as (D1 & D2 & D3 & D4 & (k & D5) & D6).
      split; [exact D1|]. split; [exact D2|]. split; [exact D3|]. split; [|split].
      * intros Hs. rewrite <- (same_shape_slice _ _ Hsh) in Hs. specialize (D4 Hs).
        eapply Nat.lt_trans; [exact D4|]. unfold rmeas, rd_rest. cbn.
        apply meas_rest; [exact Hg1|]. apply Hg5; auto.
      * exists (k + n)%nat. rewrite D5, (rest_app buf src s1 false s false n Hg1).
        now rewrite skipn_skipn.
      * intros k0 Hk. destruct (D6 k0 Hk) as (s0 & E1 & E2). subst ob1.
        destruct ob; simpl in Hsh; [|destruct Hsh as [? ?]; discriminate|discriminate].
        destruct Hsh as (s' & E & El). injection E as <-.
        eexists. split; [reflexivity|]. lia.
    + destruct G5 as (D1 & (k & D5)). split; [exact D1|].
      exists (k + n)%nat. rewrite D5, (rest_app buf src s1 false s false n Hg1). now rewrite skipn_skipn.
  - destruct Hwf as [H1 H2]. cbn in H1, H2. destruct (H2 eq_refl) as [H3 H4].
    pose proof (next_state_good L safe s buf ob H1 H3 Hb) as Hg. rewrite He in Hg.
    destruct Hg as (Ho & Hsh & Hg1 & Hg2 & Hg3 & Hg4 & Hg5 & _).
    split. { split; [exact Hg2|]. cbn. discriminate. }
    split; [exact Ho|]. split; [exact Hsh|]. split; [now exists []|].
    split; [reflexivity|]. exists n. apply rest_app. exact Hg1.
  - destruct Hwf as [H1 H2]. cbn in H1, H2. destruct (H2 eq_refl) as [H3 H4].
    pose proof (next_state_good L safe s buf ob H1 H3 Hb) as Hg. rewrite He in Hg.
    destruct Hg as (Ho & Hsh & Hg1 & Hg2 & Hg3 & Hg4 & Hg5 & Hg6).
    split. { split; [exact Hg2|]. cbn. intros _. split; [exact Hg3|].
      intros E. destruct (Hg4 E); [congruence|]. subst d. congruence. }
    split; [exact Ho|]. split; [exact Hsh|]. split; [now exists []|].
    split; [exact Hd1|]. split; [exact Hd2|]. split; [reflexivity|]. split; [|split].
    + intros Hs. unfold rmeas, rd_rest. cbn. apply meas_rest; [exact Hg1|]. apply Hg5; auto.
    + exists n. apply rest_app. exact Hg1.
    + exact Hg6.
  - destruct Hwf as [H1 H2]. cbn in H1, H2. destruct (H2 eq_refl) as [H3 H4].
    pose proof (next_state_good L safe s buf ob H1 H3 Hb) as Hg. rewrite He in Hg.
    destruct Hg as (Ho & Hsh & Hg1 & Hg2 & Hg3).
    split. { split; [exact Hg1|]. cbn. intros _. split; [|exact Hg3].
      intros E. congruence. }
    split; [exact Ho|]. split; [exact Hsh|]. split; [now exists []|]. reflexivity.
Qed.

Lemma decode_next_good r ob r' ob' x : rd_wf r -> decode_next L r ob = (r', ob', x) ->
  good_next r ob r' ob' x.
Proof. intros Hwf H. eapply dnext_good; [eapply decode_next_dnext|]; eassumption. Qed.

End RInv.
