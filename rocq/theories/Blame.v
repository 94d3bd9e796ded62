(** Every error of the streaming decoder has its reason in the bytes read so far. *)
From Verif Require Import Base Common Lzw Encoder Stream StreamInv Steps Ranges Converter Reader ReaderInv ConvInv DecoderSafe DecInv.
From Verif Require Import SpecGif SpecAccept SpecStream StreamProps SpecCount DocTrace DocAll Accept AcceptDec SpecBlame.
Open Scope N_scope.

Lemma last_ext_of bs : forall x, fold_left ext_after bs x = last_ext (fst x) (snd x) bs.
Proof.
  induction bs as [|b bs IH]; intros [l n]; [reflexivity|]. cbn [fold_left]. rewrite IH. destruct b; reflexivity.
Qed.
Lemma last_ext_0 bs : last_of bs = last_ext 0 0 bs.
Proof. apply last_ext_of. Qed.
Lemma image_head_bytes i : begun_bytes (OImg i) = image_head i.
Proof. unfold begun_bytes, img_bytes, image_head. cbn [app]. now rewrite <- !app_assoc. Qed.
Lemma not_fits lim n : check_size lim n = false -> ~ fits lim n.
Proof. destruct lim as [m|]; cbn; [|discriminate]. rewrite N.leb_gt. lia. Qed.
Lemma is_control l : extension_from_u8 l = Some XControl -> l = 0xF9.
Proof.
  unfold extension_from_u8. repeat match goal with |- context [?a =? ?b] => destruct (N.eqb_spec a b) end; congruence.
Qed.
Lemma not_known l : extension_from_u8 l = None -> ~ known_label l.
Proof. intros H [-> | [-> | [-> | -> ]]]; discriminate H. Qed.

Section Blame.
Variable L : lzw_codec.
Hypothesis safe : lzw_safe L.
Variable o : options.
Notation sd := (sd L).
Variable T : N -> Prop.
Variable wh : N -> list N -> Prop.
Variable W : lzw_known L.

Lemma front_acc g bs : head_ok g -> acc_blocks o T wh g bs -> front_ok o g bs.
Proof.
  intros Hg [Ha Hu]. split; [exact Hg|]. split; [|exact Hu]. eapply Forall_impl; [|exact Ha]. intros b [Hb _]. exact Hb.
Qed.
Lemma acc_image g i : acc_img o T g i -> img_acc false o g i.
Proof. intros (A & B & C & _). split; [exact A|]. split; [exact B|]. split; [exact C|discriminate]. Qed.
Lemma part_to subs b k : subs_part subs b k -> begun_data_ok subs (length b + k) b.
Proof. intros (A & B & C & D & E). split; [exact A|]. split; [exact B|]. split; [exact E|]. lia. Qed.
Lemma opens_begun (s : sd) bs p data : ext_begun L o s bs p data ->
  exists k, opens o bs (begun_bytes p) (sd_ext_id L s) k /\ len (sd_ext_data L s) = k + N.of_nat (length data).
Proof.
  intros [H _]. destruct p as [l|t|i]; [| |contradiction H].
  - destruct H as (-> & Hk & E). exists 1. split; [now constructor|exact E].
  - destruct H as (E1 & E2 & _ & A & B & C & D). rewrite last_ext_0 in *. eexists. split; [|exact E2]. rewrite E1. constructor; [|exact D].
    now repeat split.
Qed.
Lemma in_data g bs i subs b k n buf more c : head_ok g -> acc_blocks o T wh g bs -> acc_img o T g i -> subs_part subs b k ->
  c = (ser_head g ++ ser_blocks bs) ++ begun_bytes (OImg i) ++ part_bytes subs b k ->
  (n <= k)%nat -> (n <= length buf)%nat -> bytes_ok buf ->
  front_ok o g bs /\ img_acc false o g i /\ begun_data_ok subs (length b + k) (b ++ firstn n buf) /\
  c ++ buf ++ more = front g bs ++ image_head i ++ data_part subs (length b + k) (b ++ firstn n buf) ++ skipn n buf ++ more.
Proof.
  intros Hg Ha Hi Hs -> H1 H2 Hby. split; [now apply front_acc|]. split; [now apply acc_image|]. split.
  - pose proof (part_to _ _ _ (part_take _ _ _ _ _ Hs (conj H1 H2) Hby)) as Hp. rewrite app_length, firstn_length_le in Hp by exact H2.
    replace (length b + n + (k - n))%nat with (length b + k)%nat in Hp by lia. exact Hp.
  - rewrite image_head_bytes. unfold front, data_part, part_bytes. fold (sub_bytes subs). rewrite <- !app_assoc. cbn [app].
    rewrite <- !app_assoc. do 4 f_equal. f_equal. f_equal. now rewrite app_assoc, firstn_skipn.
Qed.

Lemma step_blame s buf ob s' ob' e c more : sd_wf L s -> sd_opts L s = o -> bytes_ok (c ++ buf) -> buf <> [] ->
  parsed L o T wh W s c (buf ++ more) -> nst L s buf ob s' ob' (Err e) -> blame o (c ++ buf ++ more) ob e.
Proof.
  intros Hw Ho Hby Hbne H Hn. destruct Hw as (Hi & Hgw & Hcw & Hmw). remember (Err e) as r eqn:Er.
  assert (Hbuf : bytes_ok buf) by (apply Forall_app in Hby; tauto).
  destruct Hn; try discriminate Er; injection Er as <-; cbn [blame].
  - (* N_magic_bad *)
    pose proof (hdr_length L o s buf Hi H1) as Hl. rewrite H0 in Hl. cbn [need] in Hl.
    unfold parsed in H. rewrite H0 in H. destruct H as [_ ->].
    assert (E : sd_ibuf L s ++ buf ++ more = hdr L s buf ++ skipn (hn L s) buf ++ more).
    { unfold hdr. rewrite <- app_assoc. f_equal. now rewrite app_assoc, firstn_skipn. }
    rewrite E. split; [rewrite app_length; lia|].
    rewrite <- Hl, firstn_app, firstn_all, Nat.sub_diag. cbn [firstn]. rewrite app_nil_r. split; assumption.
  - (* N_image_oob *)
    pose proof (hdr_length L o s buf Hi H1) as Hl. rewrite H0 in Hl. cbn [need] in Hl.
    destruct (parsed_body _ _ _ _ _ _ _ _ H) as (g & bs & Hg & Ht & Ha & Hb); [rewrite H0; exact I|].
    unfold body in Hb. rewrite H0 in Hb. destruct Hb as (B1 & B2 & ->).
    assert (Hh : bytes_ok (hdr L s buf)).
    { unfold hdr. apply Forall_app. rewrite <- app_assoc in Hby. apply Forall_app in Hby as [_ Hby]. cbn [app] in Hby.
      apply Forall_cons_iff in Hby as [_ Hby]. apply Forall_app in Hby as [Q1 Q2].
      split; [exact Q1|now apply bytes_ok_firstn]. }
    assert (E : sd_ibuf L s ++ buf ++ more = hdr L s buf ++ skipn (hn L s) buf ++ more).
    { unfold hdr. rewrite <- app_assoc. f_equal. now rewrite app_assoc, firstn_skipn. }
    destruct (nine _ Hl) as (a1 & a2 & a3 & a4 & a5 & a6 & a7 & a8 & a9 & Eh). rewrite Eh in *.
    unfold bytes_ok in Hh.
    repeat match goal with Q : Forall byte_ok (_ :: _) |- _ => apply Forall_cons_iff in Q; destruct Q as [? Q] end.
    unfold img_oob in H3. rewrite Ho in H3. apply andb_true_iff in H3 as [Ec H3]. split; [exact Ec|].
    exists g, bs, (rd16 a1 a2), (rd16 a3 a4), (rd16 a5 a6), (rd16 a7 a8), a9, (skipn (hn L s) buf ++ more).
    split; [now apply front_acc|]. do 4 (split; [now apply rd16_u16|]). split.
    + rewrite <- app_assoc. cbn [app]. rewrite E, !word_of by assumption. reflexivity.
    + unfold img_frame, at_ in H3. cbn [nth f_width f_left f_height f_top set_geometry] in H3.
      destruct Ht as (_ & Tw & Th). rewrite <- Tw, <- Th. unfold out_of_bounds in H3.
      apply orb_true_iff in H3 as [H3|H3]; [left|right].
      * destruct (N.ltb_spec (sd_width L s) (rd16 a5 a6)); [lia|]. apply N.ltb_lt in H3. lia.
      * destruct (N.ltb_spec (sd_height L s) (rd16 a7 a8)); [lia|]. apply N.ltb_lt in H3. lia.
  - (* N_bs_ext_bad *)
    destruct (parsed_body _ _ _ _ _ _ _ _ H) as (g & bs & Hg & Ht & Ha & Hb); [rewrite H0; exact I|].
    unfold body in Hb. rewrite H0 in Hb. destruct Hb as (B1 & B2 & B3). subst buf.
    destruct B3 as [[-> _]|[B3 _]]; [|discriminate B3].
    exists g, bs, (t ++ more). split; [now apply front_acc|]. left. exists b. split; [now apply not_known|].
    unfold front. now rewrite <- !app_assoc.
  - (* N_bs_unknown_bad *)
    destruct (parsed_body _ _ _ _ _ _ _ _ H) as (g & bs & Hg & Ht & Ha & Hb); [rewrite H0; exact I|].
    unfold body in Hb. rewrite H0 in Hb. destruct Hb as (B1 & B2 & B3).
    destruct B3 as [[-> _]|[B3 _]]; [|contradiction].
    exists g, bs, (buf ++ more). split; [now apply front_acc|]. right. exists c0. split; [now repeat split|].
    split; [now rewrite <- Ho|]. unfold front. now rewrite <- !app_assoc.
  - (* N_xd_limit *)
    destruct (parsed_body _ _ _ _ _ _ _ _ H) as (g & bs & Hg & Ht & Ha & Hb); [rewrite H0; exact I|].
    unfold body in Hb. rewrite H0 in Hb. destruct Hb as (B2 & p & subs & b & B3 & B4 & ->).
    destruct (opens_begun _ _ _ _ B3) as (k0 & O1 & O2). left.
    assert (El : length (firstn n buf) = n) by (rewrite firstn_length; lia).
    exists g, bs, (begun_bytes p), (sd_ext_id L s), k0, subs, (length b + k)%nat, (b ++ firstn n buf), (skipn n buf ++ more).
    split; [now apply front_acc|]. split; [exact O1|]. split; [|split; [|split]].
    + assert (Hc : (n <= k)%nat /\ (n <= length buf)%nat) by lia.
      pose proof (part_to _ _ _ (part_take _ _ _ _ _ B4 Hc Hbuf)) as Hp. rewrite app_length, El in Hp.
      replace (length b + n + (k - n))%nat with (length b + k)%nat in Hp by lia. exact Hp.
    + intros E. apply (f_equal (@length N)) in E. rewrite app_length, El in E. destruct buf; [congruence|]. cbn [length] in *. lia.
    + unfold front, data_part, part_bytes. fold (sub_bytes subs). rewrite <- !app_assoc. cbn [app].
      rewrite <- !app_assoc. do 4 f_equal. f_equal. f_equal. now rewrite app_assoc, firstn_skipn.
    + apply not_fits. rewrite <- Ho. rewrite O2 in H3. rewrite <- H3. f_equal. rewrite !app_length, El. lia.
  - (* N_xd_ctl_bad *)
    destruct (parsed_body _ _ _ _ _ _ _ _ H) as (g & bs & Hg & Ht & Ha & Hb); [rewrite H0; exact I|].
    unfold body in Hb. rewrite H0 in Hb. destruct Hb as (B2 & p & subs & b & B3 & B4 & ->).
    destruct (opens_begun _ _ _ _ B3) as (k0 & O1 & O2). apply is_control in H2. rewrite H2 in O1. subst buf.
    exists g, bs, (begun_bytes p), k0, (subs ++ [b]), (t ++ more).
    split; [now apply front_acc|]. split; [exact O1|]. split; [now apply part_whole|]. split.
    + rewrite part_bytes_whole. unfold ser_subs, front. fold (sub_bytes (subs ++ [b])). rewrite <- !app_assoc. reflexivity.
    + rewrite payload_snoc. unfold len in O2. lia.
  - (* N_init_bad *)
    destruct (parsed_body _ _ _ _ _ _ _ _ H) as (g & bs & Hg & Ht & Ha & Hb); [rewrite H0; exact I|].
    unfold body in Hb. rewrite H0 in Hb. destruct Hb as (B1 & i & I1 & I2 & I3 & I4 & ->).
    exists g, bs, i, (buf ++ more). split; [now apply front_acc|]. split; [exact I1|]. split; [exact I3|]. split.
    + rewrite I4. unfold check_code_size in H1. apply negb_false_iff, orb_true_iff in H1. rewrite !N.ltb_lt in H1. lia.
    + rewrite image_head_bytes. unfold front. now rewrite <- !app_assoc.
  - (* N_cp_limit *)
    destruct (parsed_body _ _ _ _ _ _ _ _ H) as (g & bs & Hg & Ht & Ha & Hb); [rewrite H0; exact I|].
    unfold body in Hb. rewrite H0 in Hb. destruct Hb as (B1 & i & subs & b & I1 & I2 & I3 & B4).
    assert (El : length (firstn n buf) = n) by (rewrite firstn_length; lia).
    unfold obuf_append in H3. destruct ob as [sl|v| ]; try discriminate H3. destruct (check_size _ _) eqn:Ec; [discriminate H3|].
    injection H3 as <-. right. exists v. split; [reflexivity|]. split; [exact I3|].
    destruct (in_data g bs i subs b k n buf more c Hg Ha I1 I2 B4) as (Q1 & Q2 & Q3 & Q4); [lia|lia|exact Hbuf|].
    exists g, bs, i, subs, (length b + k)%nat, b, (firstn n buf), (skipn n buf ++ more).
    split; [exact Q1|]. split; [exact Q2|]. split; [exact Q3|]. split; [exact Q4|].
    apply not_fits. rewrite <- Ho. unfold len in Ec. rewrite <- Ec. f_equal. lia.
  - (* N_de_err *)
    destruct (parsed_body _ _ _ _ _ _ _ _ H) as (g & bs & Hg & Ht & Ha & Hb); [rewrite H0; exact I|].
    unfold body in Hb. rewrite H0 in Hb. destruct Hb as (B1 & i & subs & b & I1 & I2 & I3 & B4).
    unfold mode_wf in Hmw. rewrite H0, Ho in Hmw. destruct Hmw as [Hm1 Hm2].
    destruct (in_data g bs i subs b k n buf more c Hg Ha I1 I2 B4) as (Q1 & Q2 & Q3 & Q4); [lia|lia|exact Hbuf|].
    assert (Hin : in_image_data o (c ++ buf ++ more)) by (exists g, bs, i, subs, (length b + k)%nat, (b ++ firstn n buf), (skipn n buf ++ more); auto).
    unfold lr_decode_bytes in H4. destruct (lr_decoder L (sd_lzw L s)) as [d|]; [|congruence].
    destruct ob as [sl|v| ]; [|injection H4 as _ _ <-; split; [now exists v|]; auto|].
    all: match type of H4 with context [lz_decode L ?d0 ?x0 ?n] => destruct (lz_decode L d0 x0 n) as [d' [[k1 w] st]] end;
      destruct st; try destruct (lr_check L _); try discriminate H4; injection H4 as _ _ <-; (split; [discriminate|]); auto.
  - (* N_de_drain_err *)
    destruct (parsed_body _ _ _ _ _ _ _ _ H) as (g & bs & Hg & Ht & Ha & Hb); [rewrite H0; exact I|].
    unfold body in Hb. rewrite H0 in Hb. destruct Hb as (B1 & i & subs & b & I1 & I2 & I3 & B4).
    unfold mode_wf in Hmw. rewrite H0, Ho in Hmw. destruct Hmw as [Hm1 Hm2].
    destruct (in_data g bs i subs b 0 0 buf more c Hg Ha I1 I2 B4) as (Q1 & Q2 & Q3 & Q4); [lia|lia|exact Hbuf|].
    assert (Hin : in_image_data o (c ++ buf ++ more)) by (exists g, bs, i, subs, (length b + 0)%nat, (b ++ firstn 0 buf), (skipn 0 buf ++ more); auto).
    unfold lr_decode_bytes in H2. destruct (lr_decoder L (sd_lzw L s)) as [d|]; [|congruence].
    destruct ob as [sl|v| ]; [|injection H2 as _ _ <-; split; [now exists v|]; auto|].
    all: match type of H2 with context [lz_decode L ?d0 ?x0 ?n] => destruct (lz_decode L d0 x0 n) as [d' [[k1 w] st]] end;
      destruct st; try destruct (lr_check L _); try discriminate H2; injection H2 as _ _ <-; (split; [discriminate|]); auto.
Qed.
End Blame.

Section Stream.
Variable L : lzw_codec.
Hypothesis safe : lzw_safe L.
Variable o : options.
Notation sd := (sd L).

(** While nothing is reported nothing is copied. *)
Lemma nst_vec (s : sd) buf v s' ob' n : nst L s buf (OVec v) s' ob' (Ok (n, DNothing)) -> ob' = OVec v.
Proof.
  intros H. remember (OVec v) as ob eqn:Eo. remember (Ok (n, DNothing)) as r eqn:Er.
  destruct H; try discriminate Er; try reflexivity; subst ob; exfalso.
  all: match goal with Q : lr_decode_bytes _ _ _ _ = _ |- _ => unfold lr_decode_bytes in Q; destruct (lr_decoder L _); discriminate Q end.
Qed.
Definition kept (ob ob1 : obuf) : Prop := same_kind ob ob1 /\ forall v, ob = OVec v -> ob1 = OVec v.
Lemma kept_blame ob ob1 file e : kept ob ob1 -> blame o file ob1 e -> blame o file ob e.
Proof.
  intros [Hk Hv] H. destruct ob as [s|v| ], ob1 as [s1|v1| ]; try contradiction Hk;
    try (specialize (Hv v eq_refl); injection Hv as ->; exact H).
  - destruct e as [[]|[]]; try exact H.
    + destruct H as [H|(w & E & _)]; [now left|discriminate E].
    + destruct H as ((w & E) & _). discriminate E.
    + destruct H as (_ & H). split; [discriminate|exact H].
  - exact H.
Qed.
Lemma nsteps_kept s buf ob s' buf' ob' : nsteps L s buf ob s' buf' ob' -> pre L s buf -> kept ob ob'.
Proof.
  induction 1 as [|s buf ob s1 ob1 n s' buf' ob' Hb He Hn IH]; intros Hp; [split; [apply same_kind_refl|auto]|].
  destruct Hp as (H1 & H2 & H3).
  pose proof (next_state_good L safe s buf ob H1 H2 Hb) as Hg. rewrite He in Hg.
  destruct Hg as (Go & _ & Hg1 & Hg2 & Hg3 & Hg4 & _).
  pose proof (next_state_nst L safe _ _ _ _ _ _ H1 H2 Hb He) as Hst.
  destruct IH as [I1 I2].
  { split; [exact Hg2|]. split; [exact Hg3|]. intros E. destruct (Hg4 E); [congruence|discriminate]. }
  split.
  - pose proof (nst_kind L _ _ _ _ _ _ Hst) as Hk. destruct ob, ob1, ob'; try contradiction; exact I.
  - intros v ->. apply I2. eapply nst_vec, Hst.
Qed.

Theorem stream_blame file s buf tl evs ob s' ob' e : bytes_ok file -> taken L o file s (buf ++ tl) evs ->
  update L s buf ob = (s', ob', Err e) -> blame o file ob e.
Proof.
  intros Hby Ht Hu. destruct (taken_parsed L safe o _ _ _ _ Ht Hby) as (c & Ec & Hc).
  pose proof (taken_driven L o _ _ _ _ Ht) as Hdr.
  destruct buf as [|b buf]; [cbn in Hu; discriminate Hu|].
  assert (Hb : b :: buf <> []) by discriminate. remember (b :: buf) as bf eqn:Eb. clear Eb b buf.
  destruct (driven_drv L safe _ _ _ _ Hdr) as (Ho & Hw & Hz & p & Hr & Hp).
  pose proof (zero_piece L _ _ _ Hz Hb) as Hz1.
  assert (Hnt : sd_state L s <> Trailer).
  { intros E. pose proof (trailer_hangs L s bf ob (update_fuel bf) (length bf) E Hb Hw : snd (update L s bf ob) = Hang) as Hh. rewrite Hu in Hh. discriminate Hh. }
  pose proof (conj Hw (conj Hz1 Hnt) : pre L s bf) as Hpre.
  destruct (update_flat L safe _ _ _ _ _ _ Hpre Hu) as (s1 & buf1 & ob1 & Hns & (Hw1 & Hz2 & Ht1) & _ & Hcase).
  assert (Hb1 : bytes_ok (c ++ bf)).
  { unfold bytes_ok in *. rewrite Ec, app_assoc in Hby. now apply Forall_app in Hby. }
  destruct (nsteps_parsed L safe o _ _ _ _ _ _ Hns c tl Hpre Ho Hb1 Hc) as (c1 & E1 & P1 & Ho1).
  destruct Hcase as [(Hnil & -> & -> & E)|(Hne & r0 & Hns0 & [(n0 & d0 & -> & Hd & E)|(e0 & -> & E)])]; [discriminate E..|].
  injection E as <-. apply (kept_blame ob ob1); [eapply nsteps_kept; eassumption|].
  rewrite Ec, app_assoc, E1, <- app_assoc. eapply (step_blame L o); [exact Hw1|exact Ho1| |exact Hne|exact P1|].
  - rewrite <- E1. exact Hb1.
  - eapply next_state_nst; eassumption.
Qed.
End Stream.

(** For examples: calls of [update] with all the rest of the file until one of them fails. *)
Fixpoint drive (L : lzw_codec) (ob : obuf) (n : nat) (s : sd L) (rest : list N) : dres unit :=
  match n with
  | O => Ok tt
  | Datatypes.S n' =>
    match update L s rest ob with
    | (s', _, Ok (k, _)) => drive L ob n' s' (skipn k rest)
    | (_, _, Err e) => Err e
    | (_, _, Panic) => Panic
    | (_, _, Hang) => Hang
    end
  end.
Definition fails_with (L : lzw_codec) (o : options) (file : list N) (ob : obuf) (e : derr) : Prop :=
  exists s buf tl evs s' ob', taken L o file s (buf ++ tl) evs /\ update L s buf ob = (s', ob', Err e).
Lemma drive_fails L o file ob e n : forall s rest evs, taken L o file s rest evs -> drive L ob n s rest = Err e -> fails_with L o file ob e.
Proof.
  induction n as [|n IH]; intros s rest evs Ht H; cbn [drive] in H; [discriminate H|].
  destruct (update L s rest ob) as [[s' ob'] [[k d]|e'| | ]] eqn:E; try discriminate H.
  - eapply IH; [|exact H]. replace (skipn k rest) with (skipn k rest ++ []) by apply app_nil_r. eapply tk_ok; [|exact E]. rewrite app_nil_r. exact Ht.
  - injection H as ->. exists s, rest, [], evs, s', ob'. rewrite app_nil_r. auto.
Qed.
Lemma drive_new L o file ob e n : drive L ob n (sd_new L o) file = Err e -> fails_with L o file ob e.
Proof. exact (drive_fails L o file ob e n _ _ [] (tk_new L o file)). Qed.
