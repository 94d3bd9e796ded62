(** A canonical reading of the byte stream: [next_state] fed with one byte at a time. Whatever way
    the input is cut into reads, [decode_next] follows the canonical reading, as long as pixels are
    not being decoded into a slice. *)
From Verif Require Import Base Common Lzw Encoder Stream Converter Reader StreamInv Steps StepsRev ReaderInv.
Open Scope N_scope.

(** Events whose number depends on how the input is cut. *)
Definition silent (d : decoded) : bool :=
  match d with DNothing | DLzwDataCopied _ => true | _ => false end.

Section Canon.
Variable L : lzw_codec.
Hypothesis safe : lzw_safe L.
Notation sd := (sd L).
Notation rd := (rd L).

(** The next event of the canonical reading. *)
Inductive cres := CEv (s : sd) (str : list N) (ob : obuf) (d : decoded) | CErr (e : derr) | CStuck.

Inductive cn : sd -> list N -> obuf -> cres -> Prop :=
| cn_stuck s ob : cn s [] ob CStuck
| cn_ev s b t ob s1 ob1 n d :
    next_state L s [b] ob = (s1, ob1, Ok (n, d)) -> silent d = false ->
    cn s (b :: t) ob (CEv s1 (skipn n [b] ++ t) ob1 d)
| cn_silent s b t ob s1 ob1 n d x :
    next_state L s [b] ob = (s1, ob1, Ok (n, d)) -> silent d = true ->
    cn s1 (skipn n [b] ++ t) ob1 x -> cn s (b :: t) ob x
| cn_err s b t ob s1 ob1 e :
    next_state L s [b] ob = (s1, ob1, Err e) -> cn s (b :: t) ob (CErr e).

Lemma cn_det s str ob x : cn s str ob x -> forall y, cn s str ob y -> x = y.
Proof.
  induction 1 as [s ob|s b t ob s1 ob1 n d H Hs|s b t ob s1 ob1 n d x H Hs Hc IH|s b t ob s1 ob1 e H];
    intros y Hy; inversion Hy as [ |? ? ? ? s2 ob2 m d2 H2 Hs2|? ? ? ? s2 ob2 m d2 y2 H2 Hs2 Hc2
      |? ? ? ? s2 ob2 e2 H2]; subst; try reflexivity; try congruence;
    rewrite H in H2; try discriminate H2; injection H2 as <- <- <- <-; try congruence.
  apply IH. assumption.
Qed.

(** One silent byte. *)
Lemma cn_byte s b t ob s1 ob1 d x :
  next_state L s [b] ob = (s1, ob1, Ok (1%nat, d)) -> silent d = true ->
  cn s1 t ob1 x -> cn s (b :: t) ob x.
Proof. intros H Hs Hc. eapply cn_silent; [exact H|exact Hs|exact Hc]. Qed.

(** ** Runs of bytes *)


Lemma cn_nst1 s b t ob s1 ob1 n d x : sd_wf L s -> nst L s [b] ob s1 ob1 (Ok (n, d)) ->
  (if silent d then cn s1 (skipn n (b :: t)) ob1 x else x = CEv s1 (skipn n (b :: t)) ob1 d) ->
  (n <= 1)%nat -> cn s (b :: t) ob x.
Proof.
  intros Hw Hn Hx Hl. apply nst_next_state in Hn; [|exact Hw|discriminate].
  assert (E : skipn n (b :: t) = skipn n [b] ++ t).
  { destruct n as [|[|n]]; [reflexivity|reflexivity|lia]. }
  rewrite E in Hx. destruct (silent d) eqn:Es.
  - eapply cn_silent; eassumption.
  - subst x. apply cn_ev; assumption.
Qed.

Lemma wf_step s b ob s1 ob1 n d : sd_wf L s -> zero_ok L s [b] ->
  nst L s [b] ob s1 ob1 (Ok (n, d)) -> sd_wf L s1 /\ zero_ok L s1 (skipn n [b]).
Proof.
  intros Hw Hz Hn. apply nst_next_state in Hn; [|exact Hw|discriminate].
  pose proof (next_state_good L safe s [b] ob Hw Hz ltac:(discriminate)) as Hg.
  rewrite Hn in Hg. destruct Hg as (_ & _ & _ & H1 & H2 & _). auto.
Qed.

Lemma cn_hdr_more a : forall s t ob x, sd_wf L s -> is_hdr (sd_state L s) = true ->
  (length (sd_ibuf L s ++ a) < need (sd_state L s))%nat ->
  cn (set_ibuf L s (sd_ibuf L s ++ a)) t ob x -> cn s (a ++ t) ob x.
Proof.
  induction a as [|b a IH]; intros s t ob x Hw Hh Hn Hc.
  - rewrite app_nil_r in Hc. rewrite set_ibuf_id in Hc by reflexivity. exact Hc.
  - rewrite app_length in Hn. cbn [length] in Hn. cbn [app].
    assert (Hs : nst L s [b] ob (set_ibuf L s (sd_ibuf L s ++ [b])) ob (Ok (length [b], DNothing))).
    { apply N_more; [exact Hh|]. rewrite app_length. cbn [length]. lia. }
    eapply cn_nst1; [exact Hw|exact Hs| |cbn; lia]. cbn [silent length skipn].
    apply IH; sdcbn; [|exact Hh|rewrite !app_length; cbn [length]; lia|].
    + eapply wf_step; [exact Hw| |exact Hs]. intros E. destruct (sd_state L s); discriminate.
    + rewrite <- app_assoc. exact Hc.
Qed.

(** The last byte of a fixed-size header. *)
Lemma hdr_split s buf : (length (sd_ibuf L s) < need (sd_state L s))%nat -> (hn L s <= length buf)%nat ->
  exists a b, buf = a ++ b :: skipn (hn L s) buf /\ length (a ++ [b]) = hn L s /\
    (length (sd_ibuf L s ++ a) < need (sd_state L s))%nat /\
    hdr L (set_ibuf L s (sd_ibuf L s ++ a)) [b] = hdr L s buf /\
    hn L (set_ibuf L s (sd_ibuf L s ++ a)) = 1%nat.
Proof.
  intros Hi Hl. unfold hdr, hn in *. sdcbn.
  set (m := (need (sd_state L s) - length (sd_ibuf L s))%nat) in *.
  assert (Hm : (0 < m)%nat) by (unfold m; lia).
  pose proof (firstn_skipn m buf) as E.
  assert (Hf : length (firstn m buf) = m) by (rewrite firstn_length; lia).
  destruct (@exists_last _ (firstn m buf)) as (a & b & Eab).
  { intros H. rewrite H in Hf. cbn in Hf. lia. }
  rewrite Eab in *. rewrite app_length in Hf. cbn [length] in Hf.
  exists a, b. split; [rewrite <- E at 1; now rewrite <- app_assoc|].
  split; [rewrite app_length; cbn; lia|].
  split; [rewrite app_length; unfold m in Hf; lia|].
  rewrite app_length. split; [|unfold m in *; lia].
  replace (need (sd_state L s) - (length (sd_ibuf L s) + length a))%nat with 1%nat by (unfold m in *; lia).
  cbn [firstn]. now rewrite <- app_assoc.
Qed.

Lemma cn_hdr_end s buf tl ob s1 ob1 d x : sd_wf L s -> is_hdr (sd_state L s) = true ->
  (hn L s <= length buf)%nat ->
  (forall a b, hdr L (set_ibuf L s (sd_ibuf L s ++ a)) [b] = hdr L s buf ->
     hn L (set_ibuf L s (sd_ibuf L s ++ a)) = 1%nat ->
     nst L (set_ibuf L s (sd_ibuf L s ++ a)) [b] ob s1 ob1 (Ok (1%nat, d))) ->
  (if silent d then cn s1 (skipn (hn L s) buf ++ tl) ob1 x
   else x = CEv s1 (skipn (hn L s) buf ++ tl) ob1 d) ->
  cn s (buf ++ tl) ob x.
Proof.
  intros Hw Hh Hl Hn Hx. pose proof Hw as (Hi & Hg & Hc & Hm).
  destruct (hdr_split s buf Hi Hl) as (a & b & E & El & Ea & Eh & En).
  rewrite E, <- app_assoc. cbn [app]. apply cn_hdr_more; [exact Hw|exact Hh|exact Ea|].
  eapply cn_nst1; [|apply Hn; assumption|exact Hx|lia].
  split; [exact Ea|]. auto.
Qed.

Lemma cn_hdr_err s buf tl ob e : sd_wf L s -> is_hdr (sd_state L s) = true ->
  (hn L s <= length buf)%nat ->
  (forall a b, hdr L (set_ibuf L s (sd_ibuf L s ++ a)) [b] = hdr L s buf ->
     hn L (set_ibuf L s (sd_ibuf L s ++ a)) = 1%nat ->
     exists s1 ob1, nst L (set_ibuf L s (sd_ibuf L s ++ a)) [b] ob s1 ob1 (Err e)) ->
  cn s (buf ++ tl) ob (CErr e).
Proof.
  intros Hw Hh Hl Hn. pose proof Hw as (Hi & Hg & Hc & Hm).
  destruct (hdr_split s buf Hi Hl) as (a & b & E & El & Ea & Eh & En).
  rewrite E, <- app_assoc. cbn [app]. apply cn_hdr_more; [exact Hw|exact Hh|exact Ea|].
  destruct (Hn a b Eh En) as (s1 & ob1 & Hn1). clear Hn. rename Hn1 into Hn. apply nst_next_state in Hn; [|split; [exact Ea|]; auto|discriminate].
  eapply cn_err. exact Hn.
Qed.

(** Runs in the middle of tables and sub-blocks. *)
Lemma not_late s st b : sd_state L s = st -> late st = false -> zero_ok L s [b].
Proof. intros <- H E. congruence. Qed.

Ltac run_tac Hn IH :=
  eapply cn_nst1; [eassumption|exact Hn| |cbn; lia]; cbn [silent length skipn];
  apply IH.

Lemma cn_gp a : forall s k t ob x, sd_wf L s -> sd_state L s = GlobalPalette k -> (length a <= k)%nat ->
  cn (set_state L (set_gct L s (sd_gct L s ++ a) (sd_gct_cap L s)) (GlobalPalette (k - length a))) t ob x ->
  cn s (a ++ t) ob x.
Proof.
  induction a as [|b a IH]; intros s k t ob x Hw Hst Hl Hc.
  - cbn [length app] in *. rewrite app_nil_r, Nat.sub_0_r in Hc. destruct s. cbn in *. subst. exact Hc.
  - cbn [length app] in *.
    pose proof (N_gp L s [b] ob k 1 Hst ltac:(lia) ltac:(cbn; lia)) as Hn. cbn [firstn] in Hn.
    eapply cn_nst1; [exact Hw|exact Hn| |lia]. cbn [silent skipn].
    eapply (IH _ (k - 1)%nat); [|reflexivity|lia|].
    + eapply wf_step; [exact Hw|eapply not_late; [exact Hst|reflexivity]|exact Hn].
    + sdcbn. rewrite <- app_assoc. replace (k - 1 - length a)%nat with (k - S (length a))%nat by lia. exact Hc.
Qed.

Lemma cn_xd a : forall s k t ob x, sd_wf L s -> sd_state L s = ExtensionDataBlock k -> (length a <= k)%nat ->
  check_size (o_limit (sd_opts L s)) (len (sd_ext_data L s) + N.of_nat (length a)) = true ->
  cn (set_state L (set_ext L s (sd_ext_id L s) (sd_ext_data L s ++ a) (sd_ext_end L s))
        (ExtensionDataBlock (k - length a))) t ob x ->
  cn s (a ++ t) ob x.
Proof.
  induction a as [|b a IH]; intros s k t ob x Hw Hst Hl Hck Hc.
  - cbn [length app] in *. rewrite app_nil_r, Nat.sub_0_r in Hc. destruct s. cbn in *. subst. exact Hc.
  - cbn [length app] in *.
    assert (Hck1 : check_size (o_limit (sd_opts L s)) (len (sd_ext_data L s) + N.of_nat 1) = true).
    { unfold check_size in *. destruct (o_limit _); [lia|reflexivity]. }
    pose proof (N_xd L s [b] ob k 1 Hst ltac:(lia) ltac:(cbn; lia) Hck1) as Hn. cbn [firstn] in Hn.
    eapply cn_nst1; [exact Hw|exact Hn| |lia]. cbn [silent skipn].
    eapply (IH _ (k - 1)%nat); [|reflexivity|lia| |].
    + eapply wf_step; [exact Hw|eapply not_late; [exact Hst|reflexivity]|exact Hn].
    + sdcbn. unfold check_size, len in *. rewrite app_length. cbn [length].
      destruct (o_limit _); [lia|reflexivity].
    + sdcbn. rewrite <- app_assoc. replace (k - 1 - length a)%nat with (k - S (length a))%nat by lia. exact Hc.
Qed.

Lemma cn_xd_limit a : forall s k t ob, sd_wf L s -> sd_state L s = ExtensionDataBlock k ->
  (0 < length a <= k)%nat ->
  check_size (o_limit (sd_opts L s)) (len (sd_ext_data L s) + N.of_nat (length a)) = false ->
  cn s (a ++ t) ob (CErr (DFormat MemoryLimitReached)).
Proof.
  induction a as [|b a IH]; intros s k t ob Hw Hst Hl Hck; [cbn in Hl; lia|].
  cbn [length app] in *.
  destruct (check_size (o_limit (sd_opts L s)) (len (sd_ext_data L s) + N.of_nat 1)) eqn:Hck1.
  - pose proof (N_xd L s [b] ob k 1 Hst ltac:(lia) ltac:(cbn; lia) Hck1) as Hn. cbn [firstn] in Hn.
    eapply cn_nst1; [exact Hw|exact Hn| |lia]. cbn [silent skipn].
    destruct a as [|c a].
    { unfold check_size in *. destruct (o_limit _); [|discriminate]. cbn [length] in Hck. congruence. }
    eapply (IH _ (k - 1)%nat); [|reflexivity|cbn [length] in *; lia|].
    + eapply wf_step; [exact Hw|eapply not_late; [exact Hst|reflexivity]|exact Hn].
    + sdcbn. unfold check_size, len in *. rewrite app_length. cbn [length] in *.
      destruct (o_limit _); [lia|discriminate].
  - pose proof (N_xd_limit L s [b] ob k 1 Hst ltac:(lia) ltac:(cbn; lia) Hck1) as Hn.
    apply nst_next_state in Hn; [|exact Hw|discriminate]. eapply cn_err. exact Hn.
Qed.

Lemma cn_lp a : forall s k f p t ob x, sd_wf L s -> sd_state L s = LocalPalette k -> (length a <= k)%nat ->
  sd_current L s = Some f -> f_palette f = Some p ->
  cn (set_state L (set_current L s (Some (set_palette f (Some (p ++ a)))) (sd_pal_cap L s))
        (LocalPalette (k - length a))) t ob x ->
  cn s (a ++ t) ob x.
Proof.
  induction a as [|b a IH]; intros s k f p t ob x Hw Hst Hl Hf Hp Hc.
  - cbn [length app] in *. rewrite app_nil_r, Nat.sub_0_r in Hc.
    destruct s, f. cbn in *. subst. exact Hc.
  - cbn [length app] in *.
    pose proof (N_lp L s [b] ob k 1 f p Hst ltac:(lia) ltac:(cbn; lia) Hf Hp) as Hn. cbn [firstn] in Hn.
    eapply cn_nst1; [exact Hw|exact Hn| |lia]. cbn [silent skipn].
    eapply (IH _ (k - 1)%nat); [|reflexivity|lia|reflexivity|reflexivity|].
    + eapply wf_step; [exact Hw|eapply not_late; [exact Hst|reflexivity]|exact Hn].
    + sdcbn. rewrite <- app_assoc. replace (k - 1 - length a)%nat with (k - S (length a))%nat by lia. exact Hc.
Qed.

(** Copying compressed data. *)
Definition ob_app (ob : obuf) (a : list N) : obuf := match ob with OVec v => OVec (v ++ a) | _ => ob end.
Definition ob_fits (ob : obuf) (lim : memory_limit) (n : nat) : bool :=
  match ob with OVec v => check_size lim (len v + N.of_nat n) | _ => true end.
Lemma ob_append_ok ob a lim : is_slice ob = false -> ob_fits ob lim (length a) = true ->
  exists c, obuf_append ob a lim = (ob_app ob a, Ok (length a, c)).
Proof.
  intros Hs Hf. destruct ob as [s|v| ]; [discriminate| |]; cbn in *.
  - unfold len at 2. rewrite Hf. eauto.
  - eauto.
Qed.

Lemma cn_cp a : forall s k t ob x, sd_wf L s -> sd_state L s = CopySubBlock k -> (length a <= k)%nat ->
  is_slice ob = false -> ob_fits ob (o_limit (sd_opts L s)) (length a) = true ->
  cn (set_state L s (CopySubBlock (k - length a))) t (ob_app ob a) x ->
  cn s (a ++ t) ob x.
Proof.
  induction a as [|b a IH]; intros s k t ob x Hw Hst Hl Hs Hf Hc.
  - cbn [length app] in *. rewrite Nat.sub_0_r in Hc.
    assert (E : ob_app ob [] = ob) by (destruct ob; cbn; rewrite ?app_nil_r; reflexivity).
    rewrite E in Hc. destruct s. cbn in *. subst. exact Hc.
  - cbn [length app] in *.
    destruct (ob_append_ok ob [b] (o_limit (sd_opts L s)) Hs) as [c Hap].
    { unfold ob_fits, check_size in *. destruct ob; try reflexivity. cbn [length].
      destruct (o_limit _); [lia|reflexivity]. }
    pose proof (N_cp L s [b] ob k 1 _ _ _ Hst ltac:(lia) ltac:(cbn; lia) Hap ltac:(cbn; lia)) as Hn.
    cbn [length] in Hn.
    eapply cn_nst1; [exact Hw|exact Hn| |lia]. cbn [silent skipn].
    eapply (IH _ (k - 1)%nat); [|reflexivity|lia|destruct ob; easy| |].
    + eapply wf_step; [exact Hw|eapply not_late; [exact Hst|reflexivity]|exact Hn].
    + unfold ob_fits, check_size, len in *. sdcbn. destruct ob; try reflexivity. cbn [ob_app].
      rewrite app_length. cbn [length]. destruct (o_limit _); [lia|reflexivity].
    + sdcbn. replace (ob_app (ob_app ob [b]) a) with (ob_app ob (b :: a)).
      2:{ destruct ob; cbn; try reflexivity. now rewrite <- app_assoc. }
      replace (k - 1 - length a)%nat with (k - S (length a))%nat by lia. exact Hc.
Qed.

Lemma cn_cp_limit a : forall s k t v, sd_wf L s -> sd_state L s = CopySubBlock k ->
  (0 < length a <= k)%nat ->
  check_size (o_limit (sd_opts L s)) (len v + N.of_nat (length a)) = false ->
  cn s (a ++ t) (OVec v) (CErr (DFormat MemoryLimitReached)).
Proof.
  induction a as [|b a IH]; intros s k t v Hw Hst Hl Hck; [cbn in Hl; lia|].
  cbn [length app] in *.
  destruct (check_size (o_limit (sd_opts L s)) (len v + N.of_nat 1)) eqn:Hck1.
  - destruct (ob_append_ok (OVec v) [b] (o_limit (sd_opts L s)) eq_refl) as [c Hap]; [exact Hck1|].
    pose proof (N_cp L s [b] (OVec v) k 1 _ _ _ Hst ltac:(lia) ltac:(cbn; lia) Hap ltac:(cbn; lia)) as Hn.
    cbn [length ob_app] in Hn.
    eapply cn_nst1; [exact Hw|exact Hn| |lia]. cbn [silent skipn].
    destruct a as [|c0 a]; [cbn [length] in Hck; congruence|].
    eapply (IH _ (k - 1)%nat); [|reflexivity|cbn [length] in *; lia|].
    + eapply wf_step; [exact Hw|eapply not_late; [exact Hst|reflexivity]|exact Hn].
    + sdcbn. unfold check_size, len in *. rewrite app_length. cbn [length] in *.
      destruct (o_limit _); [lia|discriminate].
  - assert (Hap : obuf_append (OVec v) [b] (o_limit (sd_opts L s)) = (OVec v, Err (DFormat MemoryLimitReached))).
    { cbn [obuf_append]. change (len [b]) with (N.of_nat 1). rewrite Hck1. reflexivity. }
    pose proof (N_cp_limit L s [b] (OVec v) k 1 _ Hst ltac:(lia) ltac:(cbn; lia) Hap) as Hn.
    apply nst_next_state in Hn; [|exact Hw|discriminate]. eapply cn_err. exact Hn.
Qed.

Lemma cn_de_skip a : forall s k t ob x, sd_wf L s -> sd_state L s = DecodeSubBlock k -> (length a <= k)%nat ->
  lr_has_ended L (sd_lzw L s) || is_none_ob ob = true ->
  cn (set_state L s (DecodeSubBlock (k - length a))) t ob x ->
  cn s (a ++ t) ob x.
Proof.
  induction a as [|b a IH]; intros s k t ob x Hw Hst Hl Hs Hc.
  - cbn [length app] in *. rewrite Nat.sub_0_r in Hc. destruct s. cbn in *. subst. exact Hc.
  - cbn [length app] in *.
    pose proof (N_de_skip L s [b] ob k 1 Hst ltac:(lia) ltac:(cbn; lia) Hs) as Hn.
    eapply cn_nst1; [exact Hw|exact Hn| |lia]. cbn [silent skipn].
    eapply (IH _ (k - 1)%nat); [|reflexivity|lia|exact Hs|].
    + eapply wf_step; [exact Hw|eapply not_late; [exact Hst|reflexivity]|exact Hn].
    + sdcbn. replace (k - 1 - length a)%nat with (k - S (length a))%nat by lia. exact Hc.
Qed.

(** A step on a longer buffer agrees with the canonical reading. *)
Definition absorbed (s : sd) (buf : list N) (ob : obuf) (s' : sd) (ob' : obuf)
  (r : dres (nat * decoded)) (tl : list N) : Prop :=
  match r with
  | Ok (n, d) => forall x,
      (if silent d then cn s' (skipn n buf ++ tl) ob' x else x = CEv s' (skipn n buf ++ tl) ob' d) ->
      cn s (buf ++ tl) ob x
  | Err e => cn s (buf ++ tl) ob (CErr e)
  | _ => True
  end.

Lemma absorb1 s b t ob s' ob' n d tl : sd_wf L s -> (n <= 1)%nat ->
  nst L s [b] ob s' ob' (Ok (n, d)) -> absorbed s (b :: t) ob s' ob' (Ok (n, d)) tl.
Proof.
  intros Hw Hl Hn x Hx. cbn [app]. eapply cn_nst1; [exact Hw|exact Hn| |exact Hl].
  destruct n as [|[|n]]; [exact Hx|exact Hx|lia].
Qed.
Lemma absorb1_err s b t ob s' ob' e tl : sd_wf L s ->
  nst L s [b] ob s' ob' (Err e) -> absorbed s (b :: t) ob s' ob' (Err e) tl.
Proof.
  intros Hw Hn. cbn. apply nst_next_state in Hn; [|exact Hw|discriminate]. eapply cn_err. exact Hn.
Qed.

Lemma firstn_min {A} k (l : list A) : firstn (Nat.min k (length l)) l = firstn k l.
Proof.
  destruct (Nat.le_gt_cases k (length l)).
  - now rewrite Nat.min_l by lia.
  - rewrite Nat.min_r by lia. rewrite firstn_all, firstn_all2 by lia. reflexivity.
Qed.

Lemma absorb s buf ob s' ob' r tl : sd_wf L s -> zero_ok L s buf -> buf <> [] -> is_slice ob = false ->
  nst L s buf ob s' ob' r -> absorbed s buf ob s' ob' r tl.
Proof.
  intros Hw Hz Hb Hs Hn.
  destruct Hn; repeat match goal with H : buf = _ :: _ |- _ => rewrite H in *; clear H end;
    try (apply absorb1; [exact Hw|lia|]; econstructor; (eassumption || reflexivity));
    try (apply absorb1_err; [exact Hw|]; econstructor; (eassumption || reflexivity)).
  all: assert (Hlen : (0 < length buf)%nat) by (destruct buf; [congruence|cbn; lia]).
  - intros x Hx. cbn [silent] in Hx. rewrite skipn_all in Hx. cbn [app] in Hx.
    now apply cn_hdr_more.
  - intros x Hx. eapply (cn_hdr_end s buf tl ob _ _ DNothing x); [exact Hw|rewrite H; reflexivity|assumption| |exact Hx].
    intros a b Ha Hb1.
    change (set_ibuf L s []) with (set_ibuf L (set_ibuf L s (sd_ibuf L s ++ a)) []).
    rewrite <- Hb1. apply N_magic; [exact H|rewrite Hb1; cbn; lia|congruence].
  - cbn. eapply cn_hdr_err; [exact Hw|rewrite H; reflexivity|assumption|].
    intros a b Ha Hb1. do 2 eexists. apply N_magic_bad; [exact H|rewrite Hb1; cbn; lia|congruence|congruence].
  - intros x Hx. eapply (cn_hdr_end s buf tl ob _ _ (DBackgroundColor (at_ (hdr L s buf) 5)) x); [exact Hw|rewrite H; reflexivity|assumption| |exact Hx].
    intros a b Ha Hb1.
    pose proof (N_screen L (set_ibuf L s (sd_ibuf L s ++ a)) [b] ob H ltac:(rewrite Hb1; cbn; lia)) as Hq.
    rewrite Ha, Hb1 in Hq. exact Hq.
  - intros x Hx. eapply (cn_hdr_end s buf tl ob _ _ DNothing x); [exact Hw|rewrite H; reflexivity|assumption| |exact Hx].
    intros a b Ha Hb1.
    pose proof (N_image L (set_ibuf L s (sd_ibuf L s ++ a)) [b] ob f H ltac:(rewrite Hb1; cbn; lia) H1) as Hq.
    rewrite Ha, Hb1 in Hq. apply Hq. assumption.
  - cbn. eapply cn_hdr_err; [exact Hw|rewrite H; reflexivity|assumption|].
    intros a b Ha Hb1. do 2 eexists. eapply N_image_oob; [exact H|rewrite Hb1; cbn; lia|eassumption|]. rewrite Ha. assumption.
  - intros x Hx. cbn [silent] in Hx. subst n.
    rewrite <- (firstn_skipn (Nat.min k (length buf)) buf), <- app_assoc.
    assert (El : length (firstn (Nat.min k (length buf)) buf) = Nat.min k (length buf)).
    { rewrite firstn_length. lia. }
    eapply cn_gp; [exact Hw|exact H|rewrite El; lia|].
    rewrite El. exact Hx.
  - destruct buf as [|b t1]; [congruence|]. apply absorb1; [exact Hw|lia|]. now apply N_header_end.
  - destruct buf as [|b t1]; [congruence|]. apply absorb1; [exact Hw|lia|]. now apply N_bs_image.
  - destruct buf as [|b t1]; [congruence|]. apply absorb1; [exact Hw|lia|]. now apply N_bs_trailer.
  - destruct buf as [|b t1]; [congruence|]. apply absorb1_err; [exact Hw|]. eapply N_bs_unknown_bad; eassumption.
  - intros x Hx. cbn [silent] in Hx. subst n.
    rewrite <- (firstn_skipn (Nat.min k (length buf)) buf), <- app_assoc.
    assert (El : length (firstn (Nat.min k (length buf)) buf) = Nat.min k (length buf)).
    { rewrite firstn_length. lia. }
    eapply cn_xd; [exact Hw|exact H|rewrite El; lia|rewrite El; assumption|].
    rewrite El. exact Hx.
  - cbn. subst n. rewrite <- (firstn_skipn (Nat.min k (length buf)) buf), <- app_assoc.
    assert (El : length (firstn (Nat.min k (length buf)) buf) = Nat.min k (length buf)).
    { rewrite firstn_length. lia. }
    eapply cn_xd_limit; [exact Hw|exact H|rewrite El; lia|rewrite El; assumption].
  - intros x Hx. cbn [silent] in Hx. subst n.
    rewrite <- (firstn_skipn (Nat.min k (length buf)) buf), <- app_assoc.
    assert (El : length (firstn (Nat.min k (length buf)) buf) = Nat.min k (length buf)).
    { rewrite firstn_length. lia. }
    eapply cn_lp; [exact Hw|exact H|rewrite El; lia|eassumption|eassumption|].
    rewrite El. exact Hx.
  - destruct buf as [|b t1]; [congruence|]. apply absorb1_err; [exact Hw|]. eapply N_init_bad; eassumption.
  - intros x Hx. cbn [silent] in Hx. subst n.
    rewrite <- (firstn_skipn (Nat.min k (length buf)) buf), <- app_assoc.
    assert (El : length (firstn (Nat.min k (length buf)) buf) = Nat.min k (length buf)).
    { rewrite firstn_length. lia. }
    assert (E : consumed = Nat.min k (length buf) /\ ob1 = ob_app ob (firstn (Nat.min k (length buf)) buf) /\
      ob_fits ob (o_limit (sd_opts L s)) (Nat.min k (length buf)) = true).
    { destruct ob as [sl|v| ]; [discriminate| |]; cbn [obuf_append ob_fits] in *; unfold len in H2; rewrite El in H2.
      - unfold len. destruct (check_size _ _); [|discriminate]. injection H2 as <- <- <-. auto.
      - injection H2 as <- <- <-. auto. }
    destruct E as (-> & -> & Ef).
    eapply cn_cp; [exact Hw|exact H|rewrite El; lia|exact Hs|rewrite El; exact Ef|].
    rewrite El. exact Hx.
  - cbn. subst n. rewrite <- (firstn_skipn (Nat.min k (length buf)) buf), <- app_assoc.
    assert (El : length (firstn (Nat.min k (length buf)) buf) = Nat.min k (length buf)).
    { rewrite firstn_length. lia. }
    destruct ob as [sl|v| ]; [discriminate| |discriminate].
    cbn [obuf_append] in H2. unfold len in H2. rewrite El in H2.
    destruct (check_size _ _) eqn:Eck; [discriminate|]. injection H2 as <-.
    eapply cn_cp_limit; [exact Hw|exact H|rewrite El; lia|rewrite El; exact Eck].
  - intros x Hx. cbn [silent] in Hx. subst n.
    rewrite <- (firstn_skipn (Nat.min k (length buf)) buf), <- app_assoc.
    assert (El : length (firstn (Nat.min k (length buf)) buf) = Nat.min k (length buf)).
    { rewrite firstn_length. lia. }
    eapply cn_de_skip; [exact Hw|exact H|rewrite El; lia|assumption|].
    rewrite El. exact Hx.
  - (* a vector is refused *)
    exfalso. apply orb_false_iff in H2 as [_ H2]. unfold lr_decode_bytes in H3.
    destruct ob; [discriminate|destruct (lr_decoder L (sd_lzw L s)); discriminate|discriminate].
  - destruct buf as [|b t1]; [congruence|]. apply absorb1_err; [exact Hw|].
    apply orb_false_iff in H2 as [H2 H2']. unfold lr_decode_bytes in H3.
    destruct ob as [sl|v| ]; [discriminate| |discriminate].
    eapply (N_de_err L s [b] (OVec v) k 1); [exact H|assumption|cbn; lia|rewrite H2; reflexivity|].
    unfold lr_decode_bytes. destruct (lr_decoder L (sd_lzw L s)); exact H3.
  - destruct buf as [|b t1]; [congruence|]. apply absorb1; [exact Hw|lia|]. now apply N_trailer.
Qed.

End Canon.
