(** Converse of [Steps.next_state_nst]: a listed transition is what [next_state] does. *)
From Verif Require Import Base Common Lzw Encoder Stream StreamInv Steps.
Open Scope N_scope.

Section Rev.
Variable L : lzw_codec.
Notation sd := (sd L).

Lemma hdr_all s buf req : need (sd_state L s) = req -> (req <= 9)%nat ->
  (length (sd_ibuf L s) < req)%nat -> buf <> [] -> (hn L s <= length buf)%nat ->
  ensure_min L s buf req = GotAll L (set_ibuf L s []) (hn L s) (hdr L s buf).
Proof.
  intros Hr H9 Hi Hb Hl.
  pose proof (ensure_min_ok L s buf req Hi H9 Hb) as He. unfold hn, hdr in *. rewrite Hr in *.
  destruct (ensure_min L s buf req) as [ |s1 n|s1 n v]; [easy| | ].
  - destruct He as (_ & _ & He). rewrite app_length in He. lia.
  - destruct He as (-> & -> & _ & -> & _). unfold hn. rewrite Hr. reflexivity.
Qed.
Lemma hdr_some s buf req : need (sd_state L s) = req -> (req <= 9)%nat ->
  (length (sd_ibuf L s) < req)%nat -> buf <> [] -> (length (sd_ibuf L s ++ buf) < req)%nat ->
  ensure_min L s buf req = GotMore L (set_ibuf L s (sd_ibuf L s ++ buf)) (length buf).
Proof.
  intros Hr H9 Hi Hb Hl.
  pose proof (ensure_min_ok L s buf req Hi H9 Hb) as He.
  destruct (ensure_min L s buf req) as [ |s1 n|s1 n v]; [easy| | ].
  - destruct He as (-> & -> & He). reflexivity.
  - destruct He as (_ & -> & He & _). rewrite app_length in Hl. lia.
Qed.

Lemma nst_next_state s buf ob s' ob' r :
  sd_wf L s -> buf <> [] -> nst L s buf ob s' ob' r -> next_state L s buf ob = (s', ob', r).
Proof.
  intros Hwf Hb Hn. pose proof Hwf as (Hi & Hg & Hc & Hm).
  unfold gct_wf, cur_wf, mode_wf in Hg, Hc, Hm.
  assert (Hun : exists b0 t0, buf = b0 :: t0) by (destruct buf; [congruence|eauto]).
  destruct Hun as (b0 & t0 & Hun).
  unfold next_state, goto. rewrite Hun. rewrite <- Hun.
  destruct Hn; try match goal with H : sd_state L s = _ |- _ => rewrite H in Hi, Hg, Hc, Hm |- * end.
  - destruct (sd_state L s) eqn:Est; try discriminate H; cbn [need] in *;
      (erewrite hdr_some; [reflexivity|rewrite Est; reflexivity|lia|assumption|assumption|assumption]).
  - erewrite hdr_all; [|rewrite H; reflexivity|lia|assumption|assumption|assumption].
    rewrite H1. destruct ver; reflexivity.
  - erewrite hdr_all; [|rewrite H; reflexivity|lia|assumption|assumption|assumption].
    destruct (list_eqb (hdr L s buf) GIF87a) eqn:E1; [apply list_eqb_eq in E1; congruence|].
    destruct (list_eqb (hdr L s buf) GIF89a) eqn:E2; [apply list_eqb_eq in E2; congruence|]. reflexivity.
  - erewrite hdr_all; [|rewrite H; reflexivity|lia|assumption|assumption|assumption].
    cbn zeta. sdcbn. unfold after_screen. destruct Hg as [Hg1 Hg2]. rewrite Hg1, Hg2.
    cbn zeta. destruct (negb _); reflexivity.
  - erewrite hdr_all; [|rewrite H; reflexivity|lia|assumption|assumption|assumption].
    sdcbn. rewrite H1. cbn zeta. sdcbn. unfold img_oob in H2.
    fold (img_frame f (hdr L s buf)).
    change (o_check_frame_consistency (sd_opts L s) && (out_of_bounds (sd_width L s) (f_width (img_frame f (hdr L s buf))) (f_left (img_frame f (hdr L s buf)))
      || out_of_bounds (sd_height L s) (f_height (img_frame f (hdr L s buf))) (f_top (img_frame f (hdr L s buf)))) = false) in H2.
    cbn [f_width f_left f_height f_top img_frame set_geometry] in H2. rewrite H2.
    unfold after_image. cbn zeta. destruct (negb (N.land (at_ (hdr L s buf) 8) 128 =? 0)); [|reflexivity].
    cbn [f_palette set_geometry img_frame]. destruct (f_palette f); reflexivity.
  - erewrite hdr_all; [|rewrite H; reflexivity|lia|assumption|assumption|assumption].
    sdcbn. rewrite H1. cbn zeta. sdcbn. unfold img_oob in H2.
    cbn [f_width f_left f_height f_top img_frame set_geometry] in H2. rewrite H2. reflexivity.
  - rewrite (proj2 (Nat.ltb_lt _ _) H0). cbn zeta. subst n.
    rewrite (proj2 (Nat.leb_le _ _)) by lia. reflexivity.
  - assert (b = b0) as -> by congruence. reflexivity.
  - rewrite H0. rewrite (proj2 (N.eqb_neq _ _)) by exact H1. reflexivity.
  - rewrite H0. cbn [negb andb]. cbn [block_from_u8 N.eqb Pos.eqb].
    unfold add_frame, cur_or_default, cap_or_0. destruct (sd_current L s) eqn:Ec; [|reflexivity].
    destruct s; cbn in *; subst; reflexivity.
  - assert (b = b0) as -> by congruence. rewrite andb_false_r. cbn [block_from_u8 N.eqb Pos.eqb]. rewrite H1. reflexivity.
  - assert (b = b0) as -> by congruence. rewrite andb_false_r. cbn [block_from_u8 N.eqb Pos.eqb]. rewrite H1. reflexivity.
  - rewrite H0. reflexivity.
  - assert (b = b0) as -> by congruence. rewrite H0. cbn [negb andb].
    unfold block_from_u8. rewrite !(proj2 (N.eqb_neq _ _)) by assumption. rewrite H4. reflexivity.
  - rewrite H0. cbn [negb andb].
    unfold block_from_u8. rewrite !(proj2 (N.eqb_neq _ _)) by assumption. rewrite H4. reflexivity.
  - assert (b0 = 0x3B) as -> by congruence. reflexivity.
  - assert (b = b0) as -> by congruence. rewrite (proj2 (N.eqb_neq _ _)) by assumption. reflexivity.
  - assert (b = b0) as -> by congruence. reflexivity.
  - rewrite (proj2 (Nat.ltb_lt _ _) H0). cbn zeta. subst n. rewrite H2. reflexivity.
  - rewrite (proj2 (Nat.ltb_lt _ _) H0). cbn zeta. subst n. rewrite H2. reflexivity.
  - assert (b = b0) as -> by congruence. rewrite (proj2 (N.eqb_neq _ _)) by assumption. reflexivity.
  - assert (b0 = 0) as -> by congruence. cbn [Nat.ltb Nat.leb N.eqb]. cbn zeta. sdcbn. rewrite H1. reflexivity.
  - assert (b0 = 0) as -> by congruence. cbn [Nat.ltb Nat.leb N.eqb]. cbn zeta. sdcbn. rewrite H1.
    unfold read_control_extension. sdcbn. rewrite H2. reflexivity.
  - assert (b0 = 0) as -> by congruence. cbn [Nat.ltb Nat.leb N.eqb]. cbn zeta. sdcbn. rewrite H1.
    unfold read_control_extension. sdcbn. rewrite (proj2 (Nat.eqb_neq _ _)) by assumption. reflexivity.
  - assert (b0 = 0) as -> by congruence. cbn [Nat.ltb Nat.leb N.eqb]. cbn zeta. sdcbn.
    destruct (extension_from_u8 (sd_ext_id L s)) as [[ | | | ]|]; try congruence; reflexivity.
  - assert (b0 = 0) as -> by congruence. cbn [N.eqb negb]. subst d. destruct (is_netscape _); reflexivity.
  - rewrite (proj2 (Nat.ltb_lt _ _) H0). rewrite H2, H3. cbn zeta. subst n.
    destruct Hc as (f1 & Hf1 & Hf2). assert (f1 = f) as -> by congruence.
    destruct (Hf2 H0) as (p1 & Hp1 & Hp2). assert (p1 = p) as -> by congruence.
    rewrite (proj2 (Nat.leb_le _ _)) by lia. reflexivity.
  - assert (b = b0) as -> by congruence. reflexivity.
  - assert (b = b0) as -> by congruence. rewrite H1, H2. reflexivity.
  - assert (b = b0) as -> by congruence. rewrite H1, H2. reflexivity.
  - unfold lr_reset. rewrite H0. destruct (negb _); [|reflexivity].
    replace (set_lzw L s (sd_lzw L s)) with s by (destruct s; reflexivity). reflexivity.
  - rewrite Hm. cbn [negb]. rewrite (proj2 (Nat.ltb_lt _ _) H0). cbn zeta. subst n. rewrite H2.
    destruct (Nat.ltb_spec k consumed); [lia|]. reflexivity.
  - rewrite Hm. cbn [negb]. rewrite (proj2 (Nat.ltb_lt _ _) H0). cbn zeta. subst n. rewrite H2. reflexivity.
  - assert (b = b0) as -> by congruence. rewrite Hm. cbn [negb Nat.ltb Nat.leb].
    rewrite (proj2 (N.eqb_neq _ _)) by assumption. reflexivity.
  - assert (b0 = 0) as -> by congruence. rewrite Hm. reflexivity.
  - destruct Hm as [Hm _]. rewrite Hm. rewrite (proj2 (Nat.ltb_lt _ _) H0). cbn zeta. subst n.
    unfold is_none_ob in H2. rewrite H2. reflexivity.
  - destruct Hm as [Hm _]. rewrite Hm. rewrite (proj2 (Nat.ltb_lt _ _) H0). cbn zeta. subst n.
    unfold is_none_ob in H2. rewrite H2, H3. rewrite <- H5.
    destruct (Nat.ltb_spec k c); [|reflexivity]. subst c. destruct (_ && _) in *; lia.
  - destruct Hm as [Hm _]. rewrite Hm. rewrite (proj2 (Nat.ltb_lt _ _) H0). cbn zeta. subst n.
    unfold is_none_ob in H2. rewrite H2, H3. reflexivity.
  - assert (b = b0) as -> by congruence. destruct Hm as [Hm _]. rewrite Hm. cbn [negb Nat.ltb Nat.leb].
    rewrite (proj2 (N.eqb_neq _ _)) by assumption. reflexivity.
  - assert (b0 = 0) as -> by congruence. destruct Hm as [Hm _]. rewrite Hm. cbn [negb Nat.ltb Nat.leb N.eqb].
    rewrite H1. destruct (Nat.eqb_spec w 0); reflexivity.
  - assert (b0 = 0) as -> by congruence. destruct Hm as [Hm _]. rewrite Hm. cbn [negb Nat.ltb Nat.leb N.eqb].
    rewrite H1. reflexivity.
  - assert (b0 = 0) as -> by congruence. reflexivity.
  - reflexivity.
Qed.

End Rev.
