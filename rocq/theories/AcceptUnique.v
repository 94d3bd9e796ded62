(** A byte string is a file of the grammar of [SpecAccept] in at most one way. *)
From Verif Require Import Base Common Lzw Encoder Stream SpecGif SpecAccept.
Open Scope N_scope.

Lemma app_inj {A} (a b x y : list A) : length a = length b -> a ++ x = b ++ y -> a = b /\ x = y.
Proof.
  revert b. induction a as [|h a IH]; intros [|k b] Hl H; try discriminate Hl; [auto|].
  cbn [app] in H. injection H as -> H. injection Hl as Hl. destruct (IH b Hl H) as [-> ->]. auto.
Qed.
Lemma sub_inj b c x y : ser_sub b ++ x = ser_sub c ++ y -> b = c /\ x = y.
Proof. unfold ser_sub. cbn [app]. intros H. injection H as Hl H. apply app_inj; [lia|exact H]. Qed.
Lemma tight_inj s s' x y : Forall (fun b : list N => b <> []) s -> Forall (fun b : list N => b <> []) s' ->
  concat (map ser_sub s) ++ 0 :: x = concat (map ser_sub s') ++ 0 :: y -> s = s' /\ x = y.
Proof.
  intros Hs. revert s'. induction Hs as [|b s Hb _ IH]; intros s' Hs' H; destruct Hs' as [|c s' Hc Hs']; cbn [map concat] in H.
  - injection H as ->. auto.
  - exfalso. apply Hc. destruct c; [reflexivity|]. cbn [ser_sub length app] in H. injection H as H _. lia.
  - exfalso. apply Hb. destruct b; [reflexivity|]. cbn [ser_sub length app] in H. injection H as H _. lia.
  - rewrite <- !app_assoc in H. apply sub_inj in H as [-> H]. destruct (IH s' Hs' H) as [-> ->]. auto.
Qed.
Lemma subs_inj s s' x y : loose_subs s -> loose_subs s' -> ser_subs s ++ x = ser_subs s' ++ y -> s = s' /\ x = y.
Proof.
  unfold ser_subs. rewrite <- !app_assoc. cbn [app]. intros (H1 & _ & H2) (H1' & _ & H2') H.
  destruct s as [|b s]; [congruence|]. destruct s' as [|b' s']; [congruence|]. cbn [map concat tl] in *. rewrite <- !app_assoc in H.
  apply sub_inj in H as [-> H]. destruct (tight_inj _ _ _ _ H2 H2' H) as [-> ->]. auto.
Qed.
Lemma word_inj m n x y : word m ++ x = word n ++ y -> u16_ok m -> u16_ok n -> m = n /\ x = y.
Proof.
  unfold word, u16_ok. cbn [app]. intros H _ _. injection H as H1 H2 H3. split; [|exact H3].
  rewrite (N.div_mod m 256), (N.div_mod n 256) by discriminate. congruence.
Qed.
Lemma table_inj f s t x y : table_ok f s -> table_ok f t -> s ++ x = t ++ y -> s = t /\ x = y.
Proof. intros [_ H1] [_ H2]. apply app_inj. lia. Qed.

Section U.
Variables tables tables' : bool.
Variables o o' : options.
Variables g g' : gif.
Lemma img_inj i j x y : blk_acc tables o g (BImg i) -> blk_acc tables' o' g' (BImg j) -> ser_img i ++ x = ser_img j ++ y -> i = j /\ x = y.
Proof.
  intros (((A1 & A2 & A3 & A4 & _) & A5 & _) & A6) (((B1 & B2 & B3 & B4 & _) & B5 & _) & B6) H.
  unfold ser_img in H. cbn [app] in H. apply (f_equal (@tl N)) in H. cbn [tl] in H. rewrite <- !app_assoc in H.
  apply word_inj in H as [E1 H]; [|assumption..]. apply word_inj in H as [E2 H]; [|assumption..].
  apply word_inj in H as [E3 H]; [|assumption..]. apply word_inj in H as [E4 H]; [|assumption..].
  cbn [app] in H. injection H as E5 H. rewrite <- ?app_assoc in H. rewrite <- E5 in B5. apply (table_inj _ _ _ _ _ A5 B5) in H as [E6 H].
  cbn [app] in H. injection H as E7 H. apply subs_inj in H as [E8 H]; [|assumption..]. destruct i, j. cbn in *. subst. auto.
Qed.
Lemma blk_inj b c x y : blk_acc tables o g b -> blk_acc tables' o' g' c -> ser_blk b ++ x = ser_blk c ++ y -> b = c /\ x = y.
Proof.
  destruct b as [l subs|i|t subs]; destruct c as [l' subs'|j|t' subs']; intros Hb Hc H; cbn [ser_blk] in H.
  - cbn [app] in H. injection H as -> H. destruct Hb as (_ & Hb & _). destruct Hc as (_ & Hc & _).
    apply subs_inj in H as [-> ->]; auto.
  - discriminate H.
  - cbn [app] in H. injection H as E _. destruct Hc as (_ & _ & Q & _). congruence.
  - discriminate H.
  - destruct (img_inj i j x y Hb Hc H) as [-> ->]. auto.
  - cbn [app] in H. injection H as E _. destruct Hc as (_ & Q & _). congruence.
  - cbn [app] in H. injection H as E _. destruct Hb as (_ & _ & Q & _). congruence.
  - cbn [app] in H. injection H as E _. destruct Hb as (_ & Q & _). congruence.
  - cbn [app] in H. injection H as -> H. destruct Hb as (_ & _ & _ & _ & Hb & _). destruct Hc as (_ & _ & _ & _ & Hc & _).
    apply subs_inj in H as [-> ->]; auto.
Qed.
Lemma no_trailer (t' : bool) (p : options) (h : gif) b x y : blk_acc t' p h b -> ser_blk b ++ x <> 0x3B :: y.
Proof.
  destruct b as [l subs|i|t subs]; intros Hb H; cbn [ser_blk] in H; [discriminate H|discriminate H|].
  cbn [app] in H. injection H as -> _. destruct Hb as (_ & _ & _ & Q & _). congruence.
Qed.
Lemma blocks_inj bs cs x y : Forall (blk_acc tables o g) bs -> Forall (blk_acc tables' o' g') cs ->
  ser_blocks bs ++ 0x3B :: x = ser_blocks cs ++ 0x3B :: y -> bs = cs /\ x = y.
Proof.
  intros Hb. revert cs. induction Hb as [|b bs Hb _ IH]; intros cs Hc H; destruct Hc as [|c cs Hc Hcs]; unfold ser_blocks in H; cbn [map concat] in H.
  - injection H as ->. auto.
  - exfalso. rewrite <- app_assoc in H. symmetry in H. revert H. eapply no_trailer; eassumption.
  - exfalso. rewrite <- app_assoc in H. eapply no_trailer; eassumption.
  - rewrite <- !app_assoc in H. apply blk_inj in H as [-> H]; [|assumption..]. destruct (IH cs Hcs H) as [-> ->]. auto.
Qed.
Theorem file_unique tl tl' : file_acc tables o g tl -> file_acc tables' o' g' tl' -> ser_gif g tl = ser_gif g' tl' -> g = g' /\ tl = tl'.
Proof.
  intros (((A1 & A2 & _ & _ & _ & A6) & A7 & _) & _) (((B1 & B2 & _ & _ & _ & B6) & B7 & _) & _) H.
  unfold ser_gif, ser_head in H. rewrite <- !app_assoc in H.
  apply app_inj in H as [E1 H]; [|destruct (g_89a g), (g_89a g'); reflexivity].
  apply word_inj in H as [E2 H]; [|assumption..]. apply word_inj in H as [E3 H]; [|assumption..].
  cbn [app] in H. injection H as E4 E5 E6 H. rewrite <- E4 in B6. apply (table_inj _ _ _ _ _ A6 B6) in H as [E7 H].
  apply blocks_inj in H as [E8 ->]; [|assumption..].
  assert (E0 : g_89a g = g_89a g') by (destruct (g_89a g), (g_89a g'); try reflexivity; discriminate E1).
  split; [|reflexivity]. destruct g, g'. cbn in *. subst. reflexivity.
Qed.
End U.
