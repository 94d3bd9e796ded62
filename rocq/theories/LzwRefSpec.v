(** The reference codec meets the contract assumed of [weezl]. *)
From Verif Require Import Base Lzw LzwRef.
Open Scope N_scope.

(** *** Bits *)
Lemma nbits_length w n : length (nbits w n) = w.
Proof. revert n; induction w; intros; simpl; auto. Qed.

Lemma div2_odd n : n = (if N.odd n then 1 else 0) + 2 * N.div2 n.
Proof. rewrite (N.div2_odd n) at 1. unfold N.b2n. destruct (N.odd n); lia. Qed.

Lemma bits_val_nbits w : forall n, n < 2 ^ N.of_nat w -> bits_val (nbits w n) = n.
Proof.
  induction w as [|w IH]; intros n H.
  - simpl in *. lia.
  - cbn [nbits bits_val]. rewrite IH.
    + now rewrite <- div2_odd.
    + rewrite Nat2N.inj_succ, N.pow_succ_r' in H. pose proof (div2_odd n) as E. destruct (N.odd n); lia.
Qed.

Lemma bits_val_bound bs : bits_val bs < 2 ^ N.of_nat (length bs).
Proof.
  induction bs as [|b bs IH]; cbn [length bits_val].
  - reflexivity.
  - rewrite Nat2N.inj_succ, N.pow_succ_r'. destruct b; lia.
Qed.

Lemma odd_b (b : bool) n : N.odd ((if b then 1 else 0) + 2 * n) = b.
Proof.
  rewrite N.odd_add_mul_2. destruct b; reflexivity.
Qed.
Lemma div2_b (b : bool) n : N.div2 ((if b then 1 else 0) + 2 * n) = n.
Proof.
  rewrite N.div2_div. destruct b; lia.
Qed.

Lemma nbits_zero w : nbits w 0 = repeat false w.
Proof. induction w; simpl; [reflexivity|]. f_equal. exact IHw. Qed.

Lemma nbits_bits_val bs : forall w, (length bs <= w)%nat ->
  nbits w (bits_val bs) = bs ++ repeat false (w - length bs).
Proof.
  induction bs as [|b bs IH]; intros w H; simpl length in *.
  - simpl bits_val. rewrite nbits_zero. simpl. now rewrite Nat.sub_0_r.
  - destruct w as [|w]; [lia|]. cbn [bits_val nbits].
    rewrite odd_b, div2_b, IH by lia. reflexivity.
Qed.

Lemma unpack_app a b : unpack (a ++ b) = unpack a ++ unpack b.
Proof. unfold unpack. now rewrite map_app, concat_app. Qed.

Lemma unpack_pack_fuel fuel : forall bs, (length bs <= fuel)%nat ->
  exists k, unpack (pack_fuel fuel bs) = bs ++ repeat false k.
Proof.
  induction fuel as [|fuel IH]; intros bs H.
  - destruct bs; [|simpl in H; lia]. exists 0%nat. reflexivity.
  - destruct bs as [|b bs]; [exists 0%nat; reflexivity|].
    cbn [pack_fuel].
    remember (b :: bs) as l eqn:E.
    assert (Hl : (0 < length l)%nat) by (subst; simpl; lia).
    destruct (IH (skipn 8 l)) as [k Hk].
    { rewrite skipn_length. lia. }
    change (unpack (?x :: ?y)) with (nbits 8 x ++ unpack y).
    rewrite Hk.
    rewrite nbits_bits_val by (rewrite firstn_length; lia).
    destruct (Nat.le_gt_cases 8 (length l)) as [H8|H8].
    + exists k. rewrite firstn_length, Nat.min_l by lia.
      rewrite Nat.sub_diag. cbn [repeat]. rewrite app_nil_r.
      rewrite app_assoc. now rewrite firstn_skipn.
    + exists (8 - length l + k)%nat.
      rewrite firstn_length, Nat.min_r by lia.
      rewrite firstn_all2, skipn_all2 by lia. simpl ([] ++ _).
      rewrite <- app_assoc, <- repeat_app. reflexivity.
Qed.
Lemma unpack_pack bs : exists k, unpack (pack bs) = bs ++ repeat false k.
Proof. apply unpack_pack_fuel. lia. Qed.

Lemma pack_fuel_bytes fuel : forall bs, bytes_ok (pack_fuel fuel bs).
Proof.
  induction fuel as [|fuel IH]; intros bs; [constructor|].
  destruct bs as [|b bs]; [constructor|].
  cbn [pack_fuel]. constructor; [|apply IH].
  unfold byte_ok. eapply N.lt_le_trans; [apply bits_val_bound|].
  change 256 with (2 ^ 8). apply N.pow_le_mono_r; [lia|].
  rewrite firstn_length. lia.
Qed.

(** *** What a complete bit stream denotes *)
Inductive runs (m : N) : list (list N) -> option (list N) -> list bool -> list N -> Prop :=
| R_short dict prev bits :
    (length bits < width m prev dict)%nat -> runs m dict prev bits []
| R_end dict prev bits :
    (width m prev dict <= length bits)%nat ->
    lookup m prev dict (bits_val (firstn (width m prev dict) bits)) = AEnd ->
    runs m dict prev bits []
| R_clear dict prev bits out :
    (width m prev dict <= length bits)%nat ->
    lookup m prev dict (bits_val (firstn (width m prev dict) bits)) = AClear ->
    runs m [] None (skipn (width m prev dict) bits) out ->
    runs m dict prev bits out
| R_word dict prev bits w out :
    (width m prev dict <= length bits)%nat ->
    lookup m prev dict (bits_val (firstn (width m prev dict) bits)) = AWord w ->
    runs m (add_entry m prev dict w) (Some w) (skipn (width m prev dict) bits) out ->
    runs m dict prev bits (w ++ out).

Definition ref_pending (s : dst) (inp out : list N) : Prop :=
  ds_bad s = false /\
  if ds_ended s then out = ds_pend s
  else exists o, out = ds_pend s ++ o /\
                 runs (ds_m s) (ds_dict s) (ds_prev s) (ds_bits s ++ unpack inp) o.

Lemma width_pos m prev dict : (1 <= width m prev dict)%nat.
Proof. unfold width. destruct prev; lia. Qed.

(** *** The loop *)
Lemma dec_loop_safe fuel : forall s inp cap n w s' n' w',
  dec_loop fuel s inp cap n w = (s', (n', w')) ->
  (n' <= n + length inp /\ length w' <= length w + cap)%nat /\ ds_m s' = ds_m s.
Proof.
  induction fuel as [|fuel IH]; intros s inp cap n w s' n' w' H.
  - simpl in H. injection H as <- <- <-. lia.
  - cbn [dec_loop] in H. destruct (ds_pend s) as [|p ps] eqn:Ep.
    + destruct (ds_ended s || ds_bad s).
      { injection H as <- <- <-. lia. }
      cbn zeta in H.
      destruct (width (ds_m s) (ds_prev s) (ds_dict s) <=? length (ds_bits s))%nat.
      * apply IH in H. destruct H as [H1 H2]. split; [exact H1|].
        rewrite H2. unfold do_code. cbn zeta.
        destruct (lookup _ _ _ _); reflexivity.
      * destruct inp as [|b inp].
        { injection H as <- <- <-. simpl. lia. }
        apply IH in H. destruct H as [[H1 H3] H2]. simpl length. split; [lia|exact H2].
    + destruct cap as [|cap].
      { injection H as <- <- <-. lia. }
      apply IH in H. destruct H as [[H1 H3] H2]. split; [|exact H2].
      rewrite app_length, firstn_length in H3. lia.
Qed.

Definition stopped (s' : dst) (inp : list N) (cap k : nat) (dw : list N) : Prop :=
  (ds_pend s' <> [] /\ length dw = cap) \/
  (ds_pend s' = [] /\ ds_ended s' = true) \/
  (ds_pend s' = [] /\ ds_ended s' = false /\ k = length inp /\
   (length (ds_bits s') < width (ds_m s') (ds_prev s') (ds_dict s'))%nat).

Definition meas (s : dst) (inp : list N) (cap : nat) : nat :=
  (17 * length inp + 2 * length (ds_bits s) +
   (match ds_pend s, cap with _ :: _, S _ => 1 | _, _ => 0 end))%nat.

Lemma dec_loop_ok b fuel : forall s inp cap n w out s' n' w',
  (meas s inp cap < fuel)%nat ->
  ref_pending s (inp ++ b) out ->
  dec_loop fuel s inp cap n w = (s', (n', w')) ->
  exists k dw out',
    n' = (n + k)%nat /\ w' = w ++ dw /\ out = dw ++ out' /\ (k <= length inp)%nat /\
    ref_pending s' (skipn k inp ++ b) out' /\
    stopped s' inp cap k dw.
Proof.
  induction fuel as [|fuel IH]; intros s inp cap n w out s' n' w' Hf Hp H; [lia|].
  cbn [dec_loop] in H. destruct Hp as [Hbad Hp].
  destruct (ds_pend s) as [|p ps] eqn:Ep.
  - destruct (ds_ended s) eqn:Ee; rewrite ?Hbad in H; simpl orb in H.
    + cbn match in H. injection H as <- <- <-. exists 0%nat, [], out.
      rewrite app_nil_r. repeat split; try lia.
      * exact Hbad.
      * rewrite Ee, Ep. exact Hp.
      * right. left. now rewrite Ep.
    + cbn match in H. destruct Hp as (o & -> & Hr). simpl in *.
      destruct (width (ds_m s) (ds_prev s) (ds_dict s) <=? length (ds_bits s))%nat eqn:Ew.
      * apply Nat.leb_le in Ew.
        pose proof (width_pos (ds_m s) (ds_prev s) (ds_dict s)) as Hw1.
        set (wd := width (ds_m s) (ds_prev s) (ds_dict s)) in *.
        assert (Hf1 : firstn wd (ds_bits s ++ unpack (inp ++ b)) = firstn wd (ds_bits s)).
        { rewrite firstn_app. replace (wd - length (ds_bits s))%nat with 0%nat by lia.
          cbn [firstn]. now rewrite app_nil_r. }
        assert (Hf2 : skipn wd (ds_bits s ++ unpack (inp ++ b))
                      = skipn wd (ds_bits s) ++ unpack (inp ++ b)).
        { rewrite skipn_app. replace (wd - length (ds_bits s))%nat with 0%nat by lia.
          reflexivity. }
        assert (Hp' : ref_pending (do_code s wd) (inp ++ b) o).
        { unfold do_code. cbn zeta.
          inversion Hr as [? ? ? Hs|? ? ? Hs Hl|? ? ? ? Hs Hl Hr'|? ? ? wv ? Hs Hl Hr']; subst;
            fold wd in Hs; try fold wd in Hl; try fold wd in Hr'.
          - rewrite app_length in Hs. lia.
          - rewrite Hf1 in Hl. rewrite Hl. split; reflexivity.
          - rewrite Hf1 in Hl. rewrite Hl. split; [reflexivity|]. cbn.
            exists o. split; [reflexivity|]. now rewrite <- Hf2.
          - rewrite Hf1 in Hl. rewrite Hl. split; [reflexivity|]. cbn.
            eexists. split; [reflexivity|]. now rewrite <- Hf2. }
        eapply IH in H; [exact H| |exact Hp'].
        unfold meas in *. rewrite Ep in Hf.
        assert (length (ds_bits (do_code s wd)) = length (ds_bits s) - wd)%nat as ->.
        { unfold do_code. cbn zeta. destruct (lookup _ _ _ _); cbn; now rewrite skipn_length. }
        destruct (ds_pend (do_code s wd)); [|destruct cap]; lia.
      * apply Nat.leb_gt in Ew. destruct inp as [|x inp].
        -- injection H as <- <- <-. exists 0%nat, [], o. rewrite app_nil_r.
           repeat split; try (simpl; lia); try exact Hbad.
           ++ rewrite Ee, Ep. exists o. split; [reflexivity|exact Hr].
           ++ right. right. rewrite Ep, Ee. repeat split. exact Ew.
        -- eapply IH with (out := o) in H.
           ++ destruct H as (k & dw & out' & -> & -> & -> & Hk & Hp' & Hs).
              exists (S k), dw, out'. simpl length. repeat split; try lia.
              ** apply Hp'.
              ** destruct Hp' as [_ Hp']. exact Hp'.
              ** destruct Hs as [Hs|[Hs|(Hs1&Hs2&Hs3&Hs4)]]; [left|right;left|right;right]; auto.
                 repeat split; auto. simpl. lia.
           ++ unfold meas in *. rewrite Ep in Hf. cbn [length ds_bits ds_pend add_bits] in *.
              rewrite app_length, nbits_length, Ep. lia.
           ++ split; [exact Hbad|]. cbn. rewrite Ee, Ep.
              exists o. split; [reflexivity|].
              rewrite <- app_assoc. exact Hr.
  - destruct cap as [|cap].
    + injection H as <- <- <-. exists 0%nat, [], out. rewrite app_nil_r.
      repeat split; try lia; try exact Hbad.
      * rewrite Ep. exact Hp.
      * left. rewrite Ep. split; [discriminate|reflexivity].
    + assert (Hout : out = firstn (S cap) (ds_pend s) ++
                (skipn (S cap) (ds_pend s) ++ (skipn (length (ds_pend s)) out)) /\
              ref_pending (set_pend s (skipn (S cap) (ds_pend s))) (inp ++ b)
                (skipn (S cap) (ds_pend s) ++ (skipn (length (ds_pend s)) out))).
      { destruct (ds_ended s) eqn:Ee.
        - subst out. rewrite <- Ep. rewrite skipn_all, app_nil_r, firstn_skipn. split; [reflexivity|].
          split; [exact Hbad|]. cbn. now rewrite Ee.
        - destruct Hp as (o & -> & Hr). rewrite <- Ep.
          rewrite skipn_app, skipn_all, Nat.sub_diag. simpl (_ ++ skipn 0 o).
          rewrite app_assoc, firstn_skipn. split; [reflexivity|].
          split; [exact Hbad|]. cbn. rewrite Ee. exists o. split; [reflexivity|exact Hr]. }
      rewrite Ep in Hout. rewrite <- Ep in *.
      destruct Hout as [Ho Hp'].
      eapply IH in H; [| |exact Hp'].
      * destruct H as (k & dw & out' & -> & -> & Hd & Hk & Hp2 & Hs).
        exists k, (firstn (S cap) (ds_pend s) ++ dw), out'.
        rewrite !app_assoc. repeat split; try exact Hk.
        -- rewrite Ho, Hd. now rewrite app_assoc.
        -- apply Hp2.
        -- destruct Hp2 as [_ Hp2]. exact Hp2.
        -- destruct Hs as [[Hs1 Hs2]|Hs]; [left|right; exact Hs]. split; [exact Hs1|].
           rewrite app_length, firstn_length, Hs2. lia.
      * unfold meas in *. rewrite Ep in Hf. cbn [ds_pend ds_bits set_pend].
        destruct (skipn (S cap) (ds_pend s)) eqn:Esk; [lia|].
        assert (Hlen : (S cap < length (ds_pend s))%nat).
        { apply (f_equal (@length _)) in Esk. rewrite skipn_length in Esk. simpl in Esk. lia. }
        replace (S cap - length (ds_pend s))%nat with 0%nat by lia. lia.
Qed.

Lemma dec_fuel_enough s inp cap : (meas s inp cap < dec_fuel s inp)%nat.
Proof. unfold meas, dec_fuel. destruct (ds_pend s); [|destruct cap]; lia. Qed.

Lemma ref_decode_ok s a b cap out s' n w st :
  ref_pending s (a ++ b) out -> ref_decode s a cap = (s', (n, w, st)) ->
  st <> LzInvalid /\ (n <= length a)%nat /\
  exists out', out = w ++ out' /\ ref_pending s' (skipn n a ++ b) out' /\ stopped s' a cap n w.
Proof.
  intros Hp H. unfold ref_decode in H.
  destruct (dec_loop (dec_fuel s a) s a cap 0 []) as [s1 [n1 w1]] eqn:E.
  injection H as <- <- <- <-.
  eapply dec_loop_ok in E; [|apply dec_fuel_enough|exact Hp].
  destruct E as (k & dw & out' & -> & -> & -> & Hk & Hp' & Hs).
  simpl in *. split; [|split; [exact Hk|]].
  - destruct Hp' as [-> _]. destruct (ds_ended s1 && is_nil (ds_pend s1)); [discriminate|].
    destruct (_ && _); discriminate.
  - exists out'. auto.
Qed.

(** *** The encoder *)
Definition enc_inv (m : N) (dd : list (list N)) (prev : option (list N)) (cur : list N) : Prop :=
  cur <> [] /\ Forall (fun b => b < 2 ^ m) cur /\
  match prev with
  | None => dd = []
  | Some p => p <> [] /\ 2 ^ m + 2 + N.of_nat (length dd) <= 4094
  end.

Lemma find_word_some w dict : forall i c, find_word w dict i = Some c ->
  i <= c /\ nth_error dict (N.to_nat (c - i)) = Some w.
Proof.
  induction dict as [|x d IH]; intros i c H; simpl in H; [discriminate|].
  destruct (list_eqb x w) eqn:E.
  - injection H as <-. apply list_eqb_eq in E. subst x. split; [lia|].
    rewrite N.sub_diag. reflexivity.
  - apply IH in H. destruct H as [H1 H2]. split; [lia|].
    replace (N.to_nat (c - i)) with (S (N.to_nat (c - (i + 1)))) by lia.
    exact H2.
Qed.

Lemma width_ge m prev dd : m <= 11 -> (N.to_nat m + 1 <= width m prev dd)%nat.
Proof.
  intros Hm. unfold width. destruct prev; [|lia].
  apply Nat.min_glb; [lia|].
  assert (N.log2 (2 ^ m) <= N.log2 (2 ^ m + 2 + N.of_nat (length dd))) by (apply N.log2_le_mono; lia).
  rewrite N.log2_pow2 in H by lia. lia.
Qed.

Lemma width_fits m p dd c : m <= 11 -> 2 ^ m + 2 + N.of_nat (length dd) <= 4095 ->
  c <= 2 ^ m + 2 + N.of_nat (length dd) -> c < 2 ^ N.of_nat (width m (Some p) dd).
Proof.
  intros Hm Hd Hc. unfold width.
  destruct (Nat.le_gt_cases 12 (N.to_nat (N.log2 (2 ^ m + 2 + N.of_nat (length dd)) + 1))) as [H|H].
  - rewrite Nat.min_l by exact H. change (2 ^ N.of_nat 12) with 4096. lia.
  - rewrite Nat.min_r by lia. rewrite N2Nat.id.
    eapply N.le_lt_trans; [exact Hc|].
    rewrite N.add_1_r. apply N.log2_spec. lia.
Qed.

Lemma add_entry_ahead m prev dd cur : enc_inv m dd prev cur ->
  add_entry m prev dd cur = dd ++ ahead prev cur.
Proof.
  intros (Hc & _ & Hp). unfold add_entry, ahead.
  destruct prev as [p|]; [|now rewrite app_nil_r].
  destruct cur as [|h t]; [congruence|].
  destruct Hp as [_ Hp]. rewrite (proj2 (N.ltb_lt _ _)) by lia. reflexivity.
Qed.

Lemma code_of_lookup m prev dd cur c : m <= 11 -> enc_inv m dd prev cur ->
  code_of m prev dd cur cur = Some c ->
  c < 2 ^ N.of_nat (width m prev dd) /\ lookup m prev dd c = AWord cur.
Proof.
  intros Hm (Hc & Hb & Hp) H.
  pose proof (width_ge m prev dd Hm) as Hw.
  assert (Hsing : forall b, cur = [b] -> Some b = Some c ->
            c < 2 ^ N.of_nat (width m prev dd) /\ lookup m prev dd c = AWord cur).
  { intros b -> Hb'. injection Hb' as <-. inversion Hb as [|? ? Hb1 _]; subst. split.
    - eapply N.lt_le_trans; [exact Hb1|]. apply N.pow_le_mono_r; lia.
    - unfold lookup. now rewrite (proj2 (N.ltb_lt _ _)) by exact Hb1. }
  destruct cur as [|h [|h2 t]]; [congruence|apply (Hsing h); [reflexivity|exact H]|].
  clear Hsing. unfold code_of in H. apply find_word_some in H. destruct H as [H1 H2].
  remember (h :: h2 :: t) as cur eqn:Ec.
  unfold lookup.
  rewrite (proj2 (N.ltb_ge _ _)) by lia.
  unfold clear_code, eoi_code.
  rewrite (proj2 (N.eqb_neq _ _)) by lia.
  rewrite (proj2 (N.eqb_neq _ _)) by lia.
  set (i := N.to_nat (c - (2 ^ m + 2))) in *.
  destruct prev as [p|].
  2:{ subst dd. unfold ahead in H2. simpl in H2. destruct i; discriminate. }
  destruct Hp as [Hpn Hd].
  destruct (Nat.lt_ge_cases i (length dd)) as [Hi|Hi].
  - rewrite nth_error_app1 in H2 by exact Hi. rewrite H2. split; [|reflexivity].
    apply width_fits; try lia.
  - rewrite nth_error_app2 in H2 by exact Hi.
    unfold ahead in H2. rewrite Ec in H2.
    destruct (i - length dd)%nat eqn:Ei; [|destruct n; discriminate].
    simpl in H2. injection H2 as H2.
    rewrite (proj2 (nth_error_None _ _)) by exact Hi.
    rewrite (proj2 (Nat.eqb_eq _ _)) by lia.
    destruct p as [|p0 p]; [congruence|].
    simpl in H2. injection H2 as -> H2. split.
    + apply width_fits; lia.
    + rewrite Ec. simpl. now rewrite H2.
Qed.

Lemma firstn_emit m prev dd c tl :
  firstn (width m prev dd) (emit m prev dd c ++ tl) = emit m prev dd c.
Proof.
  unfold emit. rewrite firstn_app, nbits_length, Nat.sub_diag. simpl.
  rewrite app_nil_r. rewrite firstn_all2; [reflexivity|]. rewrite nbits_length. lia.
Qed.
Lemma skipn_emit m prev dd c tl :
  skipn (width m prev dd) (emit m prev dd c ++ tl) = tl.
Proof.
  unfold emit. rewrite skipn_app, nbits_length, Nat.sub_diag.
  rewrite skipn_all2 by (rewrite nbits_length; lia). reflexivity.
Qed.
Lemma emit_long m prev dd c tl : (width m prev dd <= length (emit m prev dd c ++ tl))%nat.
Proof. unfold emit. rewrite app_length, nbits_length. lia. Qed.

Lemma runs_emit_word m prev dd c w tl out :
  c < 2 ^ N.of_nat (width m prev dd) -> lookup m prev dd c = AWord w ->
  runs m (add_entry m prev dd w) (Some w) tl out ->
  runs m dd prev (emit m prev dd c ++ tl) (w ++ out).
Proof.
  intros Hc Hl Hr. eapply R_word with (w := w).
  - apply emit_long.
  - rewrite firstn_emit. unfold emit. rewrite bits_val_nbits by exact Hc. exact Hl.
  - now rewrite skipn_emit.
Qed.

Lemma clear_fits m prev dd : m <= 11 -> clear_code m < 2 ^ N.of_nat (width m prev dd).
Proof.
  intros Hm. pose proof (width_ge m prev dd Hm). unfold clear_code.
  apply N.pow_lt_mono_r; lia.
Qed.
Lemma eoi_fits m prev dd : 1 <= m <= 11 -> eoi_code m < 2 ^ N.of_nat (width m prev dd).
Proof.
  intros Hm. pose proof (width_ge m prev dd (proj2 Hm)) as H. unfold eoi_code.
  eapply N.lt_le_trans with (2 ^ (m + 1)).
  - rewrite N.pow_add_r. change (2 ^ 1) with 2.
    assert (2 ^ 1 <= 2 ^ m) by (apply N.pow_le_mono_r; lia). change (2 ^ 1) with 2 in *. lia.
  - apply N.pow_le_mono_r; lia.
Qed.
Lemma lookup_clear m prev dd : lookup m prev dd (clear_code m) = AClear.
Proof.
  unfold lookup, clear_code. rewrite (proj2 (N.ltb_ge _ _)) by lia. now rewrite N.eqb_refl.
Qed.
Lemma lookup_eoi m prev dd : lookup m prev dd (eoi_code m) = AEnd.
Proof.
  unfold lookup, clear_code, eoi_code. rewrite (proj2 (N.ltb_ge _ _)) by lia.
  rewrite (proj2 (N.eqb_neq _ _)) by lia. now rewrite N.eqb_refl.
Qed.
Lemma runs_emit_clear m prev dd tl out : m <= 11 ->
  runs m [] None tl out -> runs m dd prev (emit m prev dd (clear_code m) ++ tl) out.
Proof.
  intros Hm Hr. apply R_clear.
  - apply emit_long.
  - rewrite firstn_emit. unfold emit. rewrite bits_val_nbits by (apply clear_fits; lia).
    apply lookup_clear.
  - now rewrite skipn_emit.
Qed.
Lemma runs_emit_eoi m prev dd tl : 1 <= m <= 11 ->
  runs m dd prev (emit m prev dd (eoi_code m) ++ tl) [].
Proof.
  intros Hm. apply R_end.
  - apply emit_long.
  - rewrite firstn_emit. unfold emit. rewrite bits_val_nbits by (apply eoi_fits; lia).
    apply lookup_eoi.
Qed.

Lemma ahead_grow prev cur b : cur <> [] -> ahead prev (cur ++ [b]) = ahead prev cur.
Proof. destruct cur; [congruence|]. reflexivity. Qed.

Lemma code_of_grow m prev dd cur w b : cur <> [] ->
  code_of m prev dd (cur ++ [b]) w = code_of m prev dd cur w.
Proof. intros. unfold code_of. now rewrite ahead_grow. Qed.

Lemma enc_loop_runs m : 1 <= m <= 11 -> 2 ^ m + 2 <= 4094 ->
  forall rest dd prev cur tl c,
  enc_inv m dd prev cur -> Forall (fun b => b < 2 ^ m) rest ->
  code_of m prev dd cur cur = Some c ->
  runs m dd prev (enc_loop m dd prev cur rest ++ tl) (cur ++ rest).
Proof.
  intros Hm Hm2. induction rest as [|b rest IH]; intros dd prev cur tl c Hi Hr Hc.
  - cbn [enc_loop]. rewrite Hc. cbn [code_or0].
    destruct (code_of_lookup _ _ _ _ _ (proj2 Hm) Hi Hc) as [H1 H2].
    rewrite <- app_assoc. eapply runs_emit_word; [exact H1|exact H2|].
    now apply runs_emit_eoi.
  - cbn [enc_loop]. inversion Hr as [|? ? Hb Hr']; subst.
    destruct (code_of m prev dd cur (cur ++ [b])) as [c'|] eqn:E.
    + replace (cur ++ b :: rest) with ((cur ++ [b]) ++ rest) by (now rewrite <- app_assoc).
      destruct Hi as (Hi1 & Hi2 & Hi3).
      eapply IH with (c := c'); [|exact Hr'|].
      * split; [|split; [|exact Hi3]].
        -- destruct cur; discriminate.
        -- apply Forall_app. split; [exact Hi2|]. now constructor.
      * rewrite code_of_grow; [exact E|exact Hi1].
    + cbn zeta. rewrite Hc. cbn [code_or0].
      destruct (code_of_lookup _ _ _ _ _ (proj2 Hm) Hi Hc) as [H1 H2].
      destruct (4095 <=? 2 ^ m + 2 + N.of_nat (length (add_entry m prev dd cur))) eqn:Efull.
      * rewrite <- !app_assoc. eapply runs_emit_word; [exact H1|exact H2|].
        apply runs_emit_clear; [lia|].
        change (b :: rest) with ([b] ++ rest).
        apply IH with (c := b); [|exact Hr'|reflexivity].
        split; [discriminate|]. split; [now constructor|reflexivity].
      * apply N.leb_gt in Efull.
        rewrite <- !app_assoc. eapply runs_emit_word; [exact H1|exact H2|].
        change (b :: rest) with ([b] ++ rest).
        apply IH with (c := b); [|exact Hr'|reflexivity].
        split; [discriminate|]. split; [now constructor|]. split; [apply Hi|lia].
Qed.

Lemma pack_nonempty bs : (0 < length bs)%nat -> pack bs <> [].
Proof. destruct bs as [|b bs]; cbn [length]; intros H; [lia|]. unfold pack. cbn [length pack_fuel]. discriminate. Qed.

Lemma ref_encode_pending m data : 2 <= m <= 8 -> Forall (fun b => b < 2 ^ m) data ->
  ref_pending (ds_new m) (ref_encode m data) data.
Proof.
  intros Hm Hd. split; [reflexivity|].
  cbn [ds_new ds_ended ds_pend ds_m ds_dict ds_prev ds_bits app].
  exists data. split; [reflexivity|].
  unfold ref_encode.
  destruct (unpack_pack (emit m None [] (clear_code m) ++
        match data with
        | [] => emit m None [] (eoi_code m)
        | b :: rest => enc_loop m [] None [b] rest
        end)) as [k Hk].
  rewrite Hk. rewrite <- app_assoc. apply runs_emit_clear; [lia|].
  assert (2 ^ m <= 2 ^ 8) by (apply N.pow_le_mono_r; lia). change (2 ^ 8) with 256 in *.
  destruct data as [|b rest].
  - apply runs_emit_eoi. lia.
  - inversion Hd; subst. change (b :: rest) with ([b] ++ rest).
    apply enc_loop_runs with (c := b); try lia; try assumption; [|reflexivity].
    split; [discriminate|]. split; [now constructor|reflexivity].
Qed.

(** The reference codec as an instance of the contract. *)
Definition lzw_ref_spec : lzw_spec lzw_ref.
Proof.
  refine (mk_lzw_spec lzw_ref _ ref_pending (fun s m => ds_m s = m) _ _ _ _ _ _ _ _ _ _ _ _).
  - intros s inp cap s' n w st H. cbn in H. unfold ref_decode in H.
    destruct (dec_loop _ _ _ _ _ _) as [s1 [n1 w1]] eqn:E. injection H as <- <- <- <-.
    apply dec_loop_safe in E. simpl in E. lia.
  - reflexivity.
  - intros s m H. cbn. exact H.
  - intros s m inp cap s' r Hs H. cbn in H. unfold ref_decode in H.
    destruct (dec_loop _ _ _ _ _ _) as [s1 [n1 w1]] eqn:E. injection H as <- <-.
    apply dec_loop_safe in E. now rewrite (proj2 E).
  - intros s m inp out Hs H. cbn in *. unfold ds_reset. now rewrite Hs.
  - intros m Hm. cbn. split; [reflexivity|]. exists []. split; [reflexivity|]. apply R_short. cbn. lia.
  - intros s a b cap out s' n w st Hp H. cbn in *.
    destruct (ref_decode_ok _ _ _ _ _ _ _ _ _ Hp H) as (H1 & H2 & out' & H3 & H4 & _).
    split; [exact H1|]. now exists out'.
  - intros s a b cap out s' n w st Hp H Ha Hcap He. cbn in *.
    destruct (ref_decode_ok _ _ _ _ _ _ _ _ _ Hp H) as (H1 & H2 & out' & H3 & H4 & Hst).
    destruct Hst as [[Hs1 Hs2]|[[Hs1 Hs2]|(Hs1 & Hs2 & Hs3 & _)]].
    + right. left. intros ->. simpl in Hs2. lia.
    + right. right. unfold ref_ended. now rewrite Hs1, Hs2.
    + left. subst n. destruct a; [congruence|]. simpl. lia.
  - intros s cap out s' n w st Hp H Ho Hcap. cbn in *.
    destruct (ref_decode_ok s [] [] cap out s' n w st Hp H) as (H1 & H2 & out' & H3 & H4 & Hst).
    intros ->. simpl in H3. subst out'.
    destruct Hst as [[Hs1 Hs2]|[[Hs1 Hs2]|(Hs1 & Hs2 & Hs3 & Hs4)]].
    + simpl in Hs2. lia.
    + destruct H4 as [_ H4]. rewrite Hs2 in H4. congruence.
    + destruct H4 as [_ H4]. rewrite Hs2 in H4. destruct H4 as (o & -> & Hr).
      rewrite Hs1 in Ho. simpl in Ho. rewrite skipn_nil in Hr. simpl in Hr. rewrite app_nil_r in Hr.
      inversion Hr; subst; try lia; congruence.
  - intros s inp out [_ Hp] He. cbn in He. unfold ref_ended in He.
    apply andb_true_iff in He as [He1 He2]. rewrite He1 in Hp.
    apply is_nil_true in He2. congruence.
  - exact ref_encode_pending.
  - intros m data _ _. apply pack_fuel_bytes.
  - intros m data Hm _ _. apply pack_nonempty. rewrite app_length. unfold emit. rewrite nbits_length.
    unfold width. lia.
Defined.

Lemma lzw_ref_eager : lzw_eager lzw_ref_spec.
Proof.
  intros s a cap out s' n w st Hp H Ho Hcap Hn. cbn in *.
  rewrite <- (app_nil_r a) in Hp.
  destruct (ref_decode_ok s a [] cap out s' n w st Hp H) as (H1 & H2 & out' & H3 & H4 & Hst).
  intros ->. simpl in H3. subst out'.
  destruct Hst as [[Hs1 Hs2]|[[Hs1 Hs2]|(Hs1 & Hs2 & Hs3 & Hs4)]].
  - simpl in Hs2. lia.
  - destruct H4 as [_ H4]. rewrite Hs2 in H4. congruence.
  - destruct H4 as [_ H4]. rewrite Hs2 in H4. destruct H4 as (o & -> & Hr).
    rewrite Hs1 in Ho. simpl in Ho. subst n. rewrite skipn_all in Hr. simpl in Hr.
    rewrite app_nil_r in Hr. inversion Hr; subst; try lia; congruence.
Qed.
