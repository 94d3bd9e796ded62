(** What the check for end codes assumes of [weezl], and that the reference codec meets it. *)
From Verif Require Import Base Lzw LzwRef LzwRefSpec.
Open Scope N_scope.

(** [lz_ends s inp]: the decoder in state [s], given exactly the remaining compressed bytes [inp], finds an end code. *)
Record lzw_ends {L : lzw_codec} (S : lzw_spec L) := mk_lzw_ends {
  lz_ends : lz_st L -> list N -> Prop;
  le_reset : forall s m inp, lz_size S s m -> lz_ends (lz_reset L s) inp -> lz_ends (lz_new L m) inp;
  (** Bytes behind the end code do not matter. *)
  le_more : forall s a b, lz_ends s a -> lz_ends s (a ++ b);
  (** The state after a call is that after the bytes it has consumed. *)
  le_step : forall s a b cap s' n w st, lz_decode L s a cap = (s', (n, w, st)) -> lz_ends s' b -> lz_ends s (firstn n a ++ b);
  (** [has_ended] means that the end code has been found. *)
  le_ended : forall s inp, lz_ended L s = true -> lz_ends s inp;
  (** A call that neither takes nor gives anything reports [NoProgress] or an invalid code, unless it is at the end. *)
  le_tells : forall s a cap s' st, lz_decode L s a cap = (s', (0%nat, [], st)) -> lz_ended L s' = false -> st = LzNoProgress \/ st = LzInvalid
}.
Arguments lz_ends {L S} _ _ _.

(** ** The reference codec: the codes are read one after the other until one of them is the end code. *)
Inductive halts (m : N) : list (list N) -> option (list N) -> list bool -> Prop :=
| H_end dict prev bits :
    (width m prev dict <= length bits)%nat ->
    lookup m prev dict (bits_val (firstn (width m prev dict) bits)) = AEnd ->
    halts m dict prev bits
| H_clear dict prev bits :
    (width m prev dict <= length bits)%nat ->
    lookup m prev dict (bits_val (firstn (width m prev dict) bits)) = AClear ->
    halts m [] None (skipn (width m prev dict) bits) ->
    halts m dict prev bits
| H_word dict prev bits w :
    (width m prev dict <= length bits)%nat ->
    lookup m prev dict (bits_val (firstn (width m prev dict) bits)) = AWord w ->
    halts m (add_entry m prev dict w) (Some w) (skipn (width m prev dict) bits) ->
    halts m dict prev bits.
Lemma halts_more m dict prev a b : halts m dict prev a -> halts m dict prev (a ++ b).
Proof.
  assert (F : forall wd (x : list bool), (wd <= length x)%nat -> firstn wd (x ++ b) = firstn wd x /\ skipn wd (x ++ b) = skipn wd x ++ b).
  { intros wd x H. rewrite firstn_app, skipn_app. replace (wd - length x)%nat with 0%nat by lia. cbn [firstn skipn]. now rewrite app_nil_r. }
  induction 1 as [dict prev bits H E|dict prev bits H E _ IH|dict prev bits w H E _ IH]; destruct (F _ _ H) as [F1 F2].
  - apply H_end; [rewrite app_length; lia|now rewrite F1].
  - apply H_clear; [rewrite app_length; lia|now rewrite F1|now rewrite F2].
  - eapply H_word; [rewrite app_length; lia|rewrite F1; exact E|rewrite F2; exact IH].
Qed.

Definition ref_ends (s : dst) (inp : list N) : Prop :=
  ds_ended s = true \/ (ds_bad s = false /\ halts (ds_m s) (ds_dict s) (ds_prev s) (ds_bits s ++ unpack inp)).
Lemma dec_loop_ends b fuel : forall s inp cap n w s' n' w', dec_loop fuel s inp cap n w = (s', (n', w')) ->
  exists k, n' = (n + k)%nat /\ (ref_ends s' b -> ref_ends s (firstn k inp ++ b)).
Proof.
  induction fuel as [|fuel IH]; intros s inp cap n w s' n' w' H; cbn [dec_loop] in H.
  { injection H as <- <- <-. exists 0%nat. split; [lia|auto]. }
  destruct (ds_pend s) as [|p ps] eqn:Ep.
  - destruct (ds_ended s || ds_bad s) eqn:Eb.
    { injection H as <- <- <-. exists 0%nat. split; [lia|auto]. }
    apply orb_false_iff in Eb as [Ee Eb].
    destruct (width (ds_m s) (ds_prev s) (ds_dict s) <=? length (ds_bits s))%nat eqn:Ew.
    + apply Nat.leb_le in Ew. apply IH in H. destruct H as (k & -> & H). exists k. split; [reflexivity|]. intros Hs. specialize (H Hs).
      right. split; [exact Eb|]. set (wd := width (ds_m s) (ds_prev s) (ds_dict s)) in *.
      assert (Hf1 : firstn wd (ds_bits s ++ unpack (firstn k inp ++ b)) = firstn wd (ds_bits s)).
      { rewrite firstn_app. replace (wd - length (ds_bits s))%nat with 0%nat by lia. cbn [firstn]. now rewrite app_nil_r. }
      assert (Hf2 : skipn wd (ds_bits s ++ unpack (firstn k inp ++ b)) = skipn wd (ds_bits s) ++ unpack (firstn k inp ++ b)).
      { rewrite skipn_app. replace (wd - length (ds_bits s))%nat with 0%nat by lia. reflexivity. }
      assert (Hl : (wd <= length (ds_bits s ++ unpack (firstn k inp ++ b)))%nat) by (rewrite app_length; lia).
      unfold do_code in H. destruct (lookup (ds_m s) (ds_prev s) (ds_dict s) (bits_val (firstn wd (ds_bits s)))) as [| |wv|] eqn:El;
        cbn zeta in H; rewrite ?El in H; unfold ref_ends in H; cbn [ds_ended ds_bad ds_m ds_dict ds_prev ds_bits] in H.
      * destruct H as [H|[_ H]]; [discriminate H|]. apply H_clear; fold wd; [exact Hl|now rewrite Hf1|now rewrite Hf2].
      * apply H_end; fold wd; [exact Hl|now rewrite Hf1].
      * destruct H as [H|[_ H]]; [discriminate H|]. eapply H_word; fold wd; [exact Hl|rewrite Hf1; exact El|rewrite Hf2; exact H].
      * destruct H as [H|[H _]]; discriminate H.
    + destruct inp as [|x inp].
      * injection H as <- <- <-. exists 0%nat. split; [lia|auto].
      * apply IH in H. destruct H as (k & -> & H). exists (Datatypes.S k). split; [lia|]. intros Hs. specialize (H Hs).
        unfold ref_ends in *. cbn [ds_ended ds_bad ds_m ds_dict ds_prev ds_bits add_bits firstn app] in *.
        rewrite <- app_assoc in H. exact H.
  - destruct cap as [|cap].
    + injection H as <- <- <-. exists 0%nat. split; [lia|auto].
    + apply IH in H. destruct H as (k & -> & H). exists k. split; [reflexivity|exact H].
Qed.

Definition lzw_ref_ends : lzw_ends lzw_ref_spec.
Proof.
  refine (mk_lzw_ends lzw_ref lzw_ref_spec ref_ends _ _ _ _ _).
  - intros s m inp Hs H. cbn in *. unfold ds_reset in H. now rewrite Hs in H.
  - intros s a b [H|[H1 H2]]; [now left|]. right. split; [exact H1|]. cbn in *. unfold unpack in *. rewrite map_app, concat_app, app_assoc.
    now apply halts_more.
  - intros s a b cap s' n w st H Hs. cbn in *. unfold ref_decode in H.
    destruct (dec_loop (dec_fuel s a) s a cap 0 []) as [s1 [n1 w1]] eqn:E. injection H as <- <- <- <-.
    apply (dec_loop_ends b) in E. destruct E as (k & -> & E). now apply E.
  - intros s inp H. cbn in *. unfold ref_ended in H. apply andb_prop in H as [H _]. now left.
  - intros s a cap s' st H He. cbn in *. unfold ref_decode in H.
    destruct (dec_loop (dec_fuel s a) s a cap 0 []) as [s1 [n1 w1]] eqn:E. injection H as <- -> -> <-.
    unfold ref_ended in He. rewrite He. cbn [is_nil Nat.eqb andb]. destruct (ds_bad s1); auto.
Defined.

(** The encoder of the library writes an end code. *)
Definition lzw_marks {L : lzw_codec} {S : lzw_spec L} (Y : lzw_ends S) : Prop := forall m data,
  2 <= m <= 8 -> Forall (fun b => b < 2 ^ m) data -> lz_ends Y (lz_new L m) (lz_encode L m data).

Lemma halts_emit_word m prev dd c w tl : c < 2 ^ N.of_nat (width m prev dd) -> lookup m prev dd c = AWord w ->
  halts m (add_entry m prev dd w) (Some w) tl -> halts m dd prev (emit m prev dd c ++ tl).
Proof.
  intros Hc Hl Hr. eapply H_word with (w := w); [apply emit_long| |now rewrite skipn_emit].
  rewrite firstn_emit. unfold emit. rewrite bits_val_nbits by exact Hc. exact Hl.
Qed.
Lemma halts_emit_clear m prev dd tl : m <= 11 -> halts m [] None tl -> halts m dd prev (emit m prev dd (clear_code m) ++ tl).
Proof.
  intros Hm Hr. apply H_clear; [apply emit_long| |now rewrite skipn_emit].
  rewrite firstn_emit. unfold emit. rewrite bits_val_nbits by (apply clear_fits; lia). apply lookup_clear.
Qed.
Lemma halts_emit_eoi m prev dd tl : 1 <= m <= 11 -> halts m dd prev (emit m prev dd (eoi_code m) ++ tl).
Proof.
  intros Hm. apply H_end; [apply emit_long|]. rewrite firstn_emit. unfold emit. rewrite bits_val_nbits by (apply eoi_fits; lia). apply lookup_eoi.
Qed.
Lemma enc_loop_halts m : 1 <= m <= 11 -> 2 ^ m + 2 <= 4094 ->
  forall rest dd prev cur tl c, enc_inv m dd prev cur -> Forall (fun b => b < 2 ^ m) rest -> code_of m prev dd cur cur = Some c ->
  halts m dd prev (enc_loop m dd prev cur rest ++ tl).
Proof.
  intros Hm Hm2. induction rest as [|b rest IH]; intros dd prev cur tl c Hi Hr Hc; cbn [enc_loop].
  - rewrite Hc. cbn [code_or0]. destruct (code_of_lookup _ _ _ _ _ (proj2 Hm) Hi Hc) as [H1 H2].
    rewrite <- app_assoc. eapply halts_emit_word; [exact H1|exact H2|]. now apply halts_emit_eoi.
  - inversion Hr as [|? ? Hb Hr']; subst. destruct (code_of m prev dd cur (cur ++ [b])) as [c'|] eqn:E.
    + destruct Hi as (Hi1 & Hi2 & Hi3). eapply IH with (c := c'); [|exact Hr'|rewrite code_of_grow; [exact E|exact Hi1]].
      split; [destruct cur; discriminate|]. split; [|exact Hi3]. apply Forall_app. split; [exact Hi2|now constructor].
    + cbn zeta. rewrite Hc. cbn [code_or0]. destruct (code_of_lookup _ _ _ _ _ (proj2 Hm) Hi Hc) as [H1 H2].
      destruct (4095 <=? 2 ^ m + 2 + N.of_nat (length (add_entry m prev dd cur))) eqn:Efull;
        rewrite <- !app_assoc; (eapply halts_emit_word; [exact H1|exact H2|]).
      * apply halts_emit_clear; [lia|]. apply IH with (c := b); [|exact Hr'|reflexivity].
        split; [discriminate|]. split; [now constructor|reflexivity].
      * apply N.leb_gt in Efull. apply IH with (c := b); [|exact Hr'|reflexivity].
        split; [discriminate|]. split; [now constructor|]. split; [apply Hi|lia].
Qed.
Lemma lzw_ref_marks : lzw_marks lzw_ref_ends.
Proof.
  intros m data Hm Hd. right. split; [reflexivity|]. cbn [lzw_ref lz_new lz_encode ds_new ds_m ds_dict ds_prev ds_bits app]. unfold ref_encode.
  destruct (unpack_pack (emit m None [] (clear_code m) ++
        match data with [] => emit m None [] (eoi_code m) | b :: rest => enc_loop m [] None [b] rest end)) as [k ->].
  rewrite <- app_assoc. apply halts_emit_clear; [lia|].
  assert (2 ^ m <= 2 ^ 8) by (apply N.pow_le_mono_r; lia). change (2 ^ 8) with 256 in *.
  destruct data as [|b rest]; [apply halts_emit_eoi; lia|]. inversion Hd; subst.
  apply enc_loop_halts with (c := b); try lia; try assumption; [|reflexivity].
  split; [discriminate|]. split; [now constructor|reflexivity].
Qed.
