(** The canonical reading of a well-formed file, block by block. *)
From Verif Require Import Base Common Lzw Encoder Stream Converter Reader StreamInv Steps StepsRev
  ReaderInv Interlace Ranges ConvInv DecoderSafe Canon CanonReader SpecGif.
Open Scope N_scope.

(** ** Packed fields *)
Lemma land_bit f k : (N.land f (2 ^ k) =? 0) = negb (N.testbit f k).
Proof.
  destruct (N.testbit f k) eqn:E; cbn [negb].
  - apply N.eqb_neq. intros H. assert (N.testbit (N.land f (2 ^ k)) k = false) by (rewrite H; apply N.bits_0).
    rewrite N.land_spec, E, N.pow2_bits_true in H0. discriminate.
  - apply N.eqb_eq. apply N.bits_inj. intros n. rewrite N.land_spec, N.bits_0.
    destruct (N.eq_dec n k) as [->|Hn]; [now rewrite E|].
    rewrite N.pow2_bits_false by congruence. apply andb_false_r.
Qed.
Lemma land_has_table f : negb (N.land f 0x80 =? 0) = has_table f.
Proof. change 0x80 with (2 ^ 7). rewrite land_bit. apply negb_involutive. Qed.
Lemma land_interlaced f : negb (N.land f 0x40 =? 0) = is_interlaced f.
Proof. change 0x40 with (2 ^ 6). rewrite land_bit. apply negb_involutive. Qed.
Lemma land7 f : N.land f 7 = f mod 8.
Proof. change 7 with (N.ones 3). rewrite N.land_ones. reflexivity. Qed.
Lemma table_bytes_colors f : table_bytes f = N.to_nat (3 * table_colors f).
Proof.
  unfold table_bytes, table_colors. rewrite N.shiftl_1_l, land7, N2Nat.inj_mul. reflexivity.
Qed.
Lemma table_colors_pos f : 0 < table_colors f.
Proof. unfold table_colors. apply N.neq_0_lt_0. apply N.pow_nonzero. discriminate. Qed.

Definition ctl_only (c : ctl) : frame :=
  mk_frame (c_delay c) (c_dispose c) (c_transparent c) (c_input c) 0 0 0 0 false None [].
Lemma land1 f : (N.land f 1 =? 0) = negb (N.odd f).
Proof. change 1 with (2 ^ 0). rewrite land_bit. now rewrite N.bit0_odd. Qed.
Lemma land2 f : (N.land f 2 =? 0) = negb (N.odd (f / 2)).
Proof.
  change 2 with (2 ^ 1) at 1. rewrite land_bit. rewrite <- N.bit0_odd. f_equal.
  change (f / 2) with (f / 2 ^ 1). rewrite N.div_pow2_bits. reflexivity.
Qed.
Lemma land28 f : N.shiftr (N.land f 28) 2 = (f / 4) mod 8.
Proof.
  rewrite N.shiftr_land. change (N.shiftr 28 2) with 7. rewrite land7. now rewrite N.shiftr_div_pow2.
Qed.
Lemma ctl_frame_spec c p : ctl_frame (ctl_only c) p = ctl_only (ctl_of p).
Proof.
  unfold ctl_frame, ctl_only, ctl_of, set_control, at_.
  cbn [f_delay f_dispose f_transparent f_needs_user_input f_top f_left f_width f_height f_interlaced
       f_palette f_buffer c_delay c_dispose c_transparent c_input].
  rewrite land1, land2, land28, !negb_involutive. f_equal.
  - unfold disposal_from_u8. destruct ((nth 0 p 0 / 4) mod 8) as [|[[q|q| ]|[q|q| ]| ]]; reflexivity.
  - destruct (N.odd (nth 0 p 0)); reflexivity.
Qed.

Section Trace.
Variable L : lzw_codec.
Hypothesis safe : lzw_safe L.
Notation sd := (sd L).
Notation cn := (cn L).
Notation CEv := (CEv L).

(** A stretch of the canonical reading with the events it reports. *)
Inductive ctr : sd -> list N -> list decoded -> sd -> list N -> Prop :=
| ctr_nil s str s' str' : (forall y, cn s' str' ONone y -> cn s str ONone y) -> ctr s str [] s' str'
| ctr_cons s str s1 str1 d evs s' str' :
    cn s str ONone (CEv s1 str1 ONone d) -> ctr s1 str1 evs s' str' -> ctr s str (d :: evs) s' str'.

Lemma ctr_refl s str : ctr s str [] s str.
Proof. constructor. auto. Qed.
Lemma ctr_slide s str evs s' str' s0 str0 : (forall y, cn s str ONone y -> cn s0 str0 ONone y) ->
  ctr s str evs s' str' -> ctr s0 str0 evs s' str'.
Proof.
  intros H Hc. destruct Hc as [s str s' str' Hs|s str s1 str1 d evs s' str' H1 H2].
  - constructor. auto.
  - econstructor; [apply H; exact H1|exact H2].
Qed.
Lemma ctr_trans s str e1 s1 str1 e2 s2 str2 :
  ctr s str e1 s1 str1 -> ctr s1 str1 e2 s2 str2 -> ctr s str (e1 ++ e2) s2 str2.
Proof.
  induction 1 as [s str s1 str1 Hs|s str s3 str3 d evs s1 str1 H1 H2 IH]; intros H.
  - eapply ctr_slide; eassumption.
  - cbn [app]. econstructor; eauto.
Qed.

Definition boring (d : decoded) : Prop := (forall t, d <> DFrameMetadata t) /\ d <> DBlockStart BkTrailer.
Lemma cinfo_ctr s str evs s' str' y : ctr s str evs s' str' -> Forall boring evs ->
  cinfo L s' str' y -> cinfo L s str y.
Proof.
  induction 1 as [s str s1 str1 Hs|s str s3 str3 d evs s1 str1 H1 H2 IH]; intros Hb Hy.
  - eapply cinfo_cn; eassumption.
  - inversion Hb as [|? ? [B1 B2] Hb']; subst. eapply ci_skip; eauto.
Qed.
Definition in_header (d : decoded) : Prop := d <> DHeaderEnd /\ d <> DBlockStart BkTrailer.
Lemma cini_ctr h s str evs s' str' y : ctr s str evs s' str' -> Forall in_header evs ->
  cini L (fold_left init_upd evs h) s' str' y -> cini L h s str y.
Proof.
  intros H. revert h. induction H as [s str s1 str1 Hs|s str s3 str3 d evs s1 str1 H1 H2 IH]; intros h Hb Hy.
  - eapply cini_cn; eassumption.
  - inversion Hb as [|? ? [B1 B2] Hb']; subst. eapply cini_step; eauto.
Qed.

(** A stretch, with the invariant at its end. *)
Definition run (s : sd) (str : list N) (evs : list decoded) (s' : sd) (str' : list N) : Prop :=
  ctr s str evs s' str' /\ sd_wf L s'.
Lemma run_refl s str : sd_wf L s -> run s str [] s str.
Proof. split; [apply ctr_refl|assumption]. Qed.
Lemma run_trans s str e1 s1 str1 e2 s2 str2 :
  run s str e1 s1 str1 -> (sd_wf L s1 -> run s1 str1 e2 s2 str2) -> run s str (e1 ++ e2) s2 str2.
Proof. intros [H1 H2] H. destruct (H H2) as [H3 H4]. split; [eapply ctr_trans; eassumption|exact H4]. Qed.

Lemma run_step s buf tl s' n d : sd_wf L s -> zero_ok L s buf -> buf <> [] ->
  nst L s buf ONone s' ONone (Ok (n, d)) ->
  run s (buf ++ tl) (if silent d then [] else [d]) s' (skipn n buf ++ tl).
Proof.
  intros Hw Hz Hb Hn.
  pose proof (absorb L safe s buf ONone s' ONone _ tl Hw Hz Hb eq_refl Hn) as Ha. cbn [absorbed] in Ha.
  pose proof (next_state_good L safe s buf ONone Hw Hz Hb) as Hg.
  rewrite (nst_next_state L _ _ _ _ _ _ Hw Hb Hn) in Hg. destruct Hg as (_ & _ & _ & Hw' & _).
  split; [|exact Hw']. destruct (silent d).
  - constructor. exact Ha.
  - econstructor; [apply Ha; reflexivity|apply ctr_refl].
Qed.
Lemma run_byte s b tl s' d : sd_wf L s -> late (sd_state L s) = false ->
  nst L s [b] ONone s' ONone (Ok (1%nat, d)) -> run s (b :: tl) (if silent d then [] else [d]) s' tl.
Proof.
  intros Hw Hl Hn. apply (run_step s [b] tl s' 1 d); auto; [|discriminate].
  intros E. congruence.
Qed.
Lemma run_peek s b tl s' d : sd_wf L s -> late (sd_state L s) = false ->
  nst L s [b] ONone s' ONone (Ok (0%nat, d)) -> run s (b :: tl) (if silent d then [] else [d]) s' (b :: tl).
Proof.
  intros Hw Hl Hn. apply (run_step s [b] tl s' 0 d); auto; [|discriminate].
  intros E. congruence.
Qed.
Lemma run_zero s tl s' n d : sd_wf L s -> nst L s [0] ONone s' ONone (Ok (n, d)) ->
  run s (0 :: tl) (if silent d then [] else [d]) s' (skipn n [0] ++ tl).
Proof.
  intros Hw Hn. apply (run_step s [0] tl s' n d); auto; [|discriminate].
  intros _. eauto.
Qed.

(** ** Extensions *)
Lemma fits_check lim n : fits lim n -> check_size lim n = true.
Proof. destruct lim; cbn; [apply N.leb_le|auto]. Qed.
Lemma fits_mono lim n m : m <= n -> fits lim n -> fits lim m.
Proof. destruct lim; cbn; [lia|auto]. Qed.

Lemma run_body s b tl : sd_wf L s -> sd_state L s = ExtensionDataBlock (length b) -> b <> [] ->
  fits (o_limit (sd_opts L s)) (len (sd_ext_data L s) + N.of_nat (length b)) ->
  run s (b ++ tl) [] (set_state L (set_ext L s (sd_ext_id L s) (sd_ext_data L s ++ b) (sd_ext_end L s))
                        (ExtensionDataBlock 0)) tl.
Proof.
  intros Hw Hst Hb Hf.
  assert (Hl : (0 < length b)%nat) by (destruct b; [congruence|cbn; lia]).
  replace tl with (skipn (length b) b ++ tl) at 2 by (rewrite skipn_all; reflexivity).
  apply (run_step s b tl _ (length b) DNothing); auto.
  - intros E. rewrite Hst in E. discriminate.
  - replace (ExtensionDataBlock 0) with (ExtensionDataBlock (length b - length b)) by (f_equal; lia).
    rewrite <- (firstn_all b) at 2.
    apply N_xd; [exact Hst|exact Hl|lia|]. apply fits_check. exact Hf.
Qed.

Definition sub_ok (b : list N) : Prop := (0 < length b < 256)%nat /\ bytes_ok b.

Lemma run_subs subs : forall s tl, sd_wf L s -> sd_state L s = ExtensionDataBlock 0 ->
  Forall sub_ok subs -> fits (o_limit (sd_opts L s)) (len (sd_ext_data L s) + N.of_nat (length (payload subs))) ->
  exists e, run s (concat (map ser_sub subs) ++ tl) (repeat (DSubBlockFinished (sd_ext_id L s)) (length subs))
    (set_state L (set_ext L s (sd_ext_id L s) (sd_ext_data L s ++ payload subs) e) (ExtensionDataBlock 0)) tl.
Proof.
  induction subs as [|b subs IH]; intros s tl Hw Hst Hok Hf.
  - exists (sd_ext_end L s). cbn [map concat app repeat length payload]. rewrite app_nil_r.
    replace (set_state L _ _) with s; [now apply run_refl|]. destruct s. cbn in *. subst. reflexivity.
  - inversion Hok as [|? ? [Hb1 Hb2] Hok']; subst. cbn [map concat].
    unfold payload in Hf. cbn [concat] in Hf. rewrite app_length in Hf. fold (payload subs) in Hf.
    assert (Hne : b <> []) by (intros ->; cbn in Hb1; lia).
    set (s1 := set_state L (set_ext L s (sd_ext_id L s) (sd_ext_data L s) false)
                 (ExtensionDataBlock (N.to_nat (N.of_nat (length b))))).
    assert (R1 : run s (ser_sub b ++ concat (map ser_sub subs) ++ tl) [DSubBlockFinished (sd_ext_id L s)]
                   s1 (b ++ concat (map ser_sub subs) ++ tl)).
    { apply (run_byte s _ _ s1 (DSubBlockFinished (sd_ext_id L s))); [exact Hw|rewrite Hst; reflexivity|].
      eapply N_xd_next; [exact Hst|reflexivity|lia]. }
    assert (Hst1 : sd_state L s1 = ExtensionDataBlock (length b)) by (unfold s1; sdcbn; f_equal; lia).
    pose proof (fun H => run_body s1 b (concat (map ser_sub subs) ++ tl) H Hst1 Hne) as R2.
    assert (Hx : sd_ext_data L s1 = sd_ext_data L s) by reflexivity. rewrite Hx in R2.
    assert (Ho : sd_opts L s1 = sd_opts L s) by reflexivity. rewrite Ho in R2.
    match type of R2 with _ -> _ -> run _ _ _ ?x _ => set (s2 := x) in * end.
    assert (Hx2 : sd_ext_data L s2 = sd_ext_data L s ++ b) by reflexivity.
    assert (Hst2 : sd_state L s2 = ExtensionDataBlock 0) by reflexivity.
    assert (Ho2 : sd_opts L s2 = sd_opts L s) by reflexivity.
    assert (Hw2 : sd_wf L s2).
    { eapply R2; [apply R1|]. eapply fits_mono; [|exact Hf]. lia. }
    destruct (IH s2 tl Hw2 Hst2 Hok') as (e & R3).
    { rewrite Ho2, Hx2. unfold len in *. rewrite app_length. eapply fits_mono; [|exact Hf]. lia. }
    exists e. rewrite <- app_assoc. cbn [length repeat].
    change (DSubBlockFinished (sd_ext_id L s) :: repeat (DSubBlockFinished (sd_ext_id L s)) (length subs))
      with ([DSubBlockFinished (sd_ext_id L s)] ++ [] ++ repeat (DSubBlockFinished (sd_ext_id L s)) (length subs)).
    eapply run_trans; [exact R1|]. intros _.
    eapply run_trans; [apply R2; [apply R1|]; eapply fits_mono; [|exact Hf]; lia|]. intros _.
    unfold payload. cbn [concat]. rewrite app_assoc. exact R3.
Qed.

(** Events of an extension block up to its end; [ext_blob] is what [last_ext] then shows: the size byte
    of the first sub-block and the payload. *)
Definition ext_blob (subs : list (list N)) : list N :=
  match subs with [] => [] | b :: _ => N.of_nat (length b) :: payload subs end.

Lemma run_ext_data s l subs tl : sd_wf L s -> sd_state L s = BlockStart 0x21 ->
  known_label l -> subs_ok subs -> fits (o_limit (sd_opts L s)) (1 + N.of_nat (length (payload subs))) ->
  exists e, run s (l :: ser_subs subs ++ tl)
    (DBlockStart BkExtension :: repeat (DSubBlockFinished l) (length subs - 1))
    (set_state L (set_ext L s l (ext_blob subs) e) (ExtensionDataBlock 0)) (0 :: tl).
Proof.
  intros Hw Hst Hl (Hne & Hsub) Hfit.
  destruct subs as [|b subs]; [congruence|]. clear Hne.
  inversion Hsub as [|? ? [Hb1 Hb2] Hsub']; subst.
  assert (Hne : b <> []) by (intros ->; cbn in Hb1; lia).
  assert (Hx : exists x, extension_from_u8 l = Some x).
  { destruct Hl as [->|[->|[->| ->]]]; cbn; eauto. }
  destruct Hx as (x & Hx).
  set (s1 := set_state L (set_ext L s l [] (sd_ext_end L s)) ExtensionBlockStart).
  unfold ser_subs. cbn [map concat]. unfold ser_sub at 1. cbn [app]. rewrite <- !app_assoc. cbn [app].
  match goal with |- context [run s (l :: ?q) _ _ _] => set (rest := q) in * end.
  assert (R1 : run s (l :: rest) [DBlockStart BkExtension] s1 rest).
  { apply (run_byte s l rest s1 (DBlockStart BkExtension)); [exact Hw|rewrite Hst; reflexivity|].
    eapply N_bs_ext; [exact Hst|reflexivity|exact Hx]. }
  unfold rest in R1 at 2.
  match type of R1 with run _ _ _ _ (_ :: ?q) => set (rest1 := q) in * end.
  set (s2 := set_state L (set_ext L s1 (sd_ext_id L s1) (sd_ext_data L s1 ++ [N.of_nat (length b)]) (sd_ext_end L s1))
               (ExtensionDataBlock (N.to_nat (N.of_nat (length b))))).
  assert (R2 : run s1 (N.of_nat (length b) :: rest1) [] s2 rest1).
  { apply (run_byte s1 _ rest1 s2 DNothing); [apply R1|reflexivity|]. eapply N_xb; reflexivity. }
  assert (Hst2 : sd_state L s2 = ExtensionDataBlock (length b)) by (unfold s2; sdcbn; f_equal; lia).
  pose proof (run_body s2 b (concat (map ser_sub subs) ++ 0 :: tl) (proj2 R2) Hst2 Hne) as R3.
  assert (Hp : length (payload (b :: subs)) = (length b + length (payload subs))%nat).
  { unfold payload. cbn [concat]. apply app_length. }
  rewrite Hp in Hfit.
  assert (Hl2 : len (sd_ext_data L s2) = 1) by reflexivity.
  specialize (R3 ltac:(eapply fits_mono; [|exact Hfit]; rewrite Hl2; lia)).
  match type of R3 with run _ _ _ ?x _ => set (s3 := x) in * end.
  destruct (run_subs subs s3 (0 :: tl) (proj2 R3) eq_refl Hsub') as (e & R4).
  { eapply fits_mono; [|exact Hfit].
    change (sd_ext_data L s3) with ([N.of_nat (length b)] ++ b). unfold len. rewrite app_length. cbn [length]. lia. }
  exists e. cbn [length]. rewrite Nat.sub_succ, Nat.sub_0_r.
  change (DBlockStart BkExtension :: repeat (DSubBlockFinished l) (length subs))
    with ([DBlockStart BkExtension] ++ [] ++ [] ++ repeat (DSubBlockFinished l) (length subs)).
  eapply run_trans; [exact R1|]. intros _. eapply run_trans; [exact R2|]. intros _.
  eapply run_trans; [exact R3|]. intros _. exact R4.
Qed.

Definition ext_repeat (l : N) (subs : list (list N)) : list decoded :=
  match (if l =? 0xFF then loop_of (payload subs) else None) with Some n => [DRepetitions n] | None => [] end.
Definition ext_events (l : N) (subs : list (list N)) : list decoded :=
  (DBlockStart BkExtension :: repeat (DSubBlockFinished l) (length subs - 1))
  ++ [DBlockFinished l] ++ ext_repeat l subs.

Definition after_ext (s : sd) (l : N) (subs : list (list N)) : sd :=
  let s1 := set_ext L s l (ext_blob subs) true in
  set_state L (if l =? 0xF9 then set_current L s1 (Some (ctl_frame (cur_or_default L s) (payload subs))) (cap_or_0 L s)
               else s1) BlockEnd.

Lemma netscape_spec b subs : is_netscape (ext_blob (b :: subs)) =
  (list_eqb (firstn 12 (payload (b :: subs))) [78; 69; 84; 83; 67; 65; 80; 69; 50; 46; 48; 1]
   && (14 <=? length (payload (b :: subs)))%nat).
Proof.
  unfold is_netscape. cbn [ext_blob length skipn app NETSCAPE2_0].
  rewrite andb_comm. reflexivity.
Qed.

Lemma run_ext s l subs tl : sd_wf L s -> sd_state L s = BlockStart 0x21 ->
  ext_ok (sd_opts L s) l subs ->
  run s (l :: ser_subs subs ++ tl) (ext_events l subs) (after_ext s l subs) tl.
Proof.
  intros Hw Hst Hok.
  destruct (run_ext_data s l subs tl Hw Hst (proj1 Hok) (proj1 (proj2 Hok)) (proj2 (proj2 (proj2 Hok)))) as (e & R1).
  destruct Hok as (Hl & (Hne & Hsub) & Hctl & Hfit).
  eapply run_trans; [exact R1|]. intros Hw1. clear R1.
  set (s1 := set_state L (set_ext L s l (ext_blob subs) e) (ExtensionDataBlock 0)) in *.
  destruct subs as [|b subs]; [congruence|]. clear Hne. set (sb := b :: subs) in *.
  assert (Hcase : (l = 0x01 \/ l = 0xFE) \/ l = 0xF9 \/ l = 0xFF) by (unfold known_label in Hl; tauto).
  destruct Hcase as [Hq|[->| ->]].
  - assert (El : (l =? 0xF9) = false /\ (l =? 0xFF) = false) by (destruct Hq as [->| ->]; split; reflexivity).
    destruct El as [El1 El2]. unfold ext_repeat, after_ext. rewrite El1, El2. cbn [app].
    apply (run_zero s1 tl _ 1 (DBlockFinished l)); [exact Hw1|].
    apply (N_xd_end L s1 [0] ONone []); try reflexivity;
      change (sd_ext_id L s1) with l; destruct Hq as [->| ->]; discriminate.
  - unfold ext_repeat, after_ext. cbn [N.eqb Pos.eqb app].
    apply (run_zero s1 tl _ 1 (DBlockFinished 0xF9)); [exact Hw1|].
    apply (N_xd_ctl L s1 [0] ONone []); try reflexivity.
    change (S (length (payload sb)) = 5%nat). rewrite Hctl; reflexivity.
  - unfold after_ext. cbn [N.eqb Pos.eqb].
    set (s2 := set_state L (set_ext L s1 (sd_ext_id L s1) (sd_ext_data L s1) true) ApplicationExtension).
    assert (R2 : run s1 (0 :: tl) [DBlockFinished 0xFF] s2 (0 :: tl)).
    { apply (run_zero s1 tl s2 0 (DBlockFinished 0xFF)); [exact Hw1|].
      apply (N_xd_app L s1 [0] ONone []); reflexivity. }
    eapply run_trans; [exact R2|]. intros Hw2.
    set (d := if is_netscape (sd_ext_data L s2) then
           let r := rd16 (at_ (sd_ext_data L s2) 13) (at_ (sd_ext_data L s2) 14) in
           DRepetitions (if r =? 0 then RInfinite else RFinite r) else DNothing).
    assert (Ed : ext_repeat 0xFF sb = if silent d then [] else [d]).
    { unfold ext_repeat, loop_of, d. cbn [N.eqb Pos.eqb]. change (sd_ext_data L s2) with (ext_blob sb).
      unfold sb. rewrite netscape_spec. fold sb. destruct (_ && _); [|reflexivity]. cbn [silent].
      unfold rd16, at_. reflexivity. }
    rewrite Ed. apply (run_zero s2 tl _ 1 d); [exact Hw2|].
    apply (N_app L s2 [0] ONone [] d); reflexivity.
Qed.

(** ** Unknown blocks: their data go to the extension read last. *)
Definition unk_repeat (x : N * list N) : list decoded :=
  match (if fst x =? 0xFF then loop_of (skipn 1 (snd x)) else None) with Some n => [DRepetitions n] | None => [] end.
Definition unk_next (x : N * list N) (subs : list (list N)) : N * list N := (fst x, snd x ++ payload subs).
Definition unk_events (x : N * list N) (subs : list (list N)) : list decoded :=
  repeat (DSubBlockFinished (fst x)) (length subs - 1) ++ [DBlockFinished (fst x)] ++ unk_repeat (unk_next x subs).
Definition after_unk (s : sd) (x : N * list N) : sd := set_state L (set_ext L s (fst x) (snd x) true) BlockEnd.

Lemma netscape_data d : is_netscape d =
  (list_eqb (firstn 12 (skipn 1 d)) [78; 69; 84; 83; 67; 65; 80; 69; 50; 46; 48; 1] && (14 <=? length (skipn 1 d))%nat).
Proof.
  unfold is_netscape. rewrite andb_comm. f_equal. rewrite skipn_length.
  destruct (Nat.leb_spec 15 (length d)); destruct (Nat.leb_spec 14 (length d - 1)); lia || reflexivity.
Qed.
Lemma label_app l : extension_from_u8 l = Some XApplication -> l = 0xFF.
Proof. unfold extension_from_u8. repeat match goal with |- context [?a =? ?b] => destruct (N.eqb_spec a b) end; try discriminate; auto. Qed.
Lemma label_ctl l : extension_from_u8 l = Some XControl -> l = 0xF9.
Proof. unfold extension_from_u8. repeat match goal with |- context [?a =? ?b] => destruct (N.eqb_spec a b) end; try discriminate; auto. Qed.

(** The end of the block. *)
Lemma run_unk_end s x tl : sd_wf L s -> sd_state L s = ExtensionDataBlock 0 -> (sd_ext_id L s, sd_ext_data L s) = x ->
  fst x <> 0xF9 -> run s (0 :: tl) (DBlockFinished (fst x) :: unk_repeat x) (after_unk s x) tl.
Proof.
  intros Hw Hst <- Hx. cbn [fst snd] in *. unfold after_unk, unk_repeat. cbn [fst snd].
  destruct (N.eq_dec (sd_ext_id L s) 0xFF) as [E|E].
  - rewrite (proj2 (N.eqb_eq _ _) E).
    set (s2 := set_state L (set_ext L s (sd_ext_id L s) (sd_ext_data L s) true) ApplicationExtension).
    assert (R2 : run s (0 :: tl) [DBlockFinished (sd_ext_id L s)] s2 (0 :: tl)).
    { apply (run_zero s tl s2 0 (DBlockFinished (sd_ext_id L s))); [exact Hw|].
      apply (N_xd_app L s [0] ONone []); [exact Hst|reflexivity|]. rewrite E. reflexivity. }
    match goal with |- run _ _ (?a :: ?b) _ _ => change (a :: b) with ([a] ++ b) end.
    eapply run_trans; [exact R2|]. intros Hw2.
    set (d := if is_netscape (sd_ext_data L s2) then
           let r := rd16 (at_ (sd_ext_data L s2) 13) (at_ (sd_ext_data L s2) 14) in
           DRepetitions (if r =? 0 then RInfinite else RFinite r) else DNothing).
    assert (Ed : match loop_of (skipn 1 (sd_ext_data L s)) with Some n => [DRepetitions n] | None => [] end =
                 if silent d then [] else [d]).
    { unfold loop_of, d. change (sd_ext_data L s2) with (sd_ext_data L s). rewrite netscape_data.
      destruct (_ && _); [|reflexivity]. cbn [silent]. unfold rd16, at_.
      destruct (sd_ext_data L s) as [|y q]; reflexivity. }
    rewrite Ed. apply (run_zero s2 tl _ 1 d); [exact Hw2|]. apply (N_app L s2 [0] ONone [] d); reflexivity.
  - rewrite (proj2 (N.eqb_neq _ _) E).
    apply (run_zero s tl _ 1 (DBlockFinished (sd_ext_id L s))); [exact Hw|].
    apply (N_xd_end L s [0] ONone []); [exact Hst|reflexivity| |].
    + intros Q. now apply label_app in Q.
    + intros Q. now apply label_ctl in Q.
Qed.

(** Its data. *)
Lemma run_unk_data s x t subs tl : sd_wf L s -> sd_state L s = BlockStart t -> sd_header_end L s = true ->
  t <> 0x2C -> t <> 0x21 -> t <> 0x3B -> o_allow_unknown_blocks (sd_opts L s) = true -> subs_ok subs ->
  (sd_ext_id L s, sd_ext_data L s) = x ->
  fits (o_limit (sd_opts L s)) (len (snd x) + N.of_nat (length (payload subs))) ->
  exists e, run s (ser_subs subs ++ tl) (repeat (DSubBlockFinished (fst x)) (length subs - 1))
    (set_state L (set_ext L s (fst x) (snd x ++ payload subs) e) (ExtensionDataBlock 0)) (0 :: tl).
Proof.
  intros Hw Hst Hh Ht1 Ht2 Ht3 Ha (Hne & Hsub) <- Hfit. cbn [fst snd] in *.
  destruct subs as [|b subs]; [congruence|]. clear Hne.
  inversion Hsub as [|? ? [Hb1 Hb2] Hsub']; subst.
  assert (Hne : b <> []) by (intros ->; cbn in Hb1; lia).
  unfold ser_subs. cbn [map concat]. unfold ser_sub at 1. cbn [app]. rewrite <- !app_assoc. cbn [app].
  match goal with |- context [run s (_ :: ?q) _ _ _] => set (rest1 := q) in * end.
  set (s2 := set_state L s (ExtensionDataBlock (N.to_nat (N.of_nat (length b))))).
  assert (R2 : run s (N.of_nat (length b) :: rest1) [] s2 rest1).
  { apply (run_byte s _ rest1 s2 DNothing); [exact Hw|rewrite Hst; reflexivity|]. eapply N_bs_unknown; eauto. }
  assert (Hst2 : sd_state L s2 = ExtensionDataBlock (length b)) by (unfold s2; sdcbn; f_equal; lia).
  pose proof (run_body s2 b (concat (map ser_sub subs) ++ 0 :: tl) (proj2 R2) Hst2 Hne) as R3.
  assert (Hp : length (payload (b :: subs)) = (length b + length (payload subs))%nat).
  { unfold payload. cbn [concat]. apply app_length. }
  rewrite Hp in Hfit.
  change (sd_ext_data L s2) with (sd_ext_data L s) in R3. change (sd_opts L s2) with (sd_opts L s) in R3.
  specialize (R3 ltac:(eapply fits_mono; [|exact Hfit]; lia)).
  match type of R3 with run _ _ _ ?x _ => set (s3 := x) in * end.
  destruct (run_subs subs s3 (0 :: tl) (proj2 R3) eq_refl Hsub') as (e & R4).
  { eapply fits_mono; [|exact Hfit].
    change (sd_ext_data L s3) with (sd_ext_data L s ++ b). unfold len. rewrite app_length. lia. }
  exists e. cbn [length]. rewrite Nat.sub_succ, Nat.sub_0_r.
  change (repeat (DSubBlockFinished (sd_ext_id L s)) (length subs))
    with ([] ++ [] ++ repeat (DSubBlockFinished (sd_ext_id L s)) (length subs)).
  eapply run_trans; [exact R2|]. intros _. eapply run_trans; [exact R3|]. intros _.
  unfold payload. cbn [concat]. rewrite app_assoc. exact R4.
Qed.

Lemma run_unk s x t subs tl : sd_wf L s -> sd_state L s = BlockStart t -> sd_header_end L s = true ->
  t <> 0x2C -> t <> 0x21 -> t <> 0x3B -> o_allow_unknown_blocks (sd_opts L s) = true -> subs_ok subs ->
  (sd_ext_id L s, sd_ext_data L s) = x -> fst x <> 0xF9 ->
  fits (o_limit (sd_opts L s)) (len (snd x) + N.of_nat (length (payload subs))) ->
  run s (ser_subs subs ++ tl) (unk_events x subs) (after_unk s (unk_next x subs)) tl.
Proof.
  intros Hw Hst Hh Ht1 Ht2 Ht3 Ha Hs Hx Hx9 Hfit.
  destruct (run_unk_data s x t subs tl Hw Hst Hh Ht1 Ht2 Ht3 Ha Hs Hx Hfit) as (e & R1).
  eapply run_trans; [exact R1|]. intros Hw1.
  exact (run_unk_end _ (unk_next x subs) tl Hw1 eq_refl eq_refl Hx9).
Qed.

(** ** The header *)
Lemma word_length n : length (word n) = 2%nat. Proof. reflexivity. Qed.
Lemma word_rd n : u16_ok n -> rd16 (n mod 256) (n / 256) = n.
Proof. unfold u16_ok, rd16. lia. Qed.

Definition head_sd (o : options) (g : gif) (b : N) : sd :=
  mk_sd L (BlockStart b) [] (lr_new L (o_check_for_end_code o)) o (if g_89a g then V89a else V87a)
    (g_w g) (g_h g) [] 0 0 [] true None 0 false.

Definition head_events (g : gif) : list decoded := [DBackgroundColor (g_bg g); DGlobalPalette (g_gct g)].

Lemma run_head o g b tl : u16_ok (g_w g) -> u16_ok (g_h g) -> table_ok (g_flags g) (g_gct g) ->
  run (sd_new L o) (ser_head g ++ b :: tl) (head_events g) (head_sd o g b) tl.
Proof.
  intros Hw Hh (Ht1 & Ht2).
  set (s0 := sd_new L o). pose proof (sd_new_wf L o) as W0. fold s0 in W0.
  unfold ser_head. rewrite <- !app_assoc.
  match goal with |- context [run s0 (signature _ ++ ?q) _ _ _] => set (r1 := q) in * end.
  set (s1 := set_state L (set_version L (set_ibuf L s0 []) (if g_89a g then V89a else V87a)) ScreenDescriptor).
  assert (R1 : run s0 (signature (g_89a g) ++ r1) [] s1 r1).
  { assert (E : hdr L s0 (signature (g_89a g)) = (match (if g_89a g then V89a else V87a) with V87a => GIF87a | V89a => GIF89a end)).
    { unfold hdr. destruct (g_89a g); reflexivity. }
    pose proof (run_step s0 (signature (g_89a g)) r1 s1 6 DNothing W0) as R.
    replace (skipn 6 (signature (g_89a g)) ++ r1) with r1 in R by (destruct (g_89a g); reflexivity).
    apply R; [intros E2; discriminate E2|destruct (g_89a g); discriminate|].
    apply (N_magic L s0 _ ONone (if g_89a g then V89a else V87a)); [reflexivity| |exact E].
    unfold hn. destruct (g_89a g); cbn; lia. }
  change (head_events g) with ([] ++ head_events g). eapply run_trans; [exact R1|]. intros W1. clear R1.
  unfold r1. rewrite !app_assoc.
  set (desc := ((word (g_w g) ++ word (g_h g)) ++ [g_flags g; g_bg g; g_aspect g])).
  rewrite <- app_assoc.
  match goal with |- context [run s1 (desc ++ ?q) _ _ _] => set (r2 := q) in * end.
  assert (Eh : hdr L s1 desc = desc) by reflexivity.
  set (s2 := after_screen L s1 desc).
  assert (R2 : run s1 (desc ++ r2) [DBackgroundColor (g_bg g)] s2 r2).
  { pose proof (run_step s1 desc r2 s2 7 (DBackgroundColor (g_bg g)) W1) as R.
    apply R; [intros E2; discriminate E2|discriminate|].
    pose proof (N_screen L s1 desc ONone eq_refl) as Q. rewrite Eh in Q. apply Q. unfold hn. cbn. lia. }
  change (head_events g) with ([DBackgroundColor (g_bg g)] ++ [] ++ [DGlobalPalette (g_gct g)]).
  eapply run_trans; [exact R2|]. intros W2. clear R2 W1.
  set (s3 := set_state L (set_gct L s2 (g_gct g) (sd_gct_cap L s2)) (GlobalPalette 0)).
  assert (F4 : at_ desc 4 = g_flags g) by reflexivity.
  assert (Esw : rd16 (at_ desc 0) (at_ desc 1) = g_w g) by (apply word_rd; exact Hw).
  assert (Esh : rd16 (at_ desc 2) (at_ desc 3) = g_h g) by (apply word_rd; exact Hh).
  assert (R3 : run s2 (g_gct g ++ b :: tl) [] s3 (b :: tl)).
  { unfold s3, s2 in *. unfold after_screen in *. rewrite F4, land_has_table in *.
    destruct (has_table (g_flags g)) eqn:Eht.
    - assert (El : length (g_gct g) = table_bytes (g_flags g)) by (rewrite table_bytes_colors; lia).
      pose proof (table_colors_pos (g_flags g)) as Hp.
      assert (Hl0 : (0 < length (g_gct g))%nat) by lia.
      match goal with |- run ?x _ _ _ _ => set (s2' := x) in * end.
      pose proof (run_step s2' (g_gct g) (b :: tl)) as R.
      specialize (R (set_state L (set_gct L s2' (sd_gct L s2' ++ firstn (length (g_gct g)) (g_gct g)) (sd_gct_cap L s2'))
         (GlobalPalette (table_bytes (g_flags g) - length (g_gct g)))) (length (g_gct g)) DNothing W2).
      rewrite skipn_all in R. cbn [app silent] in R.
      rewrite firstn_all in R. replace (table_bytes (g_flags g) - length (g_gct g))%nat with O in R by lia.
      apply R; [intros E2; discriminate E2|destruct (g_gct g); [cbn in Hl0; lia|discriminate]|].
      pose proof (N_gp L s2' (g_gct g) ONone (table_bytes (g_flags g)) (length (g_gct g)) eq_refl) as Q.
      rewrite firstn_all in Q. replace (table_bytes (g_flags g) - length (g_gct g))%nat with O in Q by lia.
      apply Q; lia.
    - assert (En : g_gct g = []) by (destruct (g_gct g); [reflexivity|cbn in Ht2; lia]).
      rewrite En. cbn [app]. apply run_refl. exact W2. }
  eapply run_trans; [exact R3|]. intros W3. clear R3 W2.
  assert (E3 : set_state L (set_gct L s3 [] 0) (BlockStart b) = head_sd o g b).
  { unfold s3, s2, after_screen, head_sd. rewrite Esw, Esh. destruct (negb _); reflexivity. }
  rewrite <- E3. apply (run_byte s3 b tl _ (DGlobalPalette (g_gct g))); [exact W3|reflexivity|].
  apply (N_gp_end L s3 [b] ONone b []); reflexivity.
Qed.

End Trace.
