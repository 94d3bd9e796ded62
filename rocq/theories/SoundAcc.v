(** Reading all frames of any file of the grammar of [SpecAccept], whatever its image data are. *)
From Verif Require Import Base Common Lzw LzwErrs Encoder Stream Converter Reader StreamInv Steps StepsRev
  ReaderInv Interlace Ranges ConvInv DecoderSafe Canon CanonReader SpecCount FrameCount SpecGif DocTrace DocBlocks SpecPixels
  Pixels PixelRead DocRead DocAll ShortData Corrupt SpecAccept SpecStream Accept AcceptDec AcceptUnique Verdict SpecSound Sound AcceptFwd.
Open Scope N_scope.

Section SA.
Variable L : lzw_codec.
Variable S : lzw_spec L.
Notation safe := (lz_is_safe L S).
Variable umax : N.
Hypothesis Humax : 2 ^ 32 - 1 <= umax.
Variable o : options.
Variable g : gif.
Variable tz : list N.
Hypothesis scans : scannable o.
Hypothesis fine : file_acc true o g tz.
Notation sd := (sd L).
Notation rd := (rd L).
Notation dcd := (dcd L).
Notation coming := (coming L S true o g tz).
Notation past := (past L).
Notation after := (AcceptFwd.after tz).
Notation left_over := (left_over g tz).

(** The images [q] are still to come. *)
Definition running (d : dcd) (q : list (ctl * img)) : Prop :=
  file_dec L o g d /\ sd_header_end L (rd_dec L (dc_rd L d)) = true /\ past (rd_dec L (dc_rd L d)) = true /\
  exists k, coming (rd_dec L (dc_rd L d)) (rd_rest L (dc_rd L d)) q k.
(** .. behind the extension with label and data [x], in the blocks [bs]. *)
Definition planned (x : N * list N) (bs : list blk) (q : list (ctl * img)) : Prop :=
  Forall (blk_acc true o g) bs /\ unknown_acc o (fst x) (len (snd x)) bs /\
  (fst x = 0xF9 -> length (snd x) = 5%nat) /\ q = controlled_acc ctl_none (again (fst x) (snd x)) bs /\
  g_blocks g <> [].
(** At the data of image [i]. *)
Definition opened (d : dcd) (i : img) (q : list (ctl * img)) : Prop :=
  file_dec L o g d /\ img_fine true o g i /\ exists x bs, planned x bs q /\
  midst L S o g (rd_dec L (dc_rd L d)) (rd_rest L (dc_rd L d)) (payload (im_subs i)) (x, after bs) /\ decodes L S o (rd_dec L (dc_rd L d)) i.

Lemma file_rd d r : file_dec L o g d -> rd_good L r -> good_src (rd_src L r) -> rd_eof L r = false ->
  sd_opts L (rd_dec L r) = o -> sd_width L (rd_dec L r) = g_w g -> sd_height L (rd_dec L r) = g_h g -> file_dec L o g (set_rd L d r).
Proof.
  intros F H1 H2 H3 H4 H5 H6. pose proof (fl_quiet _ _ _ _ F) as [(_ & G2 & _) _].
  exact (file_set L o g d r (dc_conv L d) (dc_cur L d) (dc_ty L d) F H1 H2 H3 H4 H5 H6 (same_settings_refl _) G2).
Qed.

Lemma info_running fuel : forall d q, running d q ->
  let '(d', x) := next_frame_info_loop L fuel d in
  match x with
  | Ok b => match q with
      | [] => b = false /\ left_over (rd_rest L (dc_rd L d'))
      | (c, i) :: q' => b = true /\ dc_cur L d' = meta_seen (c, i) /\ dc_ty L d' = img_ty o i /\ (dcd_good L d' -> opened d' i q')
      end
  | Err _ | Panic => False
  | Hang => True
  end.
Proof.
  induction fuel as [|fuel IH]; intros d q (F & U7 & U4 & k & U5); [exact I|]. cbn [next_frame_info_loop].
  destruct (decode_next L (dc_rd L d) ONone) as [[r ob] x] eqn:E.
  pose proof F as [[G Q] Feof Fo Fw Fh Fg Fb Fr]. pose proof (proj1 G) as Hr.
  pose proof (decode_next_dnext L safe _ _ _ _ _ (proj1 Hr) E) as Hdn.
  pose proof (dnext_coming L S true o g tz scans fine _ _ _ _ _ Hdn q k eq_refl (proj1 Hr) Q Feof U5) as Hx.
  apply decode_next_all in E; [|exact safe|exact Hr]. destruct E as (Hr' & _ & _ & Hm).
  destruct x as [[e|]|e| | ]; try contradiction Hx.
  2:{ destruct Hx as (X1 & X2 & -> & _ & X3). split; [reflexivity|exact X3]. }
  destruct Hx as (q' & k' & X1 & X2 & X3 & (T1 & T2 & T3) & (K1 & _ & _ & K4)).
  assert (Hp : past (rd_dec L r) = true).
  { destruct e; try (rewrite T2; exact U4). exact T2. }
  assert (Hh : sd_header_end L (rd_dec L r) = true).
  { destruct e; try (rewrite K1; [exact U7|discriminate]). apply K4. reflexivity. }
  assert (Hz : sd_width L (rd_dec L r) = g_w g /\ sd_height L (rd_dec L r) = g_h g).
  { apply (coming_size L S true o g tz _ _ _ _ X3 Hp). destruct (proj1 Hr') as [_ W]. now apply W. }
  assert (F' : file_dec L o g (set_rd L d r)) by (apply file_rd; try assumption; [apply X3|apply Hz|apply Hz]).
  assert (Hgo : q' = q -> running (set_rd L d r) q).
  { intros ->. split; [exact F'|]. split; [exact Hh|]. split; [exact Hp|]. exists k'. exact X3. }
  assert (Hrec := fun Q : q' = q => IH (set_rd L d r) q (Hgo Q)). clear IH Hgo.
  destruct e as [|p|c|n| |b|x|x|t|n|n| ]; try (apply Hrec; first [exact T3|apply T3]).
  { apply Hrec. destruct b; first [exact T3|apply T3]. }
  clear Hrec. destruct T3 as (c & i & -> & Et & Ec & Hi & Hf). rewrite Ec. unfold frame_take. cbn zeta beta iota.
  match goal with |- context [set_cur L ?a ?b ?c] => set (d2 := set_cur L a b c) in * end.
  assert (Ho : dcd_good L d2 -> opened d2 i q').
  { intros G2. destruct Hf as (b1 & subs & bs & Es & Hd & (P1 & P2 & P3 & P4 & _) & St & De).
    assert (Hin : g_blocks g <> []).
    { destruct X3 as (_ & _ & X3). unfold comes in X3. rewrite St in X3. destruct (o_skip_frame_decoding o); apply X3. }
    split; [|split; [exact Hi|]].
    - constructor; try assumption; [split; [exact G2|exact X2]| | |]; cbn [d2 dc_rd set_cur set_rd rd_dec]; sdcbn; [apply X3|apply Hz|apply Hz].
    - exists (sd_ext_id L (rd_dec L r), sd_ext_data L (rd_dec L r)), bs. split; [repeat (split; [assumption|]); exact Hin|]. split; [|exact De].
      destruct G2 as ((W & _) & _). destruct X3 as (A & B & _). constructor; cbn [d2 dc_rd set_cur set_rd rd_dec]; sdcbn; try assumption; try apply Hz; try reflexivity.
      { apply W. }
      exists (length b1). split.
      + cbn [snd]. destruct Hd as (D1 & D2 & D3). exists b1, subs. unfold rd_rest in *. cbn [rd_buf rd_src]. split; [exact D3|]. split; [reflexivity|].
        split; [exact D2|]. rewrite Es. reflexivity.
      + rewrite St. destruct (o_skip_frame_decoding o) eqn:Eo; [reflexivity|]. split; [reflexivity|]. destruct (De Eo) as (z & Hz' & _). exists z. exact Hz'. }
  change (cv_gpal (dc_conv L d2)) with (cv_gpal (dc_conv L d)). rewrite Fg. destruct Hi as ((_ & _ & _ & Hi) & _). specialize (Hi eq_refl).
  unfold whole_meta, meta_frame at 1. cbn [f_palette]. unfold gif_palette.
  assert (Hfin : true = true /\ dc_cur L d2 = meta_seen (c, i) /\ dc_ty L d2 = img_ty o i /\ (dcd_good L d2 -> opened d2 i q')) by (split; [reflexivity|]; split; [reflexivity|]; split; [exact Et|exact Ho]).
  destruct (has_table (im_flags i)); [exact Hfin|]. destruct (has_table (g_flags g)); [exact Hfin|]. destruct Hi; discriminate.
Qed.
Lemma next_info d q : running d q ->
  match q with
  | [] => exists d', next_frame_info L d = (d', Ok false) /\ left_over (rd_rest L (dc_rd L d'))
  | (c, i) :: q' => exists d', next_frame_info L d = (d', Ok true) /\ dc_cur L d' = meta_seen (c, i) /\ dc_ty L d' = img_ty o i /\ opened d' i q'
  end.
Proof.
  intros H. pose proof (info_running (ev_fuel L (dc_rd L d)) d q H) as Hx. fold (next_frame_info L d) in Hx.
  destruct H as (F & _). pose proof (fl_quiet _ _ _ _ F) as [G Q].
  destruct (next_frame_info L d) as [d' x] eqn:E. pose proof (next_frame_info_returns L safe umax Humax _ _ _ G E) as (Rt & G' & _).
  destruct x as [b|e| | ]; try easy. destruct q as [|[c i] q'].
  - destruct Hx as [-> Hx]. eauto.
  - destruct Hx as (-> & H1 & H2 & H3). exists d'. auto.
Qed.

(** ** Behind an image *)
Lemma rests_running d x bs q : o_skip_frame_decoding o = false -> file_dec L o g d -> planned x bs q -> rests L S o g (x, after bs) d -> running d q.
Proof.
  intros N1 F (P1 & P2 & P3 & P4 & P5) (data & [M1 M2 M3 M4 M5 M6 M7 (k & Hi & Hk)] & Hc). rewrite N1 in Hk. destruct Hk as [Hk _].
  cbn [fst snd] in *. subst x. cbn [fst snd] in *.
  split; [exact F|]. split; [exact M6|]. split; [unfold AcceptFwd.past; now rewrite Hk|].
  exists (fun r => r). split; [exact M2|]. split; [exact M5|]. unfold comes. rewrite Hk. split; [split; [split; assumption|exact P5]|]. split; [exact Hc|].
  destruct Hi as (b & subs & H1 & H2 & H3 & _). exists b, subs, bs. split; [split; [exact H2|split; [exact H3|exact H1]]|].
  split; [exact P1|]. split; [exact P2|]. split; [exact P3|]. split; [exact P4|]. congruence.
Qed.
Lemma copied_running d x bs q : file_dec L o g d -> planned x bs q -> docst L S o g (rd_dec L (dc_rd L d)) ctl_none x ->
  sd_state L (rd_dec L (dc_rd L d)) = BlockEnd -> sd_header_end L (rd_dec L (dc_rd L d)) = true -> rd_rest L (dc_rd L d) = after bs -> running d q.
Proof.
  intros F (P1 & P2 & P3 & P4 & P5) [D1 D2 D3 D4 D5 D6 D7] St He Er. subst x. cbn [fst snd] in *.
  split; [exact F|]. split; [exact He|]. split; [unfold AcceptFwd.past; now rewrite St|].
  exists (fun r => r). split; [exact D2|]. split; [exact D6|]. unfold comes. rewrite St. split; [split; [split; assumption|exact P5]|].
  exists bs, ctl_none. split; [exact D5|]. split; [|exact Er].
  split; [exact P1|]. split; [exact P2|]. split; [exact P3|]. split; [exact P4|]. congruence.
Qed.

(** ** All images *)
Section Decoded.
Variable Z : lzw_errs S.
Hypothesis noskip : o_skip_frame_decoding o = false.
Hypothesis nocheck : o_check_for_end_code o = false.
Hypothesis Hlimit : limit_ok umax (o_limit o).
Lemma read_running n : forall d q obs, running d q -> (length obs < n)%nat -> Forall2 (data_for Z) q obs ->
  exists d' fs y, read_all L umax n d = (d', fs, y) /\ reading umax o g (Ok false) q obs fs y /\ (y = Ok false -> left_over (rd_rest L (dc_rd L d'))).
Proof.
  induction n as [|n IH]; intros d q obs Hr Hn Hd; [lia|]. cbn [read_all]. pose proof (next_info d q Hr) as Hx.
  destruct q as [|[c1 i] q].
  - inversion Hd; subst. destruct Hx as (d' & E & Hl). unfold read_next_frame. rewrite E.
    exists d', [], (Ok false). split; [reflexivity|]. split; [constructor|auto].
  - inversion Hd as [|? [out bad] ? obs' Hd1 Hd2]; subst. cbn [length] in Hn. destruct Hx as (d0 & E0 & Ec & Et & F & Hi & x & bs & Hpl & M & De).
    pose proof Hi as (((_ & _ & Hw & Hh & _) & _) & _).
    destruct (any_image L S Z umax Humax o g noskip nocheck Hlimit (x, after bs) d d0 c1 i (out, bad) E0 F Hw Hh M De Ec Et Hd1)
      as (d1 & y & E & [(-> & Hs & Hc & F1 & [Hb|(Hb & Hl & Hbr)])|(e & -> & Hf)]); rewrite E; cbn [fst snd] in *.
    + destruct (IH d1 q obs' (rests_running _ _ _ _ noskip F1 Hpl Hb) ltac:(lia) Hd2) as (d' & fs & y & E' & R & Rf). rewrite E', Hc.
      exists d', (seen o g (c1, i) out :: fs), y. split; [reflexivity|]. split; [now constructor|exact Rf].
    + destruct (broken_all L umax n d1 Hbr ltac:(lia)) as (d' & E'). rewrite E', Hc. subst bad.
      exists d', [seen o g (c1, i) out], (Err (DIo InvalidData)). split; [reflexivity|]. split; [now constructor|discriminate].
    + exists d1, [], (Err e). split; [reflexivity|]. split; [now constructor|discriminate].
Qed.
End Decoded.

(** Compressed frames. *)
Section Raw.
Hypothesis raw : o_skip_frame_decoding o = true.
Lemma room_copy s str data rest m : midst L S o g s str data rest ->
  (data <> [] -> fits (o_limit o) (1 + len data)) ->
  exists s', cn L s str (OVec [m]) (CEv L s' (snd rest) (OVec (m :: data)) DDataEnd) /\
    docst L S o g s' ctl_none (fst rest) /\ sd_state L s' = BlockEnd /\ sd_header_end L s' = true.
Proof.
  intros M Hf. destruct data as [|y data].
  - destruct rest as [x rest]. cbn [fst snd]. destruct M as [M1 M2 M3 M4 M5 M6 M7 (k & Hi & Hk)]. rewrite raw in Hk.
    destruct Hi as (b & subs & H1 & H2 & H3 & H4). symmetry in H4. apply app_eq_nil in H4 as [-> H4]. cbn in H2. subst k.
    assert (subs = []) as -> by (destruct H3 as [|b subs [Hb _] _]; [reflexivity|]; destruct b; [cbn in Hb; lia|discriminate H4]).
    cbn [map concat app snd] in H1. subst str.
    assert (W : sd_wf L (set_state L s FrameDecoded)).
    { destruct M1 as (W1 & W2 & W3 & W4). unfold gct_wf, cur_wf, mode_wf in *. rewrite Hk in *.
      split; [exact W1|]. split; [exact W2|]. split; [exact W3|exact I]. }
    set (s2 := set_state L (set_current L (set_state L s FrameDecoded) None 0) BlockEnd).
    destruct (run_zero L safe (set_state L s FrameDecoded) rest s2 1 DDataEnd W) as [_ W2].
    { apply (N_fd L (set_state L s FrameDecoded) [0] ONone []); reflexivity. }
    exists s2. split.
    + pose proof (N_cp_end L s [0] (OVec [m]) [] Hk eq_refl) as Hn. eapply cn_nst1; [exact M1|exact Hn| |lia]. cbn [silent skipn].
      apply (run_data_end L); [exact W|reflexivity].
    + split; [|split; [reflexivity|exact M6]]. constructor; try assumption. left. split; reflexivity.
  - apply (mid_copy L S o g _ _ _ _ [m] M raw). specialize (Hf ltac:(discriminate)). unfold len in Hf.
    replace (N.of_nat (length [m] + length (y :: data))) with (1 + N.of_nat (length (y :: data))) by (cbn [length]; lia). exact Hf.
Qed.
Lemma has_room_spec i : if has_room o i then payload (im_subs i) <> [] -> fits (o_limit o) (1 + len (payload (im_subs i)))
  else payload (im_subs i) <> [] /\ ~ fits (o_limit o) (1 + len (payload (im_subs i))).
Proof.
  unfold has_room, fits. destruct (payload (im_subs i)) as [|x p]; [congruence|]. destruct (o_limit o) as [l|]; [|intros _; exact I].
  destruct (N.leb_spec (1 + len (x :: p)) l) as [H|H]; [intros _; exact H|]. split; [discriminate|]. lia.
Qed.

Lemma raw_image d d1 c1 i q : next_frame_info L d = (d1, Ok true) -> opened d1 i q ->
  dc_cur L d1 = meta_seen (c1, i) -> dc_ty L d1 = img_ty o i ->
  if has_room o i then exists d', read_next_frame L umax d = (d', Ok true) /\ dc_cur L d' = raw_seen (c1, i) /\ running d' q
  else exists d', read_next_frame L umax d = (d', Err (DFormat MemoryLimitReached)).
Proof.
  intros E (F & Hi & x0 & bs & Hpl & M & _) Hcur Hty. pose proof (has_room_spec i) as Hroom.
  pose proof F as [[G Q] Feof Fo Fw Fh Fg Fb Fr]. pose proof G as (Gr & Gf & _).
  unfold read_next_frame. rewrite E, Hty. unfold img_ty. rewrite raw. unfold copy_lzw_into_buffer. cbn [app].
  destruct (copy_lzw_loop L (ev_fuel L (dc_rd L d1)) (dc_rd L d1) [im_mcs i]) as [[r v] x] eqn:Ec.
  pose proof (copy_lzw_loop_returns L safe umax Humax _ _ _ Gr (rmeas_fuel L umax Humax _) _ _ _ Ec) as (Rt & Gr' & Ko & _).
  pose proof (copy_loop_rel L safe _ _ _ _ _ _ Gr Feof Ec) as Hc.
  pose proof (copy_loop_src L safe _ _ _ _ _ _ Gr Q Ec) as Qr.
  unfold copy_rel in Hc. destruct (has_room o i).
  - destruct (room_copy _ _ _ _ (im_mcs i) M Hroom) as (s' & Hcn & D & St & He).
    destruct x as [[]|e| | ]; try easy.
    2:{ exfalso. destruct Hc as [(_ & s1 & str1 & ob1 & dd & Hd & Hc)|[Hc|[[_ Hc]|Hc]]].
        - pose proof (cn_det L _ _ _ _ Hc _ Hcn) as Eq. congruence.
        - pose proof (cn_det L _ _ _ _ Hc _ Hcn) as Eq. congruence.
        - pose proof (cn_det L _ _ _ _ Hc _ Hcn) as Eq. congruence.
        - eapply cut_good; eassumption. }
    destruct Hc as [Hc1 Hc2]. pose proof (cn_det L _ _ _ _ Hc2 _ Hcn) as Eq. injection Eq as Eq1 Eq2 Eq3.
    eexists. split; [reflexivity|]. split; [cbn [dc_cur set_cur]; rewrite Hcur, Eq3; reflexivity|].
    rewrite <- Eq1 in D, St, He.
    assert (F' : file_dec L o g (set_cur L (set_conv L (set_rd L d1 r) (dc_conv L d1)) (set_buffer (set_buffer (dc_cur L d1) []) v) (FLzw (im_mcs i)))).
    { apply file_set; try assumption; try apply D; try apply same_settings_refl. }
    eapply copied_running; [exact F'|exact Hpl|exact D|exact St|exact He|exact Eq2].
  - destruct Hroom as [Hne Hlim]. destruct M as [M1 M2 M3 M4 M5 M6 M7 (k & Hib & Hk)]. rewrite raw in Hk.
    assert (Hcn : cn L (rd_dec L (dc_rd L d1)) (rd_rest L (dc_rd L d1)) (OVec [im_mcs i]) (CErr L (DFormat MemoryLimitReached))).
    { eapply (copy_over L S umax Humax); [apply Nat.le_refl|exact M1|exact Hk|exact Hib|exact Hne|]. rewrite M2.
      unfold fits in Hlim. unfold check_size. destruct (o_limit o) as [lim|]; [|tauto].
      unfold len in *. cbn [length]. apply N.leb_gt. lia. }
    destruct x as [[]|e| | ]; try easy.
    + exfalso. destruct Hc as [_ Hc]. pose proof (cn_det L _ _ _ _ Hc _ Hcn) as Eq. discriminate.
    + assert (Ee : e = DFormat MemoryLimitReached).
      { destruct Hc as [(_ & s1 & str1 & ob1 & dd & Hd & Hc)|[Hc|[[_ Hc]|Hc]]].
        - pose proof (cn_det L _ _ _ _ Hc _ Hcn) as Eq. discriminate.
        - pose proof (cn_det L _ _ _ _ Hc _ Hcn) as Eq. congruence.
        - pose proof (cn_det L _ _ _ _ Hc _ Hcn) as Eq. discriminate.
        - exfalso. eapply cut_good; eassumption. }
      subst e. eexists. reflexivity.
Qed.
Lemma raw_running n : forall d q, running d q -> (length q < n)%nat ->
  exists d', read_all L umax n d = (d', fst (raw_told o q), snd (raw_told o q)) /\ (snd (raw_told o q) = Ok false -> left_over (rd_rest L (dc_rd L d'))).
Proof.
  induction n as [|n IH]; intros d q Hr Hn; [lia|]. cbn [read_all]. pose proof (next_info d q Hr) as Hx.
  destruct q as [|[c1 i] q].
  - destruct Hx as (d' & E & Hl). unfold read_next_frame. rewrite E. exists d'. auto.
  - cbn [length] in Hn. destruct Hx as (d0 & E0 & Ec & Et & Ho). pose proof (raw_image d d0 c1 i q E0 Ho Ec Et) as H.
    cbn [raw_told snd]. destruct (has_room o i).
    + destruct H as (d1 & E & Hc & Hr1). rewrite E. destruct (IH d1 q Hr1 ltac:(lia)) as (d' & E' & Hl). rewrite E', Hc. exists d'. split; [reflexivity|exact Hl].
    + destruct H as (d1 & E). rewrite E. exists d1. split; [reflexivity|discriminate].
Qed.
End Raw.
End SA.

Lemma left_over_tail g tz rest : left_over g tz rest -> rest = unread_tail g tz.
Proof. unfold left_over, unread_tail. intros [[H ->]|[-> (x & ->)]]; [now destruct (g_blocks g)|reflexivity]. Qed.

(** ** Files *)
Section Files.
Variable L : lzw_codec.
Variable S : lzw_spec L.
Variable umax : N.
Hypothesis Humax : 2 ^ 32 - 1 <= umax.
Notation safe := (lz_is_safe L S).

Lemma init_open fuel : forall d d', rd_good L (dc_rd L d) -> init_loop L fuel d = Ok d' -> rd_eof L (dc_rd L d') = false.
Proof.
  induction fuel as [|fuel IH]; intros d d' Hg H; [discriminate H|]. cbn [init_loop] in H.
  destruct (decode_next L (dc_rd L d) ONone) as [[r ob] x] eqn:E.
  destruct (decode_next_all L safe _ _ _ _ _ Hg E) as (Hr & (_ & _ & _ & _ & Hx) & _).
  destruct x as [[e|]|e| | ]; try discriminate H. destruct e; try (apply IH in H; [exact H|exact Hr]).
  injection H as <-. unfold fix_bg. destruct Hx as (_ & _ & Hx & _).
  destruct (cv_gpal _) as [p|]; [|exact Hx]. match goal with |- context [if ?b then _ else _] => destruct b end; exact Hx.
Qed.
Lemma starts_running o g tz src : scannable o -> file_acc true o g tz -> delivers src (ser_gif g tz) ->
  exists d, read_info L src o = Ok d /\ running L S o g tz d (acc_images g).
Proof.
  intros Hs Hf Hd. destruct (read_info_file L S umax Humax true o g tz src Hs Hf Hd) as (d & E & G & (U1 & U2 & U) & Hw & Hh & Hp & Hb & Hr).
  exists d. split; [exact E|]. assert (Eo : rd_eof L (dc_rd L d) = false).
  { apply (init_open _ _ _ (proj1 (with_no_init_good L src o (proj1 Hd))) E). }
  destruct U as [(U & _)|(_ & U3 & U4 & k & U5)]; [congruence|].
  assert (Hz : sd_width L (rd_dec L (dc_rd L d)) = g_w g /\ sd_height L (rd_dec L (dc_rd L d)) = g_h g).
  { apply (coming_size L S true o g tz _ _ _ _ U5 U4). destruct (proj1 (proj1 G)) as [_ W]. now apply W. }
  split; [|split; [exact U3|split; [exact U4|exists k; exact U5]]].
  constructor; try assumption; try apply Hz; [split; assumption|apply U5].
Qed.

(** Any accepted file, with anything in its image data. *)
Theorem acc_any (Z : lzw_errs S) o g tl src obs n : file_acc true o g tl -> delivers src (ser_gif g tl) ->
  o_skip_frame_decoding o = false -> o_check_for_end_code o = false -> limit_ok umax (o_limit o) ->
  Forall2 (data_for Z) (acc_images g) obs -> (length obs < n)%nat ->
  exists d d' fs y, read_info L src o = Ok d /\ read_all L umax n d = (d', fs, y) /\
    reading umax o g (Ok false) (acc_images g) obs fs y /\ (y = Ok false -> rd_rest L (dc_rd L d') = unread_tail g tl).
Proof.
  intros Hf Hd N1 N2 Hl Ho Hn. destruct (starts_running o g tl src (or_intror N2) Hf Hd) as (d & E & R).
  destruct (read_running L S umax Humax o g tl (or_intror N2) Hf Z N1 N2 Hl n d _ obs R Hn Ho) as (d' & fs & y & E' & R' & Hx).
  exists d, d', fs, y. split; [exact E|]. split; [exact E'|]. split; [exact R'|]. intros Hy. now apply left_over_tail, Hx.
Qed.
Theorem raw_any o g tl src n : file_acc true o g tl -> delivers src (ser_gif g tl) ->
  o_skip_frame_decoding o = true -> (length (acc_images g) < n)%nat ->
  exists d d', read_info L src o = Ok d /\ read_all L umax n d = (d', fst (raw_told o (acc_images g)), snd (raw_told o (acc_images g))) /\
    (snd (raw_told o (acc_images g)) = Ok false -> rd_rest L (dc_rd L d') = unread_tail g tl).
Proof.
  intros Hf Hd N1 Hn. destruct (starts_running o g tl src (or_introl N1) Hf Hd) as (d & E & R).
  destruct (raw_running L S umax Humax o g tl (or_introl N1) Hf N1 n d _ R Hn) as (d' & E' & Hx).
  exists d, d'. split; [exact E|]. split; [exact E'|]. intros Hy. now apply left_over_tail, Hx.
Qed.

(** Whatever is read to the end. *)
Theorem read_sound (Z : lzw_errs S) src o d n d' fs : src_ok src -> good_src src -> limit_ok umax (o_limit o) ->
  o_skip_frame_decoding o = false -> o_check_for_end_code o = false ->
  read_info L src o = Ok d -> read_all L umax n d = (d', fs, Ok false) ->
  exists g tl obs, concat (map ev_bytes src) = ser_gif g tl /\ file_acc true o g tl /\ rd_rest L (dc_rd L d') = unread_tail g tl /\
    Forall2 (data_for Z) (acc_images g) obs /\ Forall2 (fun ci ob => shows umax o (snd ci) (fst ob)) (acc_images g) obs /\
    fs = all_seen o g (acc_images g) (map fst obs).
Proof.
  intros H1 H2 Hl N1 N2 Ei Er.
  destruct (read_accepts L safe umax Humax src o d n d' fs H1 Hl Ei Er) as (g & tl & Eb & Ha).
  destruct (data_total L S Z (acc_images g)) as (obs & Ho). exists g, tl, obs.
  pose proof (read_all_more L umax n d d' fs (n + Datatypes.S (length obs)) Er ltac:(lia)) as Er'.
  destruct (acc_any Z o g tl src obs (n + Datatypes.S (length obs)) Ha (conj H1 (conj H2 Eb)) N1 N2 Hl Ho ltac:(lia)) as (d0 & d1 & fs1 & y & E0 & E1 & R & Rf).
  rewrite Ei in E0. injection E0 as <-. rewrite Er' in E1. injection E1 as <- <- <-.
  destruct (reading_end _ _ _ _ _ _ _ _ R eq_refl) as (_ & F & G).
  split; [exact Eb|]. split; [exact Ha|]. split; [now apply Rf|]. auto.
Qed.
Lemma reading_all last o g : forall l obs fs y, reading umax o g last l obs fs y ->
  Forall2 (fun ci ob => shows umax o (snd ci) (fst ob) /\ (snd ob = true -> (im_pixels (snd ci) < length (fst ob))%nat)) l obs ->
  y = last /\ fs = all_seen o g l (map fst obs).
Proof.
  induction 1 as [|ci l out bad obs fs y Hs H IH|ci l out bad obs e Hr|ci l out obs Hs Hl]; intros Hf; inversion Hf as [|? ? ? ? Hh Ht]; subst; cbn [fst snd] in *.
  - split; reflexivity.
  - destruct (IH Ht) as [-> ->]. split; reflexivity.
  - exfalso. destruct Hh as ((S1 & S2 & S3) & Hb). unfold refused in Hr. rewrite S1 in Hr.
    destruct (Nat.eqb_spec (im_pixels (snd ci)) 0) as [E|E]; [destruct Hr as [Hr _]; auto|].
    destruct bad; [specialize (Hb eq_refl)|]; lia.
  - exfalso. destruct Hh as (_ & Hb). specialize (Hb eq_refl). lia.
Qed.
(** All frames of a file are read if the data of each image have enough pixels, and one more where an invalid code follows. *)
Theorem read_complete (Z : lzw_errs S) o g tl src obs n : file_acc true o g tl -> delivers src (ser_gif g tl) ->
  o_skip_frame_decoding o = false -> o_check_for_end_code o = false -> limit_ok umax (o_limit o) ->
  Forall2 (data_for Z) (acc_images g) obs ->
  Forall2 (fun ci ob => shows umax o (snd ci) (fst ob) /\ (snd ob = true -> (im_pixels (snd ci) < length (fst ob))%nat)) (acc_images g) obs ->
  (length obs < n)%nat ->
  exists d d', read_info L src o = Ok d /\ read_all L umax n d = (d', all_seen o g (acc_images g) (map fst obs), Ok false) /\
    rd_rest L (dc_rd L d') = unread_tail g tl.
Proof.
  intros Hf Hd N1 N2 Hl Ho Hs Hn. destruct (acc_any Z o g tl src obs n Hf Hd N1 N2 Hl Ho Hn) as (d & d' & fs & y & E & E' & R & Hx).
  destruct (reading_all _ _ _ _ _ _ _ R Hs) as [-> ->]. exists d, d'. auto.
Qed.

Lemma raw_told_end o l : snd (raw_told o l) = Ok false <-> Forall (fun ci => has_room o (snd ci) = true) l.
Proof.
  induction l as [|ci l IH]; cbn [raw_told]; [split; [constructor|reflexivity]|].
  destruct (has_room o (snd ci)) eqn:E; cbn [snd]; [rewrite IH; split; [now constructor|now inversion 1]|].
  split; [discriminate|]. inversion 1; congruence.
Qed.
Lemma raw_told_all o l : snd (raw_told o l) = Ok false -> fst (raw_told o l) = map raw_seen l.
Proof.
  induction l as [|ci l IH]; cbn [raw_told]; [reflexivity|]. destruct (has_room o (snd ci)); cbn [fst snd map]; [|discriminate].
  intros H. now rewrite IH.
Qed.
(** The same for compressed frames. *)
Theorem raw_sound src o d n d' fs : src_ok src -> good_src src -> limit_ok umax (o_limit o) -> o_skip_frame_decoding o = true ->
  read_info L src o = Ok d -> read_all L umax n d = (d', fs, Ok false) ->
  exists g tl, concat (map ev_bytes src) = ser_gif g tl /\ file_acc true o g tl /\ rd_rest L (dc_rd L d') = unread_tail g tl /\
    Forall (fun ci => has_room o (snd ci) = true) (acc_images g) /\ fs = map raw_seen (acc_images g).
Proof.
  intros H1 H2 Hl N1 Ei Er.
  destruct (read_accepts L safe umax Humax src o d n d' fs H1 Hl Ei Er) as (g & tl & Eb & Ha). exists g, tl.
  set (m := (n + Datatypes.S (length (acc_images g)))%nat).
  pose proof (read_all_more L umax n d d' fs m Er ltac:(lia)) as Er'.
  destruct (raw_any o g tl src m Ha (conj H1 (conj H2 Eb)) N1 ltac:(lia)) as (d0 & d1 & E0 & E1 & Hx).
  rewrite Ei in E0. injection E0 as <-. rewrite Er' in E1. injection E1 as <- -> Ey. symmetry in Ey.
  split; [exact Eb|]. split; [exact Ha|]. split; [now apply Hx|]. split; [now apply raw_told_end|now apply raw_told_all].
Qed.
Theorem raw_exact src o : src_ok src -> good_src src -> limit_ok umax (o_limit o) -> o_skip_frame_decoding o = true ->
  ((exists d n d' fs, read_info L src o = Ok d /\ read_all L umax n d = (d', fs, Ok false)) <->
   exists g tl, concat (map ev_bytes src) = ser_gif g tl /\ file_acc true o g tl /\ Forall (fun ci => has_room o (snd ci) = true) (acc_images g)).
Proof.
  intros H1 H2 Hl N1. split.
  - intros (d & n & d' & fs & E & E'). destruct (raw_sound src o d n d' fs H1 H2 Hl N1 E E') as (g & tl & A & B & _ & C & _). eauto.
  - intros (g & tl & A & B & C).
    destruct (raw_any o g tl src (Datatypes.S (length (acc_images g))) B (conj H1 (conj H2 A)) N1 ltac:(lia)) as (d & d' & E & E' & _).
    rewrite (proj2 (raw_told_end _ _) C) in E'. eauto 6.
Qed.
End Files.
