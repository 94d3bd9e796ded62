(** With memory that may run out at any time every operation still returns, and everything can be used further. *)
From Verif Require Import Base Common Lzw Encoder Stream Converter Reader OomModel SpecOom OomSim
  StreamInv Steps ReaderInv Interlace Ranges ConvInv DecoderSafe StreamProps.
Open Scope N_scope.

Section Safe.
Variable L : lzw_codec.
Hypothesis safe : lzw_safe L.
Notation sd := (sd L).
Notation rd := (rd L).
Notation dcd := (dcd L).

(** Sizes of the frame under construction. *)
Definition dims (f : frame) : Prop := u16_ok (f_width f) /\ u16_ok (f_height f).
Definition geo (s : sd) : Prop :=
  bytes_ok (sd_ibuf L s) /\ match sd_current L s with Some f => dims f | None => True end.
Lemma dims_default s : geo s -> dims (cur_or_default L s).
Proof. intros [_ H]. unfold cur_or_default. destruct (sd_current L s); [exact H|]. split; unfold u16_ok; cbn; lia. Qed.
Lemma dims_img f v : bytes_ok v -> dims (img_frame f v).
Proof. intros H. split; cbn; apply rd16_u16; now apply at_ok. Qed.
Lemma geo_step s buf ob s' ob' r : geo s -> bytes_ok buf -> nst L s buf ob s' ob' r -> geo s'.
Proof.
  intros Hg Hb Hn. pose proof (dims_default s Hg) as Hd. pose proof Hg as [K1 K2].
  pose proof (hdr_ok L s buf K1 Hb) as Hh.
  inversion Hn; subst; unfold geo; sdcbn; try exact Hg; try (split; [first [exact K1|constructor]|exact K2]).
  - split; [apply bytes_ok_app; split; assumption|exact K2].
  - unfold after_screen. cbn zeta. destruct (negb _); sdcbn; (split; [constructor|exact K2]).
  - unfold after_image. cbn zeta. pose proof (dims_img f _ Hh) as Hf. destruct (negb _); sdcbn; (split; [constructor|exact Hf]).
  - split; [constructor|]. now apply dims_img.
  - split; [exact K1|exact Hd].
  - split; [exact K1|exact Hd].
  - split; [exact K1|]. match goal with E : sd_current L s = Some _ |- _ => rewrite E in K2 end. exact K2.
  - split; [exact K1|exact I].
Qed.

(** A decoder after a failed reservation. *)
Lemma reserving_fit s buf ob s' : sd_wf L s -> buf <> [] -> reserving L s buf ob = Some s' ->
  sd_wf L s' /\ late (sd_state L s') = false /\ sd_state L s' <> Trailer /\ sd_opts L s' = sd_opts L s /\
  (geo s -> bytes_ok buf -> geo s').
Proof.
  intros Hw Hb H. pose proof Hw as (Hi & Hg & Hc & Hm). unfold reserving in H. unfold gct_wf, cur_wf, mode_wf in Hg, Hc, Hm.
  destruct (sd_state L s) as [ | | | lft | t | | | lft | | lft | m | lft | lft | | ] eqn:Est; try discriminate H.
  - cbn [need] in Hi. pose proof (ensure_min_ok L s buf 7 Hi ltac:(lia) Hb) as He.
    destruct (ensure_min L s buf 7) as [ |s1 n|s1 n v]; try discriminate H. destruct He as (-> & -> & Hn & Hv & Hl).
    destruct (negb _); [|discriminate H]. injection H as <-. unfold sd_wf, gct_wf, cur_wf, mode_wf, geo. sdcbn. rewrite Est. cbn [need late].
    split; [split; [cbn; lia|auto]|]. split; [reflexivity|]. split; [discriminate|]. split; [reflexivity|].
    intros [_ K] _. split; [constructor|exact K].
  - cbn [need] in Hi. pose proof (ensure_min_ok L s buf 9 Hi ltac:(lia) Hb) as He.
    destruct (ensure_min L s buf 9) as [ |s1 n|s1 n v]; try discriminate H. destruct He as (-> & -> & Hn & Hv & Hl).
    revert H. sdcbn. destruct (sd_current L s) as [f|] eqn:Ef; [|discriminate]. cbn zeta. destruct (_ && _); [discriminate|].
    destruct (negb (N.land (at_ v 8) 128 =? 0)); [|discriminate]. intros H.
    assert (G : exists p cap, s' = set_current L (set_ibuf L s []) (Some (set_palette (img_frame f v) (Some p))) cap).
    { destruct (f_palette _) as [p|]; injection H as <-; eexists _, _; reflexivity. }
    clear H. destruct G as (p & cap & ->). unfold sd_wf, gct_wf, cur_wf, mode_wf, geo. sdcbn. rewrite Est. cbn [need late].
    split; [split; [cbn; lia|]; split; [exact I|]; split; [discriminate|exact I]|].
    split; [reflexivity|]. split; [discriminate|]. split; [reflexivity|].
    intros [K _] Hby. split; [constructor|]. apply (dims_img f v). rewrite Hv. apply bytes_ok_app. split; [exact K|now apply bytes_ok_firstn].
  - destruct (_ && _); [|discriminate H]. injection H as <-. rewrite Est. cbn [late].
    split; [exact Hw|]. split; [reflexivity|]. split; [discriminate|]. auto.
  - destruct ob as [o1|v|]; try discriminate H. destruct (_ && _); [|discriminate H]. injection H as <-. rewrite Est. cbn [late].
    split; [exact Hw|]. split; [reflexivity|]. split; [discriminate|]. auto.
Qed.

Lemma nsteps_fit s buf ob s' buf' ob' : nsteps L s buf ob s' buf' ob' -> pre L s buf ->
  pre L s' buf' /\ sd_opts L s' = sd_opts L s /\ same_shape ob ob' /\
  (geo s -> bytes_ok buf -> geo s' /\ bytes_ok buf').
Proof.
  induction 1 as [|s buf ob s1 ob1 n s' buf' ob' Hb He Hn IH]; intros Hp.
  { split; [exact Hp|]. split; [reflexivity|]. split; [apply same_shape_refl|auto]. }
  destruct Hp as (Hw & Hz & Ht). pose proof (next_state_good L safe s buf ob Hw Hz Hb) as Hg. rewrite He in Hg.
  destruct Hg as (Go & Gs & _ & Gw & Gz & Gt & _). apply next_state_nst in He; auto.
  destruct IH as (I1 & I2 & I3 & I4).
  { split; [exact Gw|]. split; [exact Gz|]. intros E. destruct (Gt E) as [A|A]; [auto|discriminate A]. }
  split; [exact I1|]. split; [congruence|]. split; [eapply same_shape_trans; eassumption|].
  intros Hge Hby. apply I4; [eapply geo_step; eassumption|now apply bytes_ok_skipn].
Qed.

(** One call of [update]. *)
Definition fit_result (s' : sd) (buf : list N) (r : dres (nat * decoded)) : Prop :=
  match r with
  | Ok (n, d) => sd_wf L s' /\ zero_ok L s' (skipn n buf) /\ (sd_state L s' = Trailer -> d = DBlockStart BkTrailer)
  | Err _ => sd_wf L s' /\ late (sd_state L s') = false /\ sd_state L s' <> Trailer
  | Panic | Hang => False
  end.
Lemma update_o_fit mem s buf ob mem' s' ob' r : pre L s buf -> update_o L mem s buf ob = (mem', (s', ob', r)) ->
  sd_opts L s' = sd_opts L s /\ same_shape ob ob' /\ (geo s -> bytes_ok buf -> geo s') /\ fit_result s' buf r.
Proof.
  intros Hp H. apply update_sim in H. destruct H as [[_ Hu]|[_ H]].
  - symmetry in Hu. destruct (update_flat L safe _ _ _ _ _ _ Hp Hu) as (s1 & buf1 & ob1 & Hns & Hp1 & _ & Hc).
    destruct (nsteps_fit _ _ _ _ _ _ Hns Hp) as (_ & N2 & N3 & N4). destruct (nsteps_suffix L safe _ _ _ _ _ _ Hns Hp) as (k & Ek & Hk).
    destruct Hp1 as (Hw1 & Hz1 & Ht1).
    destruct Hc as [(E1 & -> & -> & ->)|(Hb1 & r0 & Hns0 & Hr)].
    + split; [exact N2|]. split; [exact N3|]. split; [intros A B; apply N4; assumption|].
      cbn [fit_result]. split; [exact Hw1|]. rewrite skipn_all. split; [now subst buf1|congruence].
    + pose proof (next_state_good L safe s1 buf1 ob1 Hw1 Hz1 Hb1) as Hg. rewrite Hns0 in Hg. destruct Hg as (Go & Gs & G).
      pose proof Hns0 as Hst. apply next_state_nst in Hst; auto.
      split; [congruence|]. split; [eapply same_shape_trans; eassumption|].
      split; [intros A B; destruct (N4 A B) as [A1 B1]; eapply geo_step; eassumption|].
      destruct Hr as [(n0 & d0 & -> & Hd0 & ->)|(e & -> & ->)]; [|exact G]. destruct G as (Gn & Gw & Gz & Gt & _). cbn [fit_result].
      split; [exact Gw|]. split; [|intros E; destruct (Gt E); [contradiction|assumption]].
      subst buf1. rewrite skipn_skipn_suffix by assumption. exact Gz.
  - destruct H as (s1 & buf1 & ob1 & s2 & Hns & Hb1 & Hr & [= -> -> ->]).
    destruct (nsteps_fit _ _ _ _ _ _ Hns Hp) as ((Hw1 & _) & N2 & N3 & N4).
    destruct (reserving_fit _ _ _ _ Hw1 Hb1 Hr) as (R1 & R2 & R3 & R4 & R5).
    split; [congruence|]. split; [exact N3|]. split; [intros A B; destruct (N4 A B); auto|]. cbn. auto.
Qed.

(** ** [StreamingDecoder] *)
Lemma driven_o_fit o s rest evs : driven_o L o s rest evs ->
  sd_wf L s /\ zero_ok L s rest /\ (sd_state L s = Trailer -> In (DBlockStart BkTrailer) evs).
Proof.
  induction 1 as [rest|mem mem' s buf tl ob s' ob' n d evs Hd IH Hu|mem mem' s buf tl ob s' ob' e rest evs Hd IH Hu].
  - split; [apply sd_new_wf|]. split; [discriminate|discriminate].
  - destruct IH as (Hw & Hz & Ht). destruct buf as [|b buf].
    { cbn in Hu. injection Hu as _ <- _ <- <-. split; [exact Hw|]. split; [exact Hz|]. intros E. apply in_or_app. auto. }
    assert (Hb : b :: buf <> []) by discriminate. remember (b :: buf) as bf eqn:Eb. clear Eb.
    assert (Hnt : sd_state L s <> Trailer).
    { intros E. apply update_sim in Hu. destruct Hu as [[_ Hu]|[_ Hu]].
      - pose proof (trailer_hangs L s bf ob (update_fuel bf) (length bf) E Hb Hw : snd (update L s bf ob) = Hang) as Hh.
        rewrite <- Hu in Hh. discriminate Hh.
      - apply upd_oom_out in Hu. discriminate Hu. }
    destruct (update_o_fit _ _ _ _ _ _ _ _ (conj Hw (conj (zero_piece L _ _ _ Hz Hb) Hnt)) Hu) as (_ & _ & _ & Q1 & Q2 & Q3).
    split; [exact Q1|]. split; [now apply zero_longer|]. intros E. apply in_or_app. right. left. exact (Q3 E).
  - destruct IH as (Hw & Hz & Ht). destruct buf as [|b buf]; [discriminate Hu|].
    assert (Hb : b :: buf <> []) by discriminate. remember (b :: buf) as bf eqn:Eb. clear Eb.
    assert (Hnt : sd_state L s <> Trailer \/ e = DIo OutOfMemory).
    { apply update_sim in Hu. destruct Hu as [[_ Hu]|[_ Hu]].
      - left. intros E. pose proof (trailer_hangs L s bf ob (update_fuel bf) (length bf) E Hb Hw : snd (update L s bf ob) = Hang) as Hh.
        rewrite <- Hu in Hh. discriminate Hh.
      - right. apply upd_oom_out in Hu. now injection Hu. }
    assert (Hnt2 : sd_state L s <> Trailer).
    { destruct Hnt as [A| ->]; [exact A|]. intros E. revert Hu. unfold update_o.
      generalize (update_fuel bf) as fuel, (length bf) as tot. clear - E Hb Hw safe. intros fuel. revert mem s E Hw. induction fuel as [|fuel IH]; intros mem s E Hw tot Hu.
      - destruct bf; [congruence|discriminate Hu].
      - destruct bf as [|b bf]; [congruence|]. cbn [update_loop_o] in Hu. unfold next_state_o, reserving in Hu. rewrite E in Hu.
        unfold next_state in Hu. rewrite E in Hu. cbn [goto skipn] in Hu. unfold goto in Hu. cbn [skipn] in Hu.
        eapply IH in Hu; [contradiction|reflexivity|]. destruct Hw as (A & B & C & D). unfold sd_wf, gct_wf, cur_wf, mode_wf. sdcbn. rewrite E in A. auto. }
    destruct (update_o_fit _ _ _ _ _ _ _ _ (conj Hw (conj (zero_piece L _ _ _ Hz Hb) Hnt2)) Hu) as (_ & _ & _ & Q1 & Q2 & Q3).
    split; [exact Q1|]. split; [intros E; congruence|]. contradiction.
Qed.

Theorem streaming_oom_returns o s buf tl evs ob mem : driven_o L o s (buf ++ tl) evs -> ~ In (DBlockStart BkTrailer) evs ->
  returns (snd (snd (update_o L mem s buf ob))).
Proof.
  intros H Hn. destruct (driven_o_fit _ _ _ _ H) as (Hw & Hz & Ht). destruct buf as [|b buf]; [exact I|].
  assert (Hb : b :: buf <> []) by discriminate. remember (b :: buf) as bf eqn:Eb. clear Eb.
  destruct (update_o L mem s bf ob) as [mem' [[s' ob'] r]] eqn:E.
  destruct (update_o_fit _ _ _ _ _ _ _ _ (conj Hw (conj (zero_piece L _ _ _ Hz Hb) (fun A => Hn (Ht A)))) E) as (_ & _ & _ & Q).
  destruct r as [[n d]| | | ]; exact I || exact Q.
Qed.

(** ** [Decoder] *)
Notation rdo := (list bool * rd)%type.
Definition rd_fit (r : rd) : Prop := rd_wf L r /\ rd_bytes L r /\ geo (rd_dec L r).
Lemma rd_fit_filled r r1 buf : rd_fit r -> rd_eof L r = false -> fill_buf L r = (r1, Ok buf) -> buf <> [] ->
  pre L (rd_dec L r1) buf /\ bytes_ok buf /\ src_ok (rd_src L r1) /\ rd_dec L r1 = rd_dec L r.
Proof.
  intros ((Hw & Hz) & (Hb & Hs) & Hg) He H Hne. specialize (Hz He). destruct Hz as [Hz Ht]. unfold fill_buf in H.
  destruct (rd_buf L r) as [|b bs] eqn:Eb.
  - destruct (rd_src L r) as [|[c|k] src] eqn:Es; [injection H as <- <-; congruence| |discriminate H].
    injection H as <- <-. cbn [rd_dec rd_src]. inversion Hs as [|? ? H1 H2]; subst.
    split; [|split; [exact H1|split; [exact H2|reflexivity]]]. split; [exact Hw|]. split; [|exact Ht].
    intros E. destruct (Hz E) as [t E1]. discriminate E1.
  - injection H as <- <-. split; [|split; [exact Hb|split; [exact Hs|reflexivity]]]. split; [exact Hw|]. split; [exact Hz|exact Ht].
Qed.
Lemma decode_next_loop_fit fuel : forall mem r ob mem' r' ob' x, rd_fit r ->
  decode_next_loop_o L fuel (mem, r) ob = ((mem', r'), ob', x) ->
  rd_fit r' /\ sd_opts L (rd_dec L r') = sd_opts L (rd_dec L r) /\ same_shape ob ob'.
Proof.
  induction fuel as [|fuel IH]; intros mem r ob mem' r' ob' x Hr H; cbn [decode_next_loop_o] in H.
  { destruct (rd_eof L r); injection H as <- <- <- <-; (split; [exact Hr|]; split; [reflexivity|apply same_shape_refl]). }
  destruct (rd_eof L r) eqn:Ee; [injection H as <- <- <- <-; split; [exact Hr|]; split; [reflexivity|apply same_shape_refl]|].
  assert (Hsame : forall r1 y, fill_buf L r = (r1, y) -> (forall b bs, y <> Ok (b :: bs)) ->
    rd_fit r1 /\ sd_opts L (rd_dec L r1) = sd_opts L (rd_dec L r)).
  { intros r1 y E Hy. unfold fill_buf in E. destruct (rd_buf L r) as [|b bs] eqn:Eb; [|injection E as <- <-; destruct (Hy b bs); reflexivity].
    destruct Hr as ((Hw & Hz) & (Hb & Hs) & Hg). specialize (Hz Ee). rewrite Eb in Hz, Hb.
    destruct (rd_src L r) as [|[c|k] src] eqn:Es; injection E as <- <-.
    - split; [|reflexivity]. split; [split; [exact Hw|intros _; rewrite Eb; exact Hz]|]. split; [|exact Hg]. split; [rewrite Eb; exact Hb|rewrite Es; exact Hs].
    - destruct c as [|b bs]; [|destruct (Hy b bs); reflexivity]. inversion Hs as [|? ? H1 H2]; subst. split; [|reflexivity].
      split; [split; [exact Hw|intros _; exact Hz]|]. split; [|exact Hg]. split; [exact H1|exact H2].
    - inversion Hs as [|? ? H1 H2]; subst. split; [|reflexivity].
      split; [split; [exact Hw|intros _; exact Hz]|]. split; [|exact Hg]. split; [constructor|exact H2]. }
  destruct (fill_buf L r) as [r1 e] eqn:Ef. specialize (Hsame r1 e eq_refl).
  destruct e as [buf|k| | ].
  2,3,4: injection H as <- <- <- <-; destruct Hsame as [A B]; [discriminate|]; (split; [exact A|]; split; [exact B|apply same_shape_refl]).
  destruct buf as [|b buf].
  { injection H as <- <- <- <-; destruct Hsame as [A B]; [discriminate|]; (split; [exact A|]; split; [exact B|apply same_shape_refl]). }
  clear Hsame. assert (Hb : b :: buf <> []) by discriminate. remember (b :: buf) as bf eqn:Eb.
  destruct (rd_fit_filled _ _ _ Hr Ee Ef Hb) as (Hp & Hby & Hs1 & Ed).
  destruct (update_o L mem (rd_dec L r1) bf ob) as [mem1 [[d ob1] y]] eqn:Eu.
  replace (match bf with [] => (mem, r1, ob, Err (DIo UnexpectedEof)) | _ :: _ =>
     match y with
        | Ok (n, ev) => let rest := skipn n bf in
          match ev with
          | DNothing => decode_next_loop_o L fuel (mem1, mk_rd L rest (rd_src L r1) d false) ob1
          | DBlockStart BkTrailer => decode_next_loop_o L fuel (mem1, mk_rd L rest (rd_src L r1) d true) ob1
          | _ => (mem1, mk_rd L rest (rd_src L r1) d false, ob1, Ok (Some ev))
          end
        | Err e => (mem1, mk_rd L bf (rd_src L r1) d false, ob1, Err e)
        | Panic => (mem1, mk_rd L bf (rd_src L r1) d false, ob1, Panic)
        | Hang => (mem1, mk_rd L bf (rd_src L r1) d false, ob1, Hang)
        end end) with
     (match y with
        | Ok (n, ev) => let rest := skipn n bf in
          match ev with
          | DNothing => decode_next_loop_o L fuel (mem1, mk_rd L rest (rd_src L r1) d false) ob1
          | DBlockStart BkTrailer => decode_next_loop_o L fuel (mem1, mk_rd L rest (rd_src L r1) d true) ob1
          | _ => (mem1, mk_rd L rest (rd_src L r1) d false, ob1, Ok (Some ev))
          end
        | Err e => (mem1, mk_rd L bf (rd_src L r1) d false, ob1, Err e)
        | Panic => (mem1, mk_rd L bf (rd_src L r1) d false, ob1, Panic)
        | Hang => (mem1, mk_rd L bf (rd_src L r1) d false, ob1, Hang)
        end) in H by (subst; reflexivity).
  clear Eb. destruct (update_o_fit _ _ _ _ _ _ _ _ Hp Eu) as (U1 & U2 & U3 & U4). rewrite Ed in U1, U3.
  assert (Hg : geo d) by (apply U3; [apply Hr|exact Hby]).
  destruct y as [[n ev]|e| | ]; try contradiction.
  - destruct U4 as (V1 & V2 & V3). cbn zeta in H.
    assert (F : forall eof, (sd_state L d = Trailer -> eof = true) -> rd_fit (mk_rd L (skipn n bf) (rd_src L r1) d eof)).
    { intros eof He. split; [|split; [split; [now apply bytes_ok_skipn|exact Hs1]|exact Hg]].
      split; [exact V1|]. cbn [rd_eof rd_dec rd_buf]. intros ->. split; [exact V2|]. intros E. discriminate (He E). }
    assert (Fin : ev <> DBlockStart BkTrailer -> rd_fit (mk_rd L (skipn n bf) (rd_src L r1) d false)).
    { intros Hev. apply F. intros E. destruct (Hev (V3 E)). }
    destruct ev as [ | | | | |[ | | ]| | | | | | ];
      try (injection H as <- <- <- <-; split; [apply Fin; discriminate|]; split; [exact U1|exact U2]).
    + apply IH in H; [|apply Fin; discriminate]. destruct H as (I1 & I2 & I3). split; [exact I1|].
      split; [rewrite I2; exact U1|eapply same_shape_trans; eassumption].
    + apply IH in H; [|apply F; reflexivity]. destruct H as (I1 & I2 & I3). split; [exact I1|].
      split; [rewrite I2; exact U1|eapply same_shape_trans; eassumption].
  - injection H as <- <- <- <-. destruct U4 as (V1 & V2 & V3). split; [|split; [exact U1|exact U2]].
    split; [|split; [split; [exact Hby|exact Hs1]|exact Hg]]. split; [exact V1|]. cbn [rd_eof rd_dec rd_buf]. intros _. split; [|exact V3].
    intros E. congruence.
Qed.
Lemma decode_next_o_all mem r ob mem' r' ob' x : rd_fit r -> decode_next_o L (mem, r) ob = ((mem', r'), ob', x) ->
  rd_fit r' /\ sd_opts L (rd_dec L r') = sd_opts L (rd_dec L r) /\ same_shape ob ob' /\
  match x with
  | Ok (Some d) =>
    (is_slice ob = false -> (rmeas L r' < rmeas L r)%nat) /\
    (forall k, d = DBytesDecoded k -> exists s0, ob = OSlice s0 /\ (0 < k <= length s0)%nat) /\
    (forall t, d = DFrameMetadata t -> sd_current L (rd_dec L r') <> None /\
       exists k, sd_state L (rd_dec L r') = DecodeSubBlock k \/ sd_state L (rd_dec L r') = CopySubBlock k)
  | Ok None | Err _ => True
  | Panic | Hang => False
  end.
Proof.
  intros Hr H. pose proof (decode_next_loop_fit _ _ _ _ _ _ _ _ Hr H) as (F1 & F2 & F3).
  split; [exact F1|]. split; [exact F2|]. split; [exact F3|].
  pose proof (decode_next_sim L mem r ob) as Hs. rewrite H in Hs. unfold simr in Hs. cbn [fst snd] in Hs.
  destruct Hs as [[_ E]|[_ E]]; [|cbn in E; rewrite E; exact I]. symmetry in E. destruct Hr as (Hw & _).
  pose proof (decode_next_dnext L safe r ob r' ob' x Hw E) as Hd.
  pose proof (dnext_good L safe r ob r' ob' x Hd Hw) as (_ & _ & _ & _ & Hx).
  destruct x as [[d|]| | | ]; try exact I; try contradiction. destruct Hx as (_ & _ & _ & X1 & _ & X2).
  split; [exact X1|]. split; [exact X2|]. intros t ->.
  destruct (dnext_last L safe _ _ _ _ _ _ Hd eq_refl Hw) as (buf & src & s & ob0 & s1 & n & -> & Hbf & Hw1 & Hz1 & Hn).
  pose proof (next_state_good L safe s buf ob0 Hw1 Hz1 Hbf) as Hgs. rewrite Hn in Hgs. destruct Hgs as (_ & _ & _ & (_ & _ & Hc & _) & _).
  apply next_state_nst in Hn; auto. apply nst_meta in Hn; auto. cbn [rd_dec]. unfold cur_wf in Hc.
  destruct Hn as (k & [[Es _]|(m & Es & _)]); rewrite Es in *; (split; [exact Hc|]); exists k; auto.
Qed.

Variable umax : N.
Hypothesis Humax : 2 ^ 32 - 1 <= umax.
Variable o : options.
Hypothesis Hlim : limit_ok umax (o_limit o).

Definition rfit (x : rdo) : Prop := rd_fit (snd x) /\ sd_opts L (rd_dec L (snd x)) = o.
Definition fit (d : dcd) : Prop :=
  rd_fit (dc_rd L d) /\ sd_opts L (rd_dec L (dc_rd L d)) = o /\ dims (dc_cur L d) /\ cv_limit (dc_conv L d) = o_limit o.

Lemma decode_next_bytes_fit x s x' ob' r : rfit x -> decode_next_bytes_o L x (OSlice s) = (x', ob', r) ->
  rfit x' /\ (exists s', ob' = OSlice s' /\ length s' = length s) /\
  match r with Ok n => (n <= length s)%nat | Err _ => True | Panic | Hang => False end.
Proof.
  destruct x as [mem rr]. intros [Hr Ho] H. cbn [snd] in Hr, Ho. unfold decode_next_bytes_o in H.
  destruct (decode_next_o L (mem, rr) (OSlice s)) as [[[m1 r1] ob1] y] eqn:E.
  destruct (decode_next_o_all _ _ _ _ _ _ _ Hr E) as (F1 & F2 & F3 & F4). cbn in F3.
  assert (G : rfit (m1, r1)) by (split; [exact F1|cbn [snd]; congruence]).
  destruct y as [[ev|]|e| | ]; try contradiction.
  - destruct F4 as (_ & Hk & _). destruct ev; injection H as <- <- <-; (split; [exact G|]; split; [exact F3|]); try exact I.
    + destruct (Hk n eq_refl) as (s0 & [= <-] & Hn). lia.
    + lia.
  - injection H as <- <- <-. auto.
  - injection H as <- <- <-. auto.
Qed.

Lemma fit_set_rd d r : fit d -> rd_fit r -> sd_opts L (rd_dec L r) = o -> fit (set_rd L d r).
Proof. intros (_ & _ & A & B) Hr Ho. split; [exact Hr|]. split; [exact Ho|]. split; [exact A|exact B]. Qed.

Lemma init_loop_fit fuel : forall mem d mem' x, fit d -> (rmeas L (dc_rd L d) < fuel)%nat ->
  init_loop_o L fuel mem d = (mem', x) -> returns x /\ forall d', x = Ok d' -> fit d'.
Proof.
  induction fuel as [|fuel IH]; intros mem d mem' x Hd Hf H; [lia|]. cbn [init_loop_o] in H.
  destruct (decode_next_o L (mem, dc_rd L d) ONone) as [[[m1 r1] ob1] y] eqn:E. pose proof Hd as (Hr & Ho & Hc & Hl).
  destruct (decode_next_o_all _ _ _ _ _ _ _ Hr E) as (F1 & F2 & F3 & F4). rewrite Ho in F2.
  pose proof (fit_set_rd d r1 Hd F1 F2) as Hd1.
  destruct y as [[ev|]|e| | ]; try contradiction.
  - destruct F4 as (Hlt & _). specialize (Hlt eq_refl).
    destruct ev; try (apply IH in H; [exact H|exact Hd1|cbn [dc_rd set_rd set_bg set_conv set_rep]; lia]).
    injection H as <- <-. split; [exact I|]. intros d' [= <-]. unfold fix_bg.
    destruct (cv_gpal _); [destruct (_ <=? _); exact Hd1|exact Hd1].
  - injection H as <- <-. split; [exact I|discriminate].
  - injection H as <- <-. split; [exact I|discriminate].
Qed.
Lemma read_info_fit mem src mem' x : src_ok src -> read_info_o L mem src o = (mem', x) ->
  returns x /\ forall d', x = Ok d' -> fit d'.
Proof.
  intros Hs H. unfold read_info_o in H. eapply init_loop_fit; [|apply (rmeas_fuel L umax Humax)|exact H].
  split; [|split; [reflexivity|split; [split; unfold u16_ok; cbn; lia|reflexivity]]].
  split; [|split; [split; [constructor|exact Hs]|split; [constructor|exact I]]].
  split; [apply sd_new_wf|]. intros _. split; [|discriminate]. intros H1. discriminate.
Qed.

Lemma take_fit r f k : rd_fit r -> sd_current L (rd_dec L r) = Some f ->
  (sd_state L (rd_dec L r) = DecodeSubBlock k \/ sd_state L (rd_dec L r) = CopySubBlock k) ->
  rd_fit (mk_rd L (rd_buf L r) (rd_src L r) (set_current L (rd_dec L r) (Some (snd (frame_take f))) 0) (rd_eof L r)) /\ dims f.
Proof.
  intros (Hw & Hb & Hg) Hc Hst. destruct Hg as [G1 G2]. rewrite Hc in G2. split; [|exact G2]. split; [|split].
  - destruct Hw as [Hw1 Hw2]. split.
    + destruct Hw1 as (H1 & H2 & H3 & H4). unfold sd_wf, gct_wf, cur_wf, mode_wf in *. cbn [rd_dec]. sdcbn.
      destruct Hst as [Est|Est]; rewrite Est in *; (split; [exact H1|split; [exact I|split; [discriminate|exact H4]]]).
    + intros E. apply Hw2 in E. exact E.
  - exact Hb.
  - split; [exact G1|]. cbn [rd_dec]. sdcbn. exact G2.
Qed.

Lemma info_loop_fit fuel : forall mem d mem' d' x, fit d -> (rmeas L (dc_rd L d) < fuel)%nat ->
  next_frame_info_loop_o L fuel mem d = (mem', (d', x)) -> returns x /\ fit d'.
Proof.
  induction fuel as [|fuel IH]; intros mem d mem' d' x Hd Hf H; [lia|]. cbn [next_frame_info_loop_o] in H.
  destruct (decode_next_o L (mem, dc_rd L d) ONone) as [[[m1 r1] ob1] y] eqn:E. pose proof Hd as (Hr & Ho & Hc & Hl).
  destruct (decode_next_o_all _ _ _ _ _ _ _ Hr E) as (F1 & F2 & F3 & F4). rewrite Ho in F2.
  pose proof (fit_set_rd d r1 Hd F1 F2) as Hd1.
  destruct y as [[ev|]|e| | ]; try contradiction.
  - destruct F4 as (Hlt & _ & Hmeta). specialize (Hlt eq_refl).
    destruct ev; try (apply IH in H; [exact H|exact Hd1|cbn [dc_rd set_rd]; lia]).
    destruct (Hmeta t eq_refl) as [Hcur (k & Hst)]. destruct (sd_current L (rd_dec L r1)) as [f|] eqn:Ef; [|congruence].
    destruct (take_fit r1 f k F1 Ef Hst) as [T1 T2]. cbn [frame_take snd] in H, T1. cbn zeta in H.
    match type of H with context [set_cur L ?a ?b ?c] => set (d2 := set_cur L a b c) in * end.
    assert (G : fit d2).
    { unfold d2. split; [exact T1|]. split; [exact F2|]. split; [exact T2|exact Hl]. }
    cbn [f_palette] in H. destruct (f_palette f); [|destruct (cv_gpal _)]; injection H as <- <- <-; (split; [exact I|exact G]).
  - injection H as <- <- <-. split; [exact I|exact Hd1].
  - injection H as <- <- <-. split; [exact I|exact Hd1].
Qed.
Lemma copy_loop_fit fuel : forall mem r v mem' r' v' x, rd_fit r -> sd_opts L (rd_dec L r) = o -> (rmeas L r < fuel)%nat ->
  copy_lzw_loop_o L fuel (mem, r) v = ((mem', r'), v', x) -> returns x /\ rd_fit r' /\ sd_opts L (rd_dec L r') = o.
Proof.
  induction fuel as [|fuel IH]; intros mem r v mem' r' v' x Hr Ho Hf H; [lia|]. cbn [copy_lzw_loop_o] in H.
  destruct (decode_next_o L (mem, r) (OVec v)) as [[[m1 r1] ob1] y] eqn:E.
  destruct (decode_next_o_all _ _ _ _ _ _ _ Hr E) as (F1 & F2 & F3 & F4). rewrite Ho in F2.
  destruct y as [[ev|]|e| | ]; try contradiction.
  - destruct F4 as (Hlt & _). specialize (Hlt eq_refl).
    destruct ev; try (injection H as <- <- <- <-; split; [exact I|auto]).
    apply IH in H; [exact H|exact F1|exact F2|lia].
  - injection H as <- <- <- <-. split; [exact I|auto].
  - injection H as <- <- <- <-. split; [exact I|auto].
Qed.

Lemma read_next_frame_fit mem d mem' d' x : fit d -> read_next_frame_o L umax mem d = (mem', (d', x)) -> returns x /\ fit d'.
Proof.
  intros Hd H. unfold read_next_frame_o, next_frame_info_o in H.
  destruct (next_frame_info_loop_o L (ev_fuel L (dc_rd L d)) mem d) as [m1 [d1 y]] eqn:E.
  apply info_loop_fit in E; [|exact Hd|apply (rmeas_fuel L umax Humax)]. destruct E as [Hy Hd1]. pose proof Hd1 as (Hr & Ho & (Hw & Hh) & Hl).
  destruct y as [[|]|e| | ]; try contradiction; try (injection H as <- <- <-; split; [exact I|exact Hd1]).
  destruct (dc_ty L d1) as [|m].
  - destruct (conv_read_frame umax rdo (decode_next_bytes_o L) (m1, dc_rd L d1) (dc_conv L d1) (dc_cur L d1)) as [[[[m2 r2] c2] f2] z] eqn:Ec.
    apply (conv_read_frame_ok umax _ _ rfit) in Ec;
      [|intros; eapply decode_next_bytes_fit; eassumption|exact Hw|exact Hh|exact Humax|rewrite Hl; exact Hlim|split; [exact Hr|exact Ho]].
    destruct Ec as ((R1 & R2) & (Hs & _) & Hz & (b & i & ->) & _). cbn [snd] in R1, R2.
    assert (G : fit (set_cur L (set_conv L (set_rd L d1 r2) c2) (set_interlaced (set_buffer (dc_cur L d1) b) i) FPixels)).
    { split; [exact R1|]. split; [exact R2|]. split; [split; [exact Hw|exact Hh]|]. cbn [dc_conv set_cur set_conv]. rewrite Hs. exact Hl. }
    destruct z as [u|e| | ]; try contradiction; injection H as <- <- <-; (split; [exact I|exact G]).
  - destruct (reserve m1) as [ok m2] eqn:Er.
    assert (G0 : forall b, fit (set_cur L d1 (set_buffer (dc_cur L d1) b) (FLzw m))).
    { intros b. split; [exact Hr|]. split; [exact Ho|]. split; [split; [exact Hw|exact Hh]|exact Hl]. }
    destruct ok; cbn [negb] in H; [|injection H as <- <- <-; split; [exact I|apply G0]].
    destruct (copy_lzw_loop_o L (ev_fuel L (dc_rd L d1)) (m2, dc_rd L d1) ([] ++ [m])) as [[[m3 r3] v3] z] eqn:Ec.
    apply copy_loop_fit in Ec; [|exact Hr|exact Ho|apply (rmeas_fuel L umax Humax)]. destruct Ec as (Hz & R1 & R2).
    assert (G : forall b, fit (set_cur L (set_rd L d1 r3) (set_buffer (set_buffer (dc_cur L d1) []) b) (FLzw m))).
    { intros b. split; [exact R1|]. split; [exact R2|]. split; [split; [exact Hw|exact Hh]|exact Hl]. }
    destruct z as [u|e| | ]; try contradiction; injection H as <- <- <-; (split; [exact I|]); [apply G|apply (G [])].
Qed.

Lemma run_dop_fit mem d op mem' d' y : fit d -> op_ok umax op -> run_dop_o L umax mem d op = (mem', (d', y)) -> out_returns y /\ fit d'.
Proof.
  intros Hd Hop H. destruct op as [ | |buf|buf]; cbn [run_dop_o] in H.
  - unfold next_frame_info_o in H. destruct (next_frame_info_loop_o L (ev_fuel L (dc_rd L d)) mem d) as [m1 [d1 x]] eqn:E.
    injection H as <- <- <-. apply info_loop_fit in E; [exact E|exact Hd|apply (rmeas_fuel L umax Humax)].
  - destruct (read_next_frame_o L umax mem d) as [m1 [d1 x]] eqn:E. injection H as <- <- <-. eapply read_next_frame_fit; eassumption.
  - unfold read_into_buffer_o in H. pose proof Hd as (Hr & Ho & (Hw & Hh) & Hl).
    destruct (conv_read_into_buffer umax rdo (decode_next_bytes_o L) (mem, dc_rd L d) (dc_conv L d) (dc_cur L d) buf) as [[[[m2 r2] c2] f2] z] eqn:Ec.
    apply (conv_read_into_buffer_ok umax _ _ rfit) in Ec;
      [|intros; eapply decode_next_bytes_fit; eassumption|exact Hw|exact Humax|exact Hop|split; [exact Hr|exact Ho]].
    destruct Ec as ((R1 & R2) & _ & (Hs & _) & Hz). injection H as <- <- <-. split; [exact Hz|].
    split; [exact R1|]. split; [exact R2|]. split; [split; [exact Hw|exact Hh]|]. cbn [dc_conv set_conv]. rewrite Hs. exact Hl.
  - unfold fill_buffer_o in H. pose proof Hd as (Hr & Ho & (Hw & Hh) & Hl).
    destruct (conv_fill_buffer rdo (decode_next_bytes_o L) (mem, dc_rd L d) (dc_conv L d) (dc_cur L d) buf) as [[[[m2 r2] c2] f2] z] eqn:Ec.
    apply (conv_fill_buffer_ok _ _ rfit) in Ec; [|intros; eapply decode_next_bytes_fit; eassumption|split; [exact Hr|exact Ho]].
    destruct Ec as ((R1 & R2) & _ & (Hs & _) & Hz). injection H as <- <- <-. split; [exact Hz|].
    split; [exact R1|]. split; [exact R2|]. split; [split; [exact Hw|exact Hh]|]. cbn [dc_conv set_conv]. rewrite Hs. exact Hl.
Qed.
Lemma run_dops_fit ops : forall mem d, fit d -> Forall (op_ok umax) ops ->
  Forall out_returns (snd (snd (run_dops_o L umax mem d ops))) /\ fit (fst (snd (run_dops_o L umax mem d ops))).
Proof.
  induction ops as [|op ops IH]; intros mem d Hd Hops; [split; [constructor|exact Hd]|].
  inversion Hops as [|? ? H1 H2]; subst. cbn [run_dops_o].
  destruct (run_dop_o L umax mem d op) as [m1 [d1 y]] eqn:E. apply run_dop_fit in E; [|exact Hd|exact H1]. destruct E as [E1 E2].
  specialize (IH m1 d1 E2 H2). destruct (run_dops_o L umax m1 d1 ops) as [m2 [d2 ys]]. cbn [fst snd] in *. destruct IH. split; [constructor; assumption|assumption].
Qed.
Theorem decoder_oom_returns mem src ops : src_ok src -> Forall (op_ok umax) ops ->
  returns (snd (read_info_o L mem src o)) /\
  forall mem1 d, read_info_o L mem src o = (mem1, Ok d) -> Forall out_returns (snd (snd (run_dops_o L umax mem1 d ops))).
Proof.
  intros Hs Hops. destruct (read_info_o L mem src o) as [m x] eqn:E. destruct (read_info_fit _ _ _ _ Hs E) as [R1 R2].
  split; [exact R1|]. intros mem1 d [= -> ->]. apply run_dops_fit; auto.
Qed.
End Safe.
