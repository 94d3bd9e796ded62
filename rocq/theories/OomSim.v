(** Up to the first reservation that fails nothing differs from a run with enough memory. *)
From Verif Require Import Base Common Lzw Encoder Stream Converter Reader OomModel SpecOom StreamInv ReaderInv.
Open Scope N_scope.

Lemma spared_refl m : spared m m.
Proof. exists O. reflexivity. Qed.
Lemma spared_trans a b c : spared a b -> spared b c -> spared a c.
Proof. intros [k ->] [j ->]. exists (k + j)%nat. now rewrite repeat_app, app_assoc. Qed.
Lemma spared_out a b c : spared a b -> ran_out b c -> ran_out a c.
Proof. intros [k ->] [j ->]. exists (k + j)%nat. now rewrite repeat_app, app_assoc. Qed.
Lemma reserve_cases m ok m' : reserve m = (ok, m') -> (ok = true /\ spared m m') \/ (ok = false /\ ran_out m m').
Proof.
  destruct m as [|b m]; intros [= <- <-]; [left; split; [reflexivity|apply spared_refl]|].
  destruct b; [left; split; [reflexivity|exists 1%nat; reflexivity]|right; split; [reflexivity|exists O; reflexivity]].
Qed.

(** A run [y] with memory [mem] to [mem'] against the run [x] with enough memory. *)
Definition sim {A} (mem mem' : list bool) (x y : A) (out : A -> Prop) : Prop :=
  (spared mem mem' /\ y = x) \/ (ran_out mem mem' /\ out y).
Lemma sim_refl {A} m (x : A) out : sim m m x x out.
Proof. left. split; [apply spared_refl|reflexivity]. Qed.
Lemma sim_before {A} m m1 m2 (x y : A) out : spared m m1 -> sim m1 m2 x y out -> sim m m2 x y out.
Proof.
  intros H [[H1 H2]|[H1 H2]]; [left|right]; (split; [|exact H2]); [eapply spared_trans|eapply spared_out]; eassumption.
Qed.

Section Sim.
Variable L : lzw_codec.
Variable umax : N.
Notation sd := (sd L).

Lemma next_state_sim mem s buf ob mem' y : next_state_o L mem s buf ob = (mem', y) ->
  (spared mem mem' /\ y = next_state L s buf ob) \/
  (ran_out mem mem' /\ exists s', reserving L s buf ob = Some s' /\ y = (s', ob, oom)).
Proof.
  unfold next_state_o. destruct (reserving L s buf ob) as [s'|] eqn:Er.
  - destruct (reserve mem) as [ok m] eqn:Em. apply reserve_cases in Em. destruct Em as [[-> H]|[-> H]]; intros [= <- <-].
    + left. auto.
    + right. split; [exact H|]. exists s'. auto.
  - intros [= <- <-]. left. split; [apply spared_refl|reflexivity].
Qed.

Definition upd_oom (s : sd) (buf : list N) (ob : obuf) (y : sd * obuf * dres (nat * decoded)) : Prop :=
  exists s1 buf1 ob1 s', nsteps L s buf ob s1 buf1 ob1 /\ buf1 <> [] /\ reserving L s1 buf1 ob1 = Some s' /\ y = (s', ob1, oom).
Lemma update_loop_sim fuel : forall mem s buf ob total mem' y, update_loop_o L fuel mem s buf ob total = (mem', y) ->
  sim mem mem' (update_loop L fuel s buf ob total) y (upd_oom s buf ob).
Proof.
  induction fuel as [|fuel IH]; intros mem s buf ob total mem' y H.
  { destruct buf; cbn [update_loop_o update_loop] in *; injection H as <- <-; apply sim_refl. }
  destruct buf as [|b buf]; [cbn [update_loop_o update_loop] in *; injection H as <- <-; apply sim_refl|].
  assert (Hb : b :: buf <> []) by discriminate. cbn [update_loop_o update_loop] in *. remember (b :: buf) as bf eqn:Eb. clear Eb.
  destruct (next_state_o L mem s bf ob) as [mem1 [[s1 ob1] r]] eqn:E. apply next_state_sim in E.
  destruct E as [[Hs E]|[Ho (s' & Er & E)]].
  - rewrite <- E. destruct r as [[n d]|e| | ]; [|injection H as <- <-; left; auto..].
    destruct d; try (injection H as <- <-; left; auto).
    apply IH in H. destruct H as [[H1 H2]|[H1 H2]]; [left; split; [eapply spared_trans; eassumption|exact H2]|].
    right. split; [eapply spared_out; eassumption|]. destruct H2 as (s2 & buf2 & ob2 & s' & Hn & H2).
    exists s2, buf2, ob2, s'. split; [|exact H2]. econstructor; [exact Hb|symmetry; exact E|exact Hn].
  - injection E as -> -> ->. injection H as <- <-. right. split; [exact Ho|].
    exists s, bf, ob, s'. split; [constructor|]. auto.
Qed.
Lemma update_sim mem s buf ob mem' y : update_o L mem s buf ob = (mem', y) ->
  sim mem mem' (update L s buf ob) y (upd_oom s buf ob).
Proof. apply update_loop_sim. Qed.
Lemma upd_oom_out s buf ob s' ob' x : upd_oom s buf ob (s', ob', x) -> x = oom.
Proof. intros (? & ? & ? & ? & _ & _ & _ & [= _ _ ->]). reflexivity. Qed.

(** Readers *)
Notation rdo := (list bool * rd L)%type.
(** [y], of a reader with memory, against [x], of a reader. *)
Definition simr {B} (mem : list bool) (x : rd L * obuf * dres B) (y : rdo * obuf * dres B) : Prop :=
  sim mem (fst (fst (fst y))) x (snd (fst (fst y)), snd (fst y), snd y) (fun y => snd y = oom).

Lemma decode_next_loop_sim fuel : forall mem r ob,
  simr mem (decode_next_loop L fuel r ob) (decode_next_loop_o L fuel (mem, r) ob).
Proof.
  induction fuel as [|fuel IH]; intros mem r ob; cbn [decode_next_loop decode_next_loop_o].
  { destruct (rd_eof L r); apply sim_refl. }
  destruct (rd_eof L r); [apply sim_refl|].
  destruct (fill_buf L r) as [r1 e]. destruct e as [buf|k| | ]; try apply sim_refl.
  destruct buf as [|b buf]; [apply sim_refl|]. remember (b :: buf) as bf eqn:Eb. clear Eb.
  destruct (update_o L mem (rd_dec L r1) bf ob) as [mem1 [[d ob1] x]] eqn:E. apply update_sim in E.
  destruct E as [[Hs E]|[Ho E]].
  - rewrite <- E. destruct x as [[n ev]|e| | ]; try (left; split; [exact Hs|reflexivity]).
    destruct ev as [ | | | | |[ | | ]| | | | | | ]; try (left; split; [exact Hs|reflexivity]);
      (eapply sim_before; [exact Hs|apply IH]).
  - rewrite (upd_oom_out _ _ _ _ _ _ E). right. split; [exact Ho|reflexivity].
Qed.
Lemma decode_next_sim mem r ob : simr mem (decode_next L r ob) (decode_next_o L (mem, r) ob).
Proof. apply decode_next_loop_sim. Qed.
Lemma decode_next_bytes_sim mem r ob : simr mem (decode_next_bytes L r ob) (decode_next_bytes_o L (mem, r) ob).
Proof.
  unfold decode_next_bytes, decode_next_bytes_o. pose proof (decode_next_sim mem r ob) as H.
  destruct (decode_next_o L (mem, r) ob) as [[[m1 r1] ob1] y]. unfold simr in H. cbn [fst snd] in H.
  destruct H as [[Hs <-]|[Ho Hy]].
  - left. destruct y as [[[ ]|]| | | ]; (split; [exact Hs|reflexivity]).
  - cbn [snd] in Hy. subst y. right. split; [exact Ho|reflexivity].
Qed.

(** The pixel converter with any such callback *)
Definition simc {B C} (mem : list bool) (x : rd L * conv * B * dres C) (y : rdo * conv * B * dres C) : Prop :=
  sim mem (fst (fst (fst (fst y)))) x (snd (fst (fst (fst y))), snd (fst (fst y)), snd (fst y), snd y) (fun y => snd y = oom).
Lemma fill_loop_sim fuel : forall mem r c f dn buf,
  simc mem (fill_loop (rd L) (decode_next_bytes L) fuel r c f dn buf) (fill_loop rdo (decode_next_bytes_o L) fuel (mem, r) c f dn buf).
Proof.
  induction fuel as [|fuel IH]; intros mem r c f dn buf; cbn [fill_loop]; [apply sim_refl|].
  destruct (cv_color c).
  - destruct (_ =? 0)%nat; [apply sim_refl|].
    match goal with |- context [decode_next_bytes_o L (mem, r) ?o] => pose proof (decode_next_bytes_sim mem r o) as H;
      destruct (decode_next_bytes_o L (mem, r) o) as [[[m1 r1] ob1] y] end.
    unfold simr in H. cbn [fst snd] in H. destruct H as [[Hs <-]|[Ho Hy]].
    + destruct y as [[|n]|e| | ]; try (left; split; [exact Hs|reflexivity]).
      destruct (_ <? _)%nat; [left; split; [exact Hs|reflexivity]|].
      destruct (is_nil _); [left; split; [exact Hs|reflexivity]|]. eapply sim_before; [exact Hs|apply IH].
    + cbn [snd] in Hy. subst y. right. split; [exact Ho|reflexivity].
  - pose proof (decode_next_bytes_sim mem r (OSlice buf)) as H.
    destruct (decode_next_bytes_o L (mem, r) (OSlice buf)) as [[[m1 r1] ob1] y].
    unfold simr in H. cbn [fst snd] in H. destruct H as [[Hs <-]|[Ho Hy]].
    + destruct y as [[|n]|e| | ]; try (left; split; [exact Hs|reflexivity]).
      destruct (_ <? _)%nat; [left; split; [exact Hs|reflexivity]|].
      destruct (is_nil _); [left; split; [exact Hs|reflexivity]|]. eapply sim_before; [exact Hs|apply IH].
    + cbn [snd] in Hy. subst y. right. split; [exact Ho|reflexivity].
Qed.
Lemma conv_fill_sim mem r c f buf :
  simc mem (conv_fill_buffer (rd L) (decode_next_bytes L) r c f buf) (conv_fill_buffer rdo (decode_next_bytes_o L) (mem, r) c f buf).
Proof. apply fill_loop_sim. Qed.
Lemma read_rows_sim rows : forall mem r c f buf,
  simc mem (read_rows umax (rd L) (decode_next_bytes L) rows r c f buf) (read_rows umax rdo (decode_next_bytes_o L) rows (mem, r) c f buf).
Proof.
  induction rows as [|row rows IH]; intros mem r c f buf; cbn [read_rows]; [apply sim_refl|].
  destruct (_ <? _); [apply sim_refl|]. destruct (_ && _); [|apply sim_refl].
  match goal with |- context [conv_fill_buffer rdo (decode_next_bytes_o L) (mem, r) c f ?o] => pose proof (conv_fill_sim mem r c f o) as H;
    destruct (conv_fill_buffer rdo (decode_next_bytes_o L) (mem, r) c f o) as [[[[m1 r1] c1] b1] y] end.
  unfold simc in H. cbn [fst snd] in H. destruct H as [[Hs <-]|[Ho Hy]].
  - destruct y as [[|]|e| | ]; try (left; split; [exact Hs|reflexivity]). eapply sim_before; [exact Hs|apply IH].
  - cbn [snd] in Hy. subst y. right. split; [exact Ho|reflexivity].
Qed.
Lemma conv_into_sim mem r c f buf :
  simc mem (conv_read_into_buffer umax (rd L) (decode_next_bytes L) r c f buf)
    (conv_read_into_buffer umax rdo (decode_next_bytes_o L) (mem, r) c f buf).
Proof.
  unfold conv_read_into_buffer. destruct (f_interlaced f); [apply read_rows_sim|].
  destruct (buffer_size umax c f) as [n|]; [|apply sim_refl]. destruct (_ <=? _); [|apply sim_refl]. cbn zeta.
  match goal with |- context [conv_fill_buffer rdo (decode_next_bytes_o L) (mem, r) c f ?o] => pose proof (conv_fill_sim mem r c f o) as H;
    destruct (conv_fill_buffer rdo (decode_next_bytes_o L) (mem, r) c f o) as [[[[m1 r1] c1] b1] y] end.
  unfold simc in H. cbn [fst snd] in H. destruct H as [[Hs <-]|[Ho Hy]].
  - destruct y as [[|]|e| | ]; left; (split; [exact Hs|reflexivity]).
  - cbn [snd] in Hy. subst y. right. split; [exact Ho|reflexivity].
Qed.
Lemma conv_frame_sim mem r c f :
  simc mem (conv_read_frame umax (rd L) (decode_next_bytes L) r c f) (conv_read_frame umax rdo (decode_next_bytes_o L) (mem, r) c f).
Proof.
  unfold conv_read_frame. destruct (check_buffer_size umax c f) as [n|e| | ]; try apply sim_refl.
  destruct (_ <? _); [apply sim_refl|]. cbn zeta.
  match goal with |- context [conv_read_into_buffer umax rdo (decode_next_bytes_o L) (mem, r) c ?g ?o] =>
    pose proof (conv_into_sim mem r c g o) as H;
    destruct (conv_read_into_buffer umax rdo (decode_next_bytes_o L) (mem, r) c g o) as [[[[m1 r1] c1] b1] y] end.
  unfold simc in H. cbn [fst snd] in H. destruct H as [[Hs <-]|[Ho Hy]].
  - destruct y as [u|e| | ]; left; (split; [exact Hs|reflexivity]).
  - cbn [snd] in Hy. subst y. right. split; [exact Ho|reflexivity].
Qed.

(** The [Decoder] *)
Lemma init_loop_sim fuel : forall mem d, let y := init_loop_o L fuel mem d in
  sim mem (fst y) (init_loop L fuel d) (snd y) (fun y => y = oom).
Proof.
  induction fuel as [|fuel IH]; intros mem d; cbn [init_loop init_loop_o]; [apply sim_refl|].
  pose proof (decode_next_sim mem (dc_rd L d) ONone) as H.
  destruct (decode_next_o L (mem, dc_rd L d) ONone) as [[[m1 r1] ob1] y].
  unfold simr in H. cbn [fst snd] in H. destruct H as [[Hs <-]|[Ho Hy]].
  - destruct y as [[[ ]|]|e| | ]; try (left; split; [exact Hs|reflexivity]); (eapply sim_before; [exact Hs|apply IH]).
  - cbn [snd] in Hy. subst y. right. split; [exact Ho|reflexivity].
Qed.
Theorem read_info_sim mem src o : let y := read_info_o L mem src o in
  sim mem (fst y) (read_info L src o) (snd y) (fun y => y = oom).
Proof. apply init_loop_sim. Qed.

Definition simd (mem : list bool) (x : dcd L * dres bool) (y : list bool * (dcd L * dres bool)) : Prop :=
  sim mem (fst y) x (snd y) (fun y => snd y = oom).
Lemma info_loop_sim fuel : forall mem d, simd mem (next_frame_info_loop L fuel d) (next_frame_info_loop_o L fuel mem d).
Proof.
  induction fuel as [|fuel IH]; intros mem d; cbn [next_frame_info_loop next_frame_info_loop_o]; [apply sim_refl|].
  pose proof (decode_next_sim mem (dc_rd L d) ONone) as H.
  destruct (decode_next_o L (mem, dc_rd L d) ONone) as [[[m1 r1] ob1] y].
  unfold simr in H. cbn [fst snd] in H. destruct H as [[Hs <-]|[Ho Hy]].
  - destruct y as [[[ ]|]|e| | ]; try (left; split; [exact Hs|reflexivity]); try (eapply sim_before; [exact Hs|apply IH]).
    destruct (sd_current L (rd_dec L r1)) as [f|]; [|left; split; [exact Hs|reflexivity]].
    destruct (frame_take f) as [tk lo]. cbn zeta.
    destruct (f_palette tk); [left; split; [exact Hs|reflexivity]|].
    destruct (cv_gpal _); left; (split; [exact Hs|reflexivity]).
  - cbn [snd] in Hy. subst y. right. split; [exact Ho|reflexivity].
Qed.
Lemma copy_loop_sim fuel : forall mem r v, let y := copy_lzw_loop_o L fuel (mem, r) v in
  sim mem (fst (fst (fst y))) (copy_lzw_loop L fuel r v) (snd (fst (fst y)), snd (fst y), snd y) (fun y => snd y = oom).
Proof.
  induction fuel as [|fuel IH]; intros mem r v; cbn [copy_lzw_loop copy_lzw_loop_o]; [apply sim_refl|].
  pose proof (decode_next_sim mem r (OVec v)) as H.
  destruct (decode_next_o L (mem, r) (OVec v)) as [[[m1 r1] ob1] y].
  unfold simr in H. cbn [fst snd] in H. destruct H as [[Hs <-]|[Ho Hy]].
  - destruct y as [[[ ]|]|e| | ]; try (left; split; [exact Hs|reflexivity]). eapply sim_before; [exact Hs|apply IH].
  - cbn [snd] in Hy. subst y. right. split; [exact Ho|reflexivity].
Qed.
Lemma read_next_frame_sim mem d : simd mem (read_next_frame L umax d) (read_next_frame_o L umax mem d).
Proof.
  unfold read_next_frame, read_next_frame_o, next_frame_info, next_frame_info_o.
  pose proof (info_loop_sim (ev_fuel L (dc_rd L d)) mem d) as H.
  destruct (next_frame_info_loop_o L (ev_fuel L (dc_rd L d)) mem d) as [m1 [d1 y]].
  unfold simd in H. cbn [fst snd] in H. destruct H as [[Hs <-]|[Ho Hy]].
  - destruct y as [[|]|e| | ]; try (left; split; [exact Hs|reflexivity]). destruct (dc_ty L d1) as [|m].
    + pose proof (conv_frame_sim m1 (dc_rd L d1) (dc_conv L d1) (dc_cur L d1)) as H.
      destruct (conv_read_frame umax rdo (decode_next_bytes_o L) (m1, dc_rd L d1) (dc_conv L d1) (dc_cur L d1)) as [[[[m2 r2] c2] f2] z].
      unfold simc in H. cbn [fst snd] in H. apply (sim_before mem m1 _ _ _ _ Hs). destruct H as [[Hs2 <-]|[Ho Hz]].
      * destruct z as [u|e| | ]; left; (split; [exact Hs2|reflexivity]).
      * cbn [snd] in Hz. subst z. right. split; [exact Ho|reflexivity].
    + unfold copy_lzw_into_buffer. destruct (reserve m1) as [ok m2] eqn:Er. apply reserve_cases in Er.
      destruct Er as [[-> H2]|[-> H2]]; cbn [negb].
      * pose proof (copy_loop_sim (ev_fuel L (dc_rd L d1)) m2 (dc_rd L d1) ([] ++ [m])) as H. cbn zeta in H.
        destruct (copy_lzw_loop_o L (ev_fuel L (dc_rd L d1)) (m2, dc_rd L d1) ([] ++ [m])) as [[[m3 r3] v3] z].
        cbn [fst snd] in H. apply (sim_before mem m2); [eapply spared_trans; eassumption|]. destruct H as [[Hs3 <-]|[Ho Hz]].
        -- destruct z as [u|e| | ]; left; (split; [exact Hs3|reflexivity]).
        -- cbn [snd] in Hz. subst z. right. split; [exact Ho|reflexivity].
      * right. split; [eapply spared_out; eassumption|reflexivity].
  - cbn [snd] in Hy. subst y. right. split; [exact Ho|reflexivity].
Qed.

Theorem run_dop_sim mem d op mem' d' y : run_dop_o L umax mem d op = (mem', (d', y)) ->
  (spared mem mem' /\ run_dop L umax d op = (d', y)) \/ (ran_out mem mem' /\ oom_out y).
Proof.
  destruct op as [ | |buf|buf]; cbn [run_dop_o run_dop].
  - unfold next_frame_info, next_frame_info_o. pose proof (info_loop_sim (ev_fuel L (dc_rd L d)) mem d) as H.
    destruct (next_frame_info_loop_o L (ev_fuel L (dc_rd L d)) mem d) as [m1 [d1 x]]. intros [= <- <- <-].
    unfold simd in H. cbn [fst snd] in H. destruct H as [[Hs <-]|[Ho Hy]]; [left; auto|right; split; [exact Ho|exact Hy]].
  - pose proof (read_next_frame_sim mem d) as H. destruct (read_next_frame_o L umax mem d) as [m1 [d1 x]]. intros [= <- <- <-].
    unfold simd in H. cbn [fst snd] in H. destruct H as [[Hs <-]|[Ho Hy]]; [left; auto|right; split; [exact Ho|exact Hy]].
  - unfold read_into_buffer_o, read_into_buffer. pose proof (conv_into_sim mem (dc_rd L d) (dc_conv L d) (dc_cur L d) buf) as H.
    destruct (conv_read_into_buffer umax rdo (decode_next_bytes_o L) (mem, dc_rd L d) (dc_conv L d) (dc_cur L d) buf) as [[[[m2 r2] c2] f2] z].
    intros [= <- <- <-]. unfold simc in H. cbn [fst snd] in H. destruct H as [[Hs <-]|[Ho Hz]]; [left; auto|right; split; [exact Ho|exact Hz]].
  - unfold fill_buffer_o, fill_buffer. pose proof (conv_fill_sim mem (dc_rd L d) (dc_conv L d) (dc_cur L d) buf) as H.
    destruct (conv_fill_buffer rdo (decode_next_bytes_o L) (mem, dc_rd L d) (dc_conv L d) (dc_cur L d) buf) as [[[[m2 r2] c2] f2] z].
    intros [= <- <- <-]. unfold simc in H. cbn [fst snd] in H. destruct H as [[Hs <-]|[Ho Hz]]; [left; auto|right; split; [exact Ho|exact Hz]].
Qed.
Theorem iter_next_sim mem it mem' it' y : iter_next_o L umax mem it = (mem', (it', y)) ->
  (spared mem mem' /\ iter_next L umax it = (it', y)) \/ (ran_out mem mem' /\ y = IErr (DIo OutOfMemory) /\ it_ended L it' = true).
Proof.
  unfold iter_next_o, iter_next. destruct (it_ended L it); [intros [= <- <- <-]; left; split; [apply spared_refl|reflexivity]|].
  pose proof (read_next_frame_sim mem (it_dec L it)) as H. destruct (read_next_frame_o L umax mem (it_dec L it)) as [m1 [d1 x]].
  unfold simd in H. cbn [fst snd] in H. destruct H as [[Hs <-]|[Ho Hy]]; intros E.
  - left. destruct x as [[|]|e| | ]; try (injection E as <- <- <-; split; [exact Hs|reflexivity]).
    destruct (is_nil _); [injection E as <- <- <-; split; [exact Hs|reflexivity]|].
    destruct (frame_take _) as [tk lo]. injection E as <- <- <-. split; [exact Hs|reflexivity].
  - right. cbn [snd] in Hy. subst x. unfold oom in E. injection E as <- <- <-. split; [exact Ho|]. auto.
Qed.

Theorem update_spared mem s buf ob mem' s' ob' x : update_o L mem s buf ob = (mem', (s', ob', x)) ->
  (spared mem mem' /\ update L s buf ob = (s', ob', x)) \/ (ran_out mem mem' /\ x = oom).
Proof.
  intros H. apply update_sim in H. destruct H as [[H1 H2]|[H1 H2]]; [left; auto|right].
  split; [exact H1|]. eapply upd_oom_out. exact H2.
Qed.
Theorem read_info_spared mem src o mem' x : read_info_o L mem src o = (mem', x) ->
  (spared mem mem' /\ read_info L src o = x) \/ (ran_out mem mem' /\ x = oom).
Proof.
  intros H. pose proof (read_info_sim mem src o) as S. rewrite H in S. cbn [fst snd] in S.
  destruct S as [[H1 H2]|[H1 H2]]; [left; auto|right; auto].
Qed.
End Sim.
