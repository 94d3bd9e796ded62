(** Sessions on faulty writers compared with the same sessions on a faultless one. *)
From Verif Require Import Base Common Lzw Encoder Stream SpecGif SpecEnc EncLin EncSpec EncSession.
Open Scope N_scope.

(** The same encoder on a writer that takes everything it is offered. *)
Definition sound (w : writer) : writer := mk_writer (w_out w) [].
Definition faultless (e : encoder) : encoder :=
  mk_enc (option_map sound (e_w e)) (e_global_palette e) (e_width e) (e_height e) (e_buffer e).

Lemma firstn_map_app {A B} (f : A -> B) l1 x l2 : firstn (length l1) (map f (l1 ++ x :: l2)) = map f l1.
Proof. rewrite map_app, firstn_app, map_length, Nat.sub_diag, firstn_O, app_nil_r. rewrite <- (map_length f). apply firstn_all. Qed.

Lemma run_each_length L dbg ops : forall e e' rs, run_each L dbg e ops = (e', rs) -> length rs = length ops.
Proof.
  induction ops as [|o ops IH]; intros e e' rs H; cbn [run_each] in H; [injection H as <- <-; reflexivity|].
  destruct (run_op L dbg e o) as [e1 r]. destruct (run_each L dbg e1 ops) as [e2 rs2] eqn:E. injection H as <- <-.
  cbn [length]. f_equal. eauto.
Qed.

Lemma faults_prefix L dbg e w ops e' rs e0 rs0 : e_w e = Some w -> Forall op_rng ops ->
  run_each L dbg e ops = (e', rs) -> run_each L dbg (faultless e) ops = (e0, rs0) ->
  exists w' w0, e_w e' = Some w' /\ e_w e0 = Some w0 /\
  ((rs = rs0 /\ w_out w' = w_out w0) \/
   exists k r e1 w1 suf, nth_error rs k = Some r /\ writer_error r /\ firstn k rs = firstn k rs0 /\
     e1 = fst (run_each L dbg e (firstn (S k) ops)) /\ e_w e1 = Some w1 /\ w_out w0 = w_out w1 ++ suf /\ suf <> []).
Proof.
  intros Hw Ro H H0.
  destruct (run_each_lin L dbg ops e w (e_global_palette e) e' rs Hw eq_refl Ro H) as (w' & V1 & _ & _ & _ & V).
  destruct (run_each_lin L dbg ops (faultless e) (sound w) (e_global_palette e) e0 rs0) as (w0 & U1 & _ & _ & _ & U); auto.
  { unfold faultless. cbn [e_w]. rewrite Hw. reflexivity. }
  destruct U as [(U2 & U3 & _)|(U2 & _)]; [|exfalso; apply U2; constructor].
  exists w', w0. split; [exact V1|]. split; [exact U1|]. cbn [sound w_out] in U3.
  destruct V as [(V2 & V3 & _)|(_ & V)]; [left; split; congruence|right].
  destruct V as (ops1 & o & ops2 & e1 & w1 & r & suf & Q1 & Q2 & Q3 & Q4 & Q5 & Q6 & Q7).
  exists (length ops1), r, e1, w1, (suf ++ concat (map (op_bytes L dbg (e_global_palette e)) ops2)).
  assert (Hl : length rs = length ops) by (eapply run_each_length; eauto).
  assert (Hn : nth_error rs (length ops1) = Some r).
  { transitivity (nth_error (firstn (S (length ops1)) rs) (length ops1)).
    - clear - Hl Q1. revert rs ops Hl Q1. induction ops1 as [|a l IH]; intros rs ops Hl Q1.
      + destruct rs; reflexivity.
      + destruct rs as [|x rs]; [reflexivity|]. cbn [length nth_error firstn]. subst ops. cbn [length app] in Hl. injection Hl as Hl.
        eapply IH; [exact Hl|reflexivity].
    - rewrite Q3. rewrite <- (map_length (op_result dbg (e_global_palette e)) ops1).
      rewrite nth_error_app2, Nat.sub_diag by lia. reflexivity. }
  split; [exact Hn|]. split; [exact Q4|]. split.
  { rewrite U2, Q1, firstn_map_app.
    replace (firstn (length ops1) rs) with (firstn (length ops1) (firstn (S (length ops1)) rs)) by (rewrite firstn_firstn; f_equal; lia).
    rewrite Q3. rewrite <- (map_length (op_result dbg (e_global_palette e)) ops1), firstn_app, Nat.sub_diag, firstn_O, app_nil_r.
    apply firstn_all. }
  split.
  { rewrite Q1. replace (firstn (S (length ops1)) (ops1 ++ o :: ops2)) with (ops1 ++ [o]); [now rewrite Q2|].
    change (o :: ops2) with ([o] ++ ops2). rewrite app_assoc, firstn_app, app_length. cbn [length].
    replace (S (length ops1) - (length ops1 + 1))%nat with O by lia. rewrite firstn_O, app_nil_r.
    replace (S (length ops1)) with (length (ops1 ++ [o])) by (rewrite app_length; cbn; lia). symmetry. apply firstn_all. }
  split; [exact Q5|]. split.
  - rewrite U3, Q1. change (o :: ops2) with ([o] ++ ops2). rewrite app_assoc, map_app, concat_app, app_assoc, Q7. now rewrite app_assoc.
  - destruct suf; [congruence|discriminate].
Qed.

(** A session without errors on any writer: same bytes as on a faultless one. *)
Lemma all_ok_bytes L dbg w width height pal ops e1 e2 e3 w3 : u16_ok width -> u16_ok height -> Forall op_rng ops ->
  encoder_new w width height pal = (e1, Ok tt) -> run_ops L dbg e1 ops = (e2, Ok tt) -> into_inner e2 = (e3, Ok w3) ->
  exists f1 f2 f3 w4, encoder_new (sound w) width height pal = (f1, Ok tt) /\ run_ops L dbg f1 ops = (f2, Ok tt) /\
    into_inner f2 = (f3, Ok w4) /\ w_out w3 = w_out w4.
Proof.
  intros Rw Rh Ro H1 H2 H3. destruct (session_ok L dbg w width height pal ops e1 e2 e3 w3 Rw Rh Ro H1 H2 H3) as (Hout & _ & Hc & Hok).
  destruct (session_runs L dbg (sound w) width height pal ops Rw Rh Ro) as (f1 & f2 & f3 & w4 & G1 & G2 & G3); auto; [constructor|].
  exists f1, f2, f3, w4. split; [exact G1|]. split; [exact G2|]. split; [exact G3|].
  destruct (session_ok L dbg (sound w) width height pal ops f1 f2 f3 w4 Rw Rh Ro G1 G2 G3) as (Hout' & _). rewrite Hout, Hout'. reflexivity.
Qed.

(** [into_inner] that fails has written nothing, or only the trailer (when dropped). *)
Lemma into_inner_faults e w e' x : e_w e = Some w -> into_inner e = (e', x) -> writer_error x ->
  exists w', e_w e' = Some w' /\ (w_out w' = w_out w \/ w_out w' = w_out w ++ [0x3B]).
Proof.
  intros Hw H Hx. destruct (into_inner_spec e w e' x Hw H) as [(w' & -> & _)|(w' & _ & H1 & _ & H2)]; [now apply ok_not_writer_error in Hx|].
  eauto.
Qed.

(** Exactly one trailer. *)
Lemma into_inner_trailer e w e' w' : e_w e = Some w -> into_inner e = (e', Ok w') ->
  w_out w' = w_out w ++ [0x3B] /\ e_w e' = None /\ encoder_drop e' = e'.
Proof.
  intros Hw H. destruct (into_inner_spec e w e' _ Hw H) as [(w1 & [= <-] & H1 & H2 & _)|(w1 & H1 & _)]; [|now apply ok_not_writer_error in H1].
  split; [exact H2|]. split; [exact H1|]. unfold encoder_drop. now rewrite H1.
Qed.
Lemma drop_trailer e w : e_w e = Some w ->
  exists w', e_w (encoder_drop e) = Some w' /\
   (Forall harmless (w_plan w) -> w_out w' = w_out w ++ [0x3B]) /\ (w_out w' = w_out w \/ w_out w' = w_out w ++ [0x3B]).
Proof.
  intros Hw. destruct (drop_spec e w Hw) as (w' & D1 & D2). exists w'. split; [exact D1|].
  destruct D2 as [(D2 & _)|(D2 & D3)]; split; auto. intros; contradiction.
Qed.
