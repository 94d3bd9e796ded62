(** The sizes of [SpecSize] are those of the bytes of [SpecEnc]. *)
From Verif Require Import Base Common Lzw Encoder Stream SpecGif SpecEnc EncLin EncSpec EncSession EncFaults SpecSize.
Open Scope N_scope.

Lemma table_room_spec n : (n <= 256)%nat -> (3 * N.to_nat (2 ^ (size_field n + 1)))%nat = table_room n.
Proof.
  assert (H : forallb (fun n => Nat.eqb (3 * N.to_nat (2 ^ (size_field n + 1))) (table_room n)) (seq 0 257) = true) by (vm_compute; reflexivity).
  intros Hn. rewrite forallb_forall in H. apply Nat.eqb_eq, H, in_seq. lia.
Qed.
Lemma padded_room p : (colors p <= 256)%nat -> length (padded p) = table_room (colors p).
Proof. intros H. rewrite padded_length by exact H. now apply table_room_spec. Qed.

Lemma pieces_room fuel : forall l, (length l <= fuel)%nat ->
  length (concat (map ser_sub (pieces fuel 255 l))) = cut_room (length l).
Proof.
  induction fuel as [|fuel IH]; intros l Hl; [destruct l; [reflexivity|cbn in Hl; lia]|].
  destruct l as [|x l]; cbn [pieces]; [reflexivity|].
  cbn [map concat]. rewrite app_length, IH by (rewrite skipn_length; cbn [length] in *; lia).
  set (l' := x :: l) in *. assert (H0 : (0 < length l')%nat) by (unfold l'; cbn [length]; lia). clearbody l'.
  unfold ser_sub, cut_room. cbn [length]. rewrite firstn_length, skipn_length.
  destruct (Nat.le_gt_cases (length l') 255) as [H|H].
  - rewrite Nat.min_r by lia. replace (length l' - 255)%nat with O by lia.
    assert (((length l' + 254) / 255)%nat = 1%nat) as -> by (symmetry; apply (Nat.div_unique _ _ _ (length l' - 1)); lia).
    change ((0 + 254) / 255)%nat with O. lia.
  - rewrite Nat.min_l by lia.
    replace (length l' + 254)%nat with ((length l' - 255 + 254) + 1 * 255)%nat by lia. rewrite Nat.div_add by lia. lia.
Qed.
Lemma cut_subs_room l : length (concat (map ser_sub (cut_subs l))) = cut_room (length l).
Proof. apply pieces_room. lia. Qed.
Lemma ser_subs_room l : length (ser_subs (cut_subs l)) = (cut_room (length l) + 1)%nat.
Proof. unfold ser_subs. rewrite app_length, cut_subs_room. reflexivity. Qed.

Lemma frame_blks_room f m data : match f_palette f with Some p => (colors p <= 256)%nat | None => True end ->
  length (ser_blocks (frame_blks f m data)) = frame_room f (length data).
Proof.
  intros H. rewrite ser_frame_blks. unfold header_bytes, frame_room.
  set (t := match f_palette f with Some p => padded p | None => [] end).
  assert (E : length t = match f_palette f with Some p => table_room (colors p) | None => O end).
  { unfold t. destruct (f_palette f); [now apply padded_room|reflexivity]. }
  clearbody t. rewrite <- E. rewrite app_length. cbn [app]. cbn [length]. rewrite !app_length. cbn [length]. rewrite ser_subs_room.
  unfold word. cbn [length]. change (length (ser_blk (control_of f))) with 8%nat. lia.
Qed.

Lemma op_room L dbg gp o : length (op_bytes L dbg gp o) = call_room L o (op_result dbg gp o).
Proof.
  unfold op_bytes. destruct o as [r|f|f|l data|x].
  - cbn [op_result call_room op_blocks]. destruct r as [[|p]|]; reflexivity.
  - unfold op_result. destruct (_ <? _); [reflexivity|]. destruct (_ && _); [reflexivity|].
    unfold palette_error. destruct (f_palette f) as [p|] eqn:Ep.
    + destruct (Nat.ltb_spec 256 (colors p)); [reflexivity|]. cbn [op_blocks call_room]. apply frame_blks_room. rewrite Ep. exact H.
    + destruct gp; [|reflexivity]. cbn [op_blocks call_room]. apply frame_blks_room. now rewrite Ep.
  - unfold op_result.
    assert (K : forall m data, f_buffer f = m :: data \/ (data = [] /\ f_buffer f = []) ->
       length match (match palette_error gp f with Some e => Err (EFormat e) | None => Ok tt end) with
              | Ok _ => ser_blocks (frame_blks f m data)
              | Err (EFormat TooManyColors) | Err (EFormat MissingColorPalette) => ser_blk (control_of f)
              | _ => [] end
       = call_room L (OWritePre f) (match palette_error gp f with Some e => Err (EFormat e) | None => Ok tt end)).
    { intros m data Hb. assert (Hl : (length (f_buffer f) - 1)%nat = length data) by (destruct Hb as [->|[-> ->]]; cbn [length]; lia).
      unfold palette_error. destruct (f_palette f) as [p|] eqn:Ep.
      - destruct (Nat.ltb_spec 256 (colors p)); [reflexivity|]. cbn [call_room]. rewrite Hl. apply frame_blks_room. rewrite Ep. exact H.
      - destruct gp; [|reflexivity]. cbn [call_room]. rewrite Hl. apply frame_blks_room. now rewrite Ep. }
    cbn [op_blocks]. destruct (f_buffer f) as [|m data] eqn:Eb.
    + specialize (K 2 [] (or_intror (conj eq_refl eq_refl))). rewrite <- K. reflexivity.
    + destruct ((2 <=? m) && (m <=? 11)); [|reflexivity]. specialize (K m data (or_introl eq_refl)). rewrite <- K. reflexivity.
  - cbn [op_result call_room op_blocks]. unfold ser_blocks. cbn [map concat ser_blk]. rewrite app_nil_r. cbn [length].
    unfold ser_subs. rewrite app_length. cbn [length].
    assert (E : length (concat (map ser_sub (flat_map cut_subs data))) = list_sum (map (fun d => cut_room (length d)) data)).
    { induction data as [|d data IH]; [reflexivity|]. cbn [flat_map]. rewrite map_app, concat_app, app_length, IH, cut_subs_room. reflexivity. }
    rewrite E. lia.
  - cbn [op_result call_room op_blocks]. destruct x as [a b c|[[|p]|]]; reflexivity.
Qed.

Theorem call_size L dbg e w o e' r : e_w e = Some w -> op_rng o -> run_op L dbg e o = (e', r) -> ~ writer_error r ->
  exists w', e_w e' = Some w' /\ length (w_out w') = (length (w_out w) + call_room L o r)%nat.
Proof.
  intros Hw Ho E Hr. destruct (op_lin L dbg o (e_global_palette e) Ho e w Hw eq_refl e' r E) as (w' & W & _ & _ & V & _).
  exists w'. split; [exact W|]. destruct V as [used E1 E2 E3 E4|used a k pre suf E1 E2 E3 E4 E5 E6 E7].
  - rewrite E1, app_length, op_room, E2. reflexivity.
  - exfalso. apply Hr. rewrite E4. eapply fault_error, E7.
Qed.

Theorem calls_size L dbg ops : forall e w e' rs, e_w e = Some w -> Forall op_rng ops -> run_each L dbg e ops = (e', rs) ->
  Forall (fun r => ~ writer_error r) rs ->
  exists w', e_w e' = Some w' /\ length (w_out w') = (length (w_out w) + calls_room L ops rs)%nat.
Proof.
  induction ops as [|o ops IH]; intros e w e' rs Hw Ho E Hr; cbn [run_each] in E.
  - injection E as <- <-. exists w. split; [exact Hw|]. cbn [calls_room]. lia.
  - destruct (run_op L dbg e o) as [e1 r] eqn:E1. destruct (run_each L dbg e1 ops) as [e2 rs2] eqn:E2. injection E as <- <-.
    inversion Ho; inversion Hr; subst. destruct (call_size L dbg e w o e1 r Hw ltac:(assumption) E1 ltac:(assumption)) as (w1 & W1 & L1).
    destruct (IH e1 w1 e2 rs2 W1 ltac:(assumption) E2 ltac:(assumption)) as (w2 & W2 & L2).
    exists w2. split; [exact W2|]. cbn [calls_room]. lia.
Qed.

Theorem new_size w width height pal e : u16_ok width -> u16_ok height -> encoder_new w width height pal = (e, Ok tt) ->
  exists w', e_w e = Some w' /\ length (w_out w') = (length (w_out w) + 13 + table_room (colors pal))%nat.
Proof.
  intros Hw Hh E. destruct (encoder_new_spec w width height pal e _ Hw Hh E) as (w' & W & A & B).
  exists w'. split; [exact W|]. destruct (Nat.le_gt_cases (colors pal) 256) as [H|H].
  - destruct (A H) as [(_ & _ & _ & _ & O & _)|(F & _)]; [|destruct (ok_not_writer_error tt F)].
    rewrite O, app_length. unfold head_bytes, ser_head. cbn [g_89a g_w g_h g_flags g_bg g_aspect g_gct]. rewrite !app_length.
    rewrite padded_room by exact H. cbn [length signature word]. lia.
  - destruct (B ltac:(lia)) as [B1 _]. discriminate.
Qed.

Theorem file_size L dbg w width height pal ops e1 e2 rs e3 w3 : u16_ok width -> u16_ok height -> Forall op_rng ops ->
  encoder_new w width height pal = (e1, Ok tt) -> run_each L dbg e1 ops = (e2, rs) -> Forall (fun r => ~ writer_error r) rs ->
  into_inner e2 = (e3, Ok w3) ->
  length (w_out w3) = (length (w_out w) + 13 + table_room (colors pal) + calls_room L ops rs + 1)%nat.
Proof.
  intros Hw Hh Ho E1 E2 Hr E3. destruct (new_size _ _ _ _ _ Hw Hh E1) as (w1 & W1 & L1).
  destruct (calls_size L dbg ops e1 w1 e2 rs W1 Ho E2 Hr) as (w2 & W2 & L2).
  destruct (into_inner_trailer e2 w2 e3 w3 W2 E3) as [O _]. rewrite O, app_length. cbn [length]. lia.
Qed.
