(** The row order of interlaced frames. *)
From Verif Require Import Base Common Lzw Encoder Stream Converter SpecPixels.
Open Scope nat_scope.

Lemma filter_false {A} (p : A -> bool) l : (forall x, In x l -> p x = false) -> filter p l = [].
Proof.
  induction l as [|x l IH]; intros H; [reflexivity|]. cbn [filter].
  rewrite (H x) by (left; reflexivity). apply IH. intros y Hy. apply H. now right.
Qed.

Lemma filter_seq_skip p a k n : (forall r, a <= r < a + k -> p r = false) ->
  filter p (seq a (k + n)) = filter p (seq (a + k) n).
Proof.
  intros H. rewrite seq_app, filter_app, filter_false; [reflexivity|].
  intros x Hx. apply in_seq in Hx. apply H. lia.
Qed.

(** The rows of one pass from [start] on. *)
Definition pass_from (step c start h : nat) : list nat :=
  filter (fun r => r mod step =? c) (seq start (h - start)).

Lemma pass_from_end step c start h : h <= start -> pass_from step c start h = [].
Proof. intros H. unfold pass_from. replace (h - start) with 0 by lia. reflexivity. Qed.

Lemma pass_from_cons step c start h :
  (forall r, start < r < start + step -> (r mod step =? c) = false) ->
  (start mod step =? c) = true -> 0 < step -> start < h ->
  pass_from step c start h = start :: pass_from step c (start + step) h.
Proof.
  intros Hs Hc H0 Hh. unfold pass_from.
  replace (h - start) with (S (h - start - 1)) by lia. cbn [seq filter]. rewrite Hc. f_equal.
  destruct (le_lt_dec (start + step) h) as [Hl|Hl].
  - replace (h - start - 1) with ((step - 1) + (h - (start + step))) by lia.
    rewrite filter_seq_skip by (intros r Hr; apply Hs; lia).
    f_equal. f_equal. lia.
  - replace (h - (start + step)) with 0 by lia. cbn [seq filter]. apply filter_false.
    intros x Hx. apply in_seq in Hx. apply Hs. lia.
Qed.

Lemma pass_from_first step c h : c < step -> 0 < step ->
  pass_from step c 0 h = pass_from step c c h.
Proof.
  intros Hc Hs. unfold pass_from. rewrite Nat.sub_0_r.
  destruct (le_lt_dec c h) as [Hl|Hl].
  - replace h with (c + (h - c)) at 1 by lia. rewrite filter_seq_skip; [reflexivity|].
    intros r Hr. rewrite Nat.mod_small by lia. apply Nat.eqb_neq. lia.
  - replace (h - c) with 0 by lia. cbn [seq filter]. apply filter_false.
    intros r Hr. apply in_seq in Hr. rewrite Nat.mod_small by lia. apply Nat.eqb_neq. lia.
Qed.

(** Rows still to come from an iterator state. *)
Definition rows_from (h next pass : nat) : list nat :=
  match pass with
  | 0 => pass_from 8 0 next h ++ pass_from 8 4 4 h ++ pass_from 4 2 2 h ++ pass_from 2 1 1 h
  | 1 => pass_from 8 4 next h ++ pass_from 4 2 2 h ++ pass_from 2 1 1 h
  | 2 => pass_from 4 2 next h ++ pass_from 2 1 1 h
  | 3 => pass_from 2 1 next h
  | _ => []
  end.

Definition phase_ok (next pass : nat) : Prop :=
  match pass with
  | 0 => next mod 8 = 0 | 1 => next mod 8 = 4 | 2 => next mod 4 = 2 | 3 => next mod 2 = 1
  | _ => True
  end.

Ltac Zify.zify_post_hook ::= Z.div_mod_to_equations.

Lemma il_while_stop fuel h n p : n < h -> il_while fuel h n p = Some (n, p).
Proof. intros H. destruct fuel; cbn [il_while]; destruct (Nat.leb_spec h n); try lia; reflexivity. Qed.

Lemma il_while_next fuel h n p m : h <= n -> nth_error [4; 2; 1; 0] p = Some m ->
  il_while (S fuel) h n p = il_while fuel h m (S p).
Proof.
  intros H Hm. cbn [il_while]. destruct (Nat.leb_spec h n); [|lia]. now rewrite Hm.
Qed.

Lemma il_step_spec h next pass :
  0 < h -> pass < 4 -> next < h -> phase_ok next pass ->
  exists next' pass', il_step (mk_il h next pass) = Some (next, mk_il h next' pass') /\
    rows_from h next pass = next :: rows_from h next' pass' /\
    (next' < h) /\ phase_ok next' pass'.
Proof.
  intros Hh Hp Hn Hok. unfold il_step. cbn [il_len il_next il_pass].
  destruct (Nat.eqb_spec h 0) as [|_]; [lia|].
  assert (P0 : forall x, x mod 8 = 0 -> x < h ->
    pass_from 8 0 x h = x :: pass_from 8 0 (x + 8) h).
  { intros x Hx Hxh. apply pass_from_cons; try lia. }
  assert (P1 : forall x, x mod 8 = 4 -> x < h ->
    pass_from 8 4 x h = x :: pass_from 8 4 (x + 8) h).
  { intros x Hx Hxh. apply pass_from_cons; try lia. }
  assert (P2 : forall x, x mod 4 = 2 -> x < h ->
    pass_from 4 2 x h = x :: pass_from 4 2 (x + 4) h).
  { intros x Hx Hxh. apply pass_from_cons; try lia. }
  assert (P3 : forall x, x mod 2 = 1 -> x < h ->
    pass_from 2 1 x h = x :: pass_from 2 1 (x + 2) h).
  { intros x Hx Hxh. apply pass_from_cons; try lia. }
  assert (W3 : forall fuel n, 0 < fuel -> n mod 2 = 1 -> exists n' p', il_while fuel h n 3 = Some (n', p') /\
     pass_from 2 1 n h = rows_from h n' p' /\ n' < h /\ phase_ok n' p').
  { intros fuel n Hfu Hn2. destruct (le_lt_dec h n) as [Hl|Hl].
    - destruct fuel as [|fuel]; [lia|]. exists 0, 4.
      rewrite (il_while_next fuel h n 3 0 Hl eq_refl), il_while_stop by lia.
      cbn [rows_from phase_ok]. rewrite pass_from_end by lia. auto.
    - exists n, 3. rewrite il_while_stop by lia. cbn [rows_from phase_ok]. auto. }
  assert (W2 : forall fuel n, 1 < fuel -> n mod 4 = 2 -> exists n' p', il_while fuel h n 2 = Some (n', p') /\
     pass_from 4 2 n h ++ pass_from 2 1 1 h = rows_from h n' p' /\ n' < h /\ phase_ok n' p').
  { intros fuel n Hfu Hn2. destruct (le_lt_dec h n) as [Hl|Hl].
    - destruct fuel as [|fuel]; [lia|].
      rewrite (il_while_next fuel h n 2 1 Hl eq_refl). rewrite (pass_from_end 4 2 n h) by lia.
      apply W3; [lia|reflexivity].
    - exists n, 2. rewrite il_while_stop by lia. cbn [rows_from phase_ok]. auto. }
  assert (W1 : forall fuel n, 2 < fuel -> n mod 8 = 4 -> exists n' p', il_while fuel h n 1 = Some (n', p') /\
     pass_from 8 4 n h ++ pass_from 4 2 2 h ++ pass_from 2 1 1 h = rows_from h n' p' /\ n' < h /\ phase_ok n' p').
  { intros fuel n Hfu Hn2. destruct (le_lt_dec h n) as [Hl|Hl].
    - destruct fuel as [|fuel]; [lia|].
      rewrite (il_while_next fuel h n 1 2 Hl eq_refl). rewrite (pass_from_end 8 4 n h) by lia.
      apply W2; [lia|reflexivity].
    - exists n, 1. rewrite il_while_stop by lia. cbn [rows_from phase_ok]. auto. }
  assert (W0 : forall fuel n, 3 < fuel -> n mod 8 = 0 -> exists n' p', il_while fuel h n 0 = Some (n', p') /\
     pass_from 8 0 n h ++ pass_from 8 4 4 h ++ pass_from 4 2 2 h ++ pass_from 2 1 1 h = rows_from h n' p' /\ n' < h /\ phase_ok n' p').
  { intros fuel n Hfu Hn2. destruct (le_lt_dec h n) as [Hl|Hl].
    - destruct fuel as [|fuel]; [lia|].
      rewrite (il_while_next fuel h n 0 4 Hl eq_refl). rewrite (pass_from_end 8 0 n h) by lia.
      apply W1; [lia|reflexivity].
    - exists n, 0. rewrite il_while_stop by lia. cbn [rows_from phase_ok]. auto. }
  destruct pass as [|[|[|[|pass]]]]; [| | | |lia]; cbn [nth_error phase_ok] in *; cbn [rows_from].
  - destruct (W0 5 (next + 8)) as (n' & p' & E1 & E2 & E3 & E4); [lia|lia|].
    exists n', p'. rewrite E1, (P0 next Hok Hn). cbn [app]. rewrite E2. auto.
  - destruct (W1 5 (next + 8)) as (n' & p' & E1 & E2 & E3 & E4); [lia|lia|].
    exists n', p'. rewrite E1, (P1 next Hok Hn). cbn [app]. rewrite E2. auto.
  - destruct (W2 5 (next + 4)) as (n' & p' & E1 & E2 & E3 & E4); [lia|lia|].
    exists n', p'. rewrite E1, (P2 next Hok Hn). cbn [app]. rewrite E2. auto.
  - destruct (W3 5 (next + 2)) as (n' & p' & E1 & E2 & E3 & E4); [lia|lia|].
    exists n', p'. rewrite E1, (P3 next Hok Hn). rewrite E2. auto.
Qed.

Lemma il_collect_spec h : forall fuel next pass,
  0 < h -> next < h -> phase_ok next pass ->
  il_collect fuel (mk_il h next pass) = firstn fuel (rows_from h next pass).
Proof.
  induction fuel as [|fuel IH]; intros next pass Hh Hn Hok; [reflexivity|].
  destruct (le_lt_dec 4 pass) as [Hp|Hp].
  - cbn [il_collect]. unfold il_step. cbn [il_len il_next il_pass].
    destruct (h =? 0); [|].
    + do 4 (destruct pass; [lia|]). reflexivity.
    + do 4 (destruct pass; [lia|]). destruct pass; reflexivity.
  - destruct (il_step_spec h next pass Hh Hp Hn Hok) as (n' & p' & E1 & E2 & E3 & E4).
    cbn [il_collect]. rewrite E1, E2. cbn [firstn]. f_equal. apply IH; assumption.
Qed.

Lemma filter_length_split {A} (p q : A -> bool) l :
  (forall x, In x l -> p x = true -> q x = false) ->
  length (filter p l) + length (filter q l) = length (filter (fun x => p x || q x) l).
Proof.
  induction l as [|x l IH]; intros H; [reflexivity|].
  assert (Hl : forall y, In y l -> p y = true -> q y = false) by (intros; apply H; [right|]; assumption).
  specialize (IH Hl). pose proof (H x (or_introl eq_refl)) as Hx. cbn [filter].
  destruct (p x) eqn:Ep, (q x) eqn:Eq; cbn [orb length]; try lia.
Qed.

Lemma gif_row_order_length h : length (gif_row_order h) = h.
Proof.
  unfold gif_row_order. rewrite !app_length.
  rewrite (filter_length_split (fun r => r mod 4 =? 2)) by (intros; lia).
  rewrite (filter_length_split (fun r => r mod 8 =? 4)) by (intros; lia).
  rewrite (filter_length_split (fun r => r mod 8 =? 0)) by (intros; lia).
  rewrite <- (seq_length h 0) at 2. f_equal.
  transitivity (filter (fun _ => true) (seq 0 h)).
  - apply filter_ext. intros a. lia.
  - clear. induction (seq 0 h) as [|x l IH]; [reflexivity|]. cbn [filter]. now rewrite IH.
Qed.

Lemma il_collect_order n fuel : n <= fuel -> il_collect fuel (mk_il n 0 0) = gif_row_order n.
Proof.
  intros Hf. destruct n as [|n]; [destruct fuel; reflexivity|].
  rewrite il_collect_spec; [|lia|lia|reflexivity].
  assert (E : rows_from (S n) 0 0 = gif_row_order (S n)).
  { cbn [rows_from]. unfold gif_row_order.
    rewrite <- (pass_from_first 8 4), <- (pass_from_first 4 2), <- (pass_from_first 2 1) by lia.
    unfold pass_from. now rewrite !Nat.sub_0_r. }
  rewrite E. apply firstn_all2. rewrite gif_row_order_length. exact Hf.
Qed.
Theorem interlace_rows_order h : interlace_rows h = gif_row_order (N.to_nat h).
Proof. unfold interlace_rows. apply il_collect_order. lia. Qed.

(** The inner loop of the iterator ends within the tables. *)
Lemma il_while_total h n p : 0 < h -> p < 4 -> exists x, il_while 5 h n p = Some x.
Proof.
  intros Hh Hp.
  assert (W3 : forall f k, exists x, il_while (S f) h k 3 = Some x).
  { intros f k. destruct (le_lt_dec h k); [|rewrite il_while_stop by lia; eauto].
    rewrite (il_while_next f h k 3 0) by (try assumption; reflexivity). rewrite il_while_stop by lia. eauto. }
  assert (W2 : forall f k, exists x, il_while (S (S f)) h k 2 = Some x).
  { intros f k. destruct (le_lt_dec h k); [|rewrite il_while_stop by lia; eauto].
    rewrite (il_while_next (S f) h k 2 1) by (try assumption; reflexivity). apply W3. }
  assert (W1 : forall f k, exists x, il_while (S (S (S f))) h k 1 = Some x).
  { intros f k. destruct (le_lt_dec h k); [|rewrite il_while_stop by lia; eauto].
    rewrite (il_while_next (S (S f)) h k 1 2) by (try assumption; reflexivity). apply W2. }
  destruct p as [|[|[|[|p]]]]; [|apply W1|apply W2|apply W3|lia].
  destruct (le_lt_dec h n); [|rewrite il_while_stop by lia; eauto].
  rewrite (il_while_next 4 h n 0 4) by (try assumption; reflexivity). apply W1.
Qed.

Lemma gif_row_order_in h r : In r (gif_row_order h) <-> r < h.
Proof.
  unfold gif_row_order. rewrite !in_app_iff, !filter_In, !in_seq. lia.
Qed.

Lemma NoDup_filter_seq p a n : NoDup (filter p (seq a n)).
Proof. apply NoDup_filter, seq_NoDup. Qed.

Lemma NoDup_app' {A} (l m : list A) : NoDup l -> NoDup m -> (forall x, In x l -> In x m -> False) ->
  NoDup (l ++ m).
Proof.
  induction l as [|x l IH]; intros H1 H2 H3; [exact H2|]. inversion H1 as [|? ? Hx Hl]; subst.
  cbn [app]. constructor.
  - rewrite in_app_iff. intros [H|H]; [contradiction|]. eapply H3; [left; reflexivity|exact H].
  - apply IH; auto. intros y Hy Hy2. eapply H3; [right; exact Hy|exact Hy2].
Qed.

Lemma gif_row_order_nodup h : NoDup (gif_row_order h).
Proof.
  unfold gif_row_order.
  repeat (apply NoDup_app'; [apply NoDup_filter_seq| |]);
    try apply NoDup_filter_seq;
    intros x; rewrite ?in_app_iff, ?filter_In, ?in_seq; lia.
Qed.

(** Consecutive rows never jump ahead of the rows already visited by more than 8. *)
Fixpoint rows_close (m : nat) (rows : list nat) : Prop :=
  match rows with
  | [] => True
  | r :: rs => r <= m + 8 /\ rows_close (Nat.max m r) rs
  end.

Lemma rows_close_app m l1 l2 : rows_close m l1 -> rows_close (fold_left Nat.max l1 m) l2 ->
  rows_close m (l1 ++ l2).
Proof.
  revert m. induction l1 as [|x l1 IH]; intros m H1 H2; [exact H2|].
  destruct H1 as [H1 H1']. split; [exact H1|]. apply IH; assumption.
Qed.

Lemma rows_close_all m l : (forall r, In r l -> r <= m + 8) -> rows_close m l.
Proof.
  revert m. induction l as [|x l IH]; intros m H; [exact I|]. split.
  - apply H. left. reflexivity.
  - apply IH. intros r Hr. pose proof (H r (or_intror Hr)). lia.
Qed.

Lemma fold_max_ge l : forall m, m <= fold_left Nat.max l m.
Proof.
  induction l as [|x l IH]; intros m; [cbn; lia|]. cbn [fold_left]. specialize (IH (Nat.max m x)). lia.
Qed.
Lemma fold_max_in l : forall m r, In r l -> r <= fold_left Nat.max l m.
Proof.
  induction l as [|x l IH]; intros m r H; [easy|]. cbn [fold_left]. destruct H as [->|H].
  - pose proof (fold_max_ge l (Nat.max m r)). lia.
  - now apply IH.
Qed.

Lemma pass0_close h : forall k start m, (h - start <= k)%nat -> start mod 8 = 0 -> start <= m + 8 ->
  rows_close m (pass_from 8 0 start h).
Proof.
  induction k as [|k IH]; intros start m Hk Hs Hm.
  - rewrite pass_from_end by lia. exact I.
  - destruct (le_lt_dec h start) as [Hl|Hl]; [rewrite pass_from_end by lia; exact I|].
    rewrite pass_from_cons by (try intros; lia). split; [exact Hm|]. apply IH; lia.
Qed.

Lemma gif_row_order_close h : rows_close 0 (gif_row_order h).
Proof.
  unfold gif_row_order. apply rows_close_app.
  - replace (filter (fun r => r mod 8 =? 0) (seq 0 h)) with (pass_from 8 0 0 h)
      by (unfold pass_from; now rewrite Nat.sub_0_r).
    apply (pass0_close h h); [lia|reflexivity|lia].
  - apply rows_close_all. intros r Hr.
    assert (Hrh : r < h). { rewrite !in_app_iff, !filter_In, !in_seq in Hr. lia. }
    assert (Hin : In (8 * (r / 8)) (filter (fun r => r mod 8 =? 0) (seq 0 h))).
    { apply filter_In. rewrite in_seq. lia. }
    apply (fold_max_in _ 0) in Hin. lia.
Qed.

Lemma interlace_rows_close h : rows_close 0 (interlace_rows h).
Proof. rewrite interlace_rows_order. apply gif_row_order_close. Qed.
