(** Frame constructors of src/common.rs. *)
From Verif Require Import Base SpecPixels Common.
From Coq Require Import Permutation Sorting.Sorted.
Open Scope N_scope.

(** ** Specification *)

(** Pixels as quadruples, read off the byte list directly. *)
Definition px_at (px : list N) (k : nat) : rgba :=
  (nth (4 * k) px 0, nth (4 * k + 1) px 0, nth (4 * k + 2) px 0, nth (4 * k + 3) px 0).
Definition alpha (p : rgba) : N := let '(_, _, _, a) := p in a.
(** Partly transparent pixels count as opaque. *)
Definition flat (p : rgba) : rgba := let '(r, g, b, a) := p in if a =? 0 then p else (r, g, b, 255).
Definition rgba_list (p : rgba) : list N := let '(r, g, b, a) := p in [r; g; b; a].
(** At most [n] different pixel values occur among the first [m] pixels. *)
Definition few_colors (n : nat) (px : list N) (m : nat) : Prop :=
  exists cs, (length cs <= n)%nat /\ forall k, (k < m)%nat -> In (flat (px_at px k)) cs.
(** All fully transparent pixels have the same colour. *)
Definition one_transparent (px : list N) (m : nat) : Prop :=
  forall i j, (i < m)%nat -> (j < m)%nat -> alpha (px_at px i) = 0 -> alpha (px_at px j) = 0 -> px_at px i = px_at px j.

(** ** Lists of colours *)

Lemma rgba_eqb_eq x y : rgba_eqb x y = true <-> x = y.
Proof.
  destruct x as [[[a b] c] d], y as [[[a' b'] c'] d']. unfold rgba_eqb. rewrite !andb_true_iff, !N.eqb_eq.
  split; [intros [[[-> ->] ->] ->]; reflexivity|intros [= -> -> -> ->]; auto].
Qed.
Lemma mem_rgba_in p l : mem_rgba p l = true <-> In p l.
Proof.
  unfold mem_rgba. rewrite existsb_exists. split.
  - intros (x & Hx & E). apply rgba_eqb_eq in E. now subst.
  - intros H. exists p. split; [exact H|now apply rgba_eqb_eq].
Qed.
Lemma color_set_spec ps : forall acc, NoDup acc ->
  let cs := fold_left (fun acc p => if mem_rgba p acc then acc else p :: acc) ps acc in
  NoDup cs /\ forall x, In x cs <-> In x acc \/ In x ps.
Proof.
  induction ps as [|p ps IH]; intros acc Hn; cbn [fold_left].
  - split; [exact Hn|]. intros x. cbn [In]. tauto.
  - destruct (mem_rgba p acc) eqn:E.
    + destruct (IH acc Hn) as [A B]. split; [exact A|]. intros x. rewrite B. apply mem_rgba_in in E.
      cbn [In]. split; [tauto|]. intros [H|[<-|H]]; auto.
    + destruct (IH (p :: acc)) as [A B].
      { constructor; [|exact Hn]. intros H. apply mem_rgba_in in H. congruence. }
      split; [exact A|]. intros x. rewrite B. cbn [In]. tauto.
Qed.
Lemma color_set_nodup ps : NoDup (color_set ps).
Proof. apply (color_set_spec ps []). constructor. Qed.
Lemma color_set_in ps x : In x (color_set ps) <-> In x ps.
Proof. destruct (color_set_spec ps [] (NoDup_nil _)) as [_ H]. unfold color_set. rewrite H. cbn [In]. tauto. Qed.

Lemma insert_perm p l : Permutation (insert_rgba p l) (p :: l).
Proof.
  induction l as [|q l IH]; [reflexivity|]. cbn [insert_rgba]. destruct (rgba_leb p q); [reflexivity|].
  rewrite IH. apply perm_swap.
Qed.
Lemma sort_perm l : Permutation (sort_rgba l) l.
Proof.
  induction l as [|p l IH]; [reflexivity|]. cbn [sort_rgba fold_right].
  change (fold_right insert_rgba [] l) with (sort_rgba l). rewrite insert_perm. now constructor.
Qed.

Lemma index_of_from_spec p l : forall i, In p l -> i + N.of_nat (length l) <= 256 ->
  exists k, index_of_from i p l = Some (i + N.of_nat k) /\ (k < length l)%nat /\ nth k l (0, 0, 0, 0) = p.
Proof.
  induction l as [|q l IH]; intros i Hin Hl; [easy|]. cbn [index_of_from length] in *.
  destruct (N.ltb_spec 255 i); [lia|]. destruct (rgba_eqb p q) eqn:E.
  - apply rgba_eqb_eq in E. subst q. exists O. rewrite N.add_0_r. split; [reflexivity|]. split; [lia|reflexivity].
  - destruct Hin as [->|Hin]; [rewrite (proj2 (rgba_eqb_eq p p) eq_refl) in E; discriminate|].
    destruct (IH (i + 1) Hin) as (k & E1 & E2 & E3); [lia|]. exists (S k). rewrite E1. split; [f_equal; lia|].
    split; [lia|exact E3].
Qed.
Lemma index_of_spec cols p : In p cols -> (length cols <= 256)%nat ->
  exists k, index_of cols p = N.of_nat k /\ (k < length cols)%nat /\ nth k cols (0, 0, 0, 0) = p.
Proof.
  intros Hin Hl. destruct (index_of_from_spec p cols 0 Hin) as (k & E & Hk & En); [lia|].
  exists k. unfold index_of. rewrite E. auto.
Qed.
Lemma index_of_inj cols p q : In p cols -> In q cols -> (length cols <= 256)%nat -> index_of cols p = index_of cols q -> p = q.
Proof.
  intros Hp Hq Hl E. destruct (index_of_spec cols p Hp Hl) as (k & A & _ & B). destruct (index_of_spec cols q Hq Hl) as (k' & A' & _ & B').
  rewrite A, A' in E. apply Nat2N.inj in E. congruence.
Qed.

(** The palette bytes of a list of colours. *)
Notation pal_bytes := (flat_map (fun '(r, g, b, _) => [r; g; b])).
Lemma pal_bytes_length (cols : list rgba) : length (pal_bytes cols) = (3 * length cols)%nat.
Proof. induction cols as [|[[[r g] b] a] cols IH]; [reflexivity|]. cbn [flat_map length app]. rewrite IH. lia. Qed.
Lemma pal_bytes_nth (cols : list rgba) : forall k j, (j < 3)%nat -> (k < length cols)%nat ->
  nth (3 * k + j) (pal_bytes cols) 0 = nth j (let '(r, g, b, _) := nth k cols (0, 0, 0, 0) in [r; g; b]) 0.
Proof.
  induction cols as [|[[[r g] b] a] cols IH]; intros k j Hj Hk; [cbn [length] in Hk; lia|]. cbn [flat_map]. cbv beta iota.
  destruct k as [|k].
  - rewrite app_nth1 by (cbn [length]; lia). replace (3 * 0 + j)%nat with j by lia. reflexivity.
  - rewrite app_nth2 by (cbn [length]; lia). cbn [nth length]. replace (3 * S k + j - 3)%nat with (3 * k + j)%nat by lia.
    apply IH; [exact Hj|cbn [length] in Hk; lia].
Qed.

(** ** Pixels *)
Lemma chunks4_length_le n : forall l, (length l <= n)%nat -> length (chunks4 l) = (length l / 4)%nat.
Proof.
  induction n as [|n IH]; intros l H.
  - destruct l; [reflexivity|cbn [length] in H; lia].
  - destruct l as [|a [|b [|c [|d l]]]]; try reflexivity. cbn [chunks4 length] in *. rewrite IH by lia.
    replace (S (S (S (S (length l))))) with (1 * 4 + length l)%nat by lia. rewrite Nat.div_add_l by lia. lia.
Qed.
Lemma chunks4_length l : length (chunks4 l) = (length l / 4)%nat.
Proof. exact (chunks4_length_le _ l (le_n _)). Qed.
Lemma chunks4_nth : forall k l, (4 * k + 3 < length l)%nat -> nth k (chunks4 l) (0, 0, 0, 0) = px_at l k.
Proof.
  induction k as [|k IH]; intros l Hk; destruct l as [|a [|b [|c [|d l]]]]; cbn [length] in Hk; try lia; [reflexivity|].
  cbn [chunks4 nth]. rewrite IH by lia. unfold px_at. replace (4 * S k)%nat with (S (S (S (S (4 * k))))) by lia. reflexivity.
Qed.
Lemma norm_flat p : norm_alpha p = flat p.
Proof. destruct p as [[[r g] b] a]. unfold norm_alpha, flat. destruct (a =? 0); reflexivity. Qed.

Lemma last_transparent_spec ps : forall acc,
  let t := fold_left (fun acc (p : rgba) => let '(r, g, b, a) := p in if a =? 0 then Some (r, g, b, a) else acc) ps acc in
  match t with
  | Some p => (In p ps /\ alpha p = 0) \/ (t = acc /\ forall q, In q ps -> alpha q <> 0)
  | None => acc = None /\ forall q, In q ps -> alpha q <> 0
  end.
Proof.
  induction ps as [|[[[r g] b] a] ps IH]; intros acc; cbn [fold_left].
  - destruct acc; [right|]; (split; [reflexivity|intros q []]).
  - set (acc1 := if a =? 0 then Some (r, g, b, a) else acc). specialize (IH acc1). cbn zeta in *.
    destruct (fold_left _ ps acc1) as [p|]; subst acc1.
    + destruct IH as [[H1 H2]|[H1 H2]]; [left; split; [now right|exact H2]|].
      destruct (N.eqb_spec a 0) as [->|Ha].
      * injection H1 as ->. left. split; [now left|reflexivity].
      * right. split; [exact H1|]. intros q [<-|Hq]; [exact Ha|now apply H2].
    + destruct IH as [H1 H2]. destruct (N.eqb_spec a 0) as [->|Ha]; [discriminate H1|].
      split; [exact H1|]. intros q [<-|Hq]; [exact Ha|now apply H2].
Qed.

(** The last fully transparent pixel, if any. *)
Definition marked (px : list N) (m : nat) (t : option rgba) : Prop :=
  match t with
  | Some p => exists k, (k < m)%nat /\ px_at px k = p /\ alpha p = 0
  | None => forall k, (k < m)%nat -> alpha (px_at px k) <> 0
  end.

Section C.
Variable px : list N.
Variable m : nat.
Hypothesis Hm : length px = (4 * m)%nat.
Lemma ps_length : length (chunks4 px) = m.
Proof. rewrite chunks4_length, Hm, Nat.mul_comm, Nat.div_mul; lia. Qed.
Lemma ps_in p : In p (chunks4 px) <-> exists k, (k < m)%nat /\ px_at px k = p.
Proof.
  split.
  - intros H. destruct (In_nth _ _ (0, 0, 0, 0) H) as (k & Hk & E).
    change (k < length (chunks4 px))%nat in Hk. rewrite ps_length in Hk. exists k. split; [exact Hk|]. rewrite <- E. symmetry. apply chunks4_nth. lia.
  - intros (k & Hk & <-). rewrite <- chunks4_nth by lia. apply nth_In. rewrite ps_length. exact Hk.
Qed.
Lemma marked_last : marked px m (last_transparent (chunks4 px)).
Proof.
  pose proof (last_transparent_spec (chunks4 px) None) as H. unfold last_transparent. cbn zeta in H.
  destruct (fold_left _ _ None) as [p|]; cbn [marked].
  - destruct H as [[H1 H2]|[H1 _]]; [|discriminate H1]. apply ps_in in H1. destruct H1 as (k & Hk & E). exists k. auto.
  - intros k Hk. apply H. apply ps_in. exists k. auto.
Qed.
Lemma cols_few : few_colors 256 px m <-> (length (color_set (map norm_alpha (chunks4 px))) <= 256)%nat.
Proof.
  assert (Hin : forall x, In x (color_set (map norm_alpha (chunks4 px))) <-> exists k, (k < m)%nat /\ flat (px_at px k) = x).
  { intros x. rewrite color_set_in, in_map_iff. split.
    - intros (p & E & Hp). apply ps_in in Hp. destruct Hp as (k & Hk & <-). exists k. rewrite <- E, norm_flat. auto.
    - intros (k & Hk & <-). exists (px_at px k). rewrite norm_flat. split; [reflexivity|]. apply ps_in. exists k. auto. }
  split.
  - intros (cs & Hl & Hc). etransitivity; [|exact Hl]. apply NoDup_incl_length; [apply color_set_nodup|].
    intros x Hx. apply Hin in Hx. destruct Hx as (k & Hk & <-). now apply Hc.
  - intros Hl. eexists. split; [exact Hl|]. intros k Hk. apply Hin. exists k. auto.
Qed.
End C.

(** [from_rgba_speed] panics exactly on bad arguments. *)
Theorem from_rgba_panics q w h px speed :
  from_rgba_speed q w h px speed = None <-> len px <> w * h * 4 \/ ~ (1 <= speed <= 30)%Z.
Proof.
  unfold from_rgba_speed. destruct (N.eqb_spec (w * h * 4) (len px)) as [E|E]; cbn [negb].
  2:{ split; [intros _; left; congruence|reflexivity]. }
  destruct (Z.leb_spec 1 speed), (Z.leb_spec speed 30); cbn [andb negb].
  - split; [|intros [H1|H1]; [congruence|lia]]. destruct (256 <? _); discriminate.
  - split; [intros _; right; lia|reflexivity].
  - split; [intros _; right; lia|reflexivity].
  - split; [intros _; right; lia|reflexivity].
Qed.

(** With at most 256 colours every pixel keeps its colour; it is transparent iff it has the colour
    that was marked, that of one of the fully transparent pixels. *)
Theorem from_rgba_exact q w h px speed ps f :
  from_rgba_speed q w h px speed = Some (ps, f) -> few_colors 256 px (N.to_nat (w * h)) ->
  f = mk_frame 0 DKeep (f_transparent f) false 0 0 w h false (f_palette f) (f_buffer f) /\
  len (f_buffer f) = w * h /\
  exists pal t, f_palette f = Some pal /\ (length pal <= 768)%nat /\ marked px (N.to_nat (w * h)) t /\
    (t = None <-> f_transparent f = None) /\
    forall k, (k < N.to_nat (w * h))%nat ->
      let '(r, g, b, a) := px_at px k in
      rgba_of pal (f_transparent f) (nth k (f_buffer f) 0) =
        Some [r; g; b; if match t with Some p => rgba_eqb p (px_at px k) | None => false end then 0 else 255].
Proof.
  intros H Hf. unfold from_rgba_speed in H. destruct (N.eqb_spec (w * h * 4) (len px)) as [E|]; [|discriminate H].
  cbn [negb] in H. destruct (negb _); [discriminate H|]. cbn zeta in H. set (m := N.to_nat (w * h)) in *.
  assert (Hm : length px = (4 * m)%nat) by (unfold m, len in *; lia).
  apply (cols_few px m Hm) in Hf. destruct (N.ltb_spec 256 (N.of_nat (length (color_set (map norm_alpha (chunks4 px)))))); [lia|].
  injection H as <- <-. cbn [f_transparent f_palette f_buffer].
  set (cols := sort_rgba (color_set (map norm_alpha (chunks4 px)))).
  assert (Hl : (length cols <= 256)%nat) by (unfold cols; rewrite (Permutation_length (sort_perm _)); exact Hf).
  assert (Hin : forall k, (k < m)%nat -> In (flat (px_at px k)) cols).
  { intros k Hk. unfold cols. apply (Permutation_in _ (Permutation_sym (sort_perm _))), color_set_in, in_map_iff.
    exists (px_at px k). rewrite norm_flat. split; [reflexivity|]. apply (ps_in px m Hm). exists k. auto. }
  split; [reflexivity|]. split; [unfold len; rewrite !map_length, (ps_length px m Hm); unfold m; lia|].
  exists (pal_bytes cols), (last_transparent (chunks4 px)). split; [reflexivity|].
  split; [rewrite pal_bytes_length; lia|]. split; [exact (marked_last px m Hm)|].
  split; [destruct (last_transparent _); cbn [option_map]; split; congruence|].
  intros k Hk. rewrite map_map.
  rewrite (nth_indep _ 0 (index_of cols (norm_alpha (0, 0, 0, 0)))) by (rewrite map_length, (ps_length px m Hm); exact Hk).
  rewrite (map_nth (fun x => index_of cols (norm_alpha x))), chunks4_nth, norm_flat by lia.
  pose proof (Hin k Hk) as Hk1. destruct (index_of_spec cols _ Hk1 Hl) as (i & Ei & Hi & En).
  pose proof (marked_last px m Hm) as Hmk.
  assert (Ht : match option_map (index_of cols) (last_transparent (chunks4 px)) with
               | Some t => if t =? index_of cols (flat (px_at px k)) then 0 else 255 | None => 255 end
             = if match last_transparent (chunks4 px) with Some p => rgba_eqb p (px_at px k) | None => false end then 0 else 255).
  { destruct (last_transparent (chunks4 px)) as [p|]; cbn [option_map]; [|reflexivity].
    cbn [marked] in Hmk. destruct Hmk as (j & Hj & Ej & Ea).
    assert (Ef : flat p = p) by (destruct p as [[[r g] b] a]; cbn [alpha] in Ea; subst a; reflexivity).
    pose proof (Hin j Hj) as Hj1. rewrite Ej, Ef in Hj1.
    assert (Hiff : index_of cols p =? index_of cols (flat (px_at px k)) = rgba_eqb p (px_at px k)).
    { apply eq_true_iff_eq. rewrite N.eqb_eq, rgba_eqb_eq. split.
      - intros Hi1. apply index_of_inj in Hi1; [|exact Hj1|exact Hk1|exact Hl].
        destruct (px_at px k) as [[[r g] b] a], p as [[[r' g'] b'] a']. cbn [alpha] in Ea. subst a'.
        unfold flat in Hi1. destruct (N.eqb_spec a 0); congruence.
      - intros <-. now rewrite Ef. }
    now rewrite Hiff. }
  destruct (px_at px k) as [[[r g] b] a] eqn:Ep. unfold rgba_of. rewrite Ei in Ht |- *. rewrite Nat2N.id.
  destruct (Nat.leb_spec (3 * S i) (length (pal_bytes cols))) as [Hle|Hle]; [|rewrite pal_bytes_length in Hle; lia].
  rewrite !pal_bytes_nth, En by lia. f_equal. rewrite Ht. unfold flat. destruct (a =? 0); reflexivity.
Qed.
(** The same without the comparison of the model. *)
Theorem from_rgba_colors q w h px speed ps f :
  from_rgba_speed q w h px speed = Some (ps, f) -> few_colors 256 px (N.to_nat (w * h)) ->
  f = mk_frame 0 DKeep (f_transparent f) false 0 0 w h false (f_palette f) (f_buffer f) /\
  len (f_buffer f) = w * h /\
  exists pal t, f_palette f = Some pal /\ (length pal <= 768)%nat /\ marked px (N.to_nat (w * h)) t /\
    (t = None <-> f_transparent f = None) /\
    forall k, (k < N.to_nat (w * h))%nat -> let '(r, g, b, _) := px_at px k in
      exists a, rgba_of pal (f_transparent f) (nth k (f_buffer f) 0) = Some [r; g; b; a] /\
        (t = Some (px_at px k) -> a = 0) /\ (t <> Some (px_at px k) -> a = 255).
Proof.
  intros H Hf. destruct (from_rgba_exact _ _ _ _ _ _ _ H Hf) as (A & B & pal & t & Ep & Hl & Hm & Ht & Hk).
  split; [exact A|]. split; [exact B|]. exists pal, t. split; [exact Ep|]. split; [exact Hl|]. split; [exact Hm|]. split; [exact Ht|].
  intros k Hlt. specialize (Hk k Hlt). destruct (px_at px k) as [[[r g] b] a0]. eexists. split; [exact Hk|].
  destruct t as [p|]; [|split; [discriminate|reflexivity]]. destruct (rgba_eqb p (r, g, b, a0)) eqn:E.
  - apply rgba_eqb_eq in E. subst p. split; [reflexivity|congruence].
  - split; [|reflexivity]. intros [= ->]. now rewrite (proj2 (rgba_eqb_eq _ _) eq_refl) in E.
Qed.

(** If all fully transparent pixels have the same colour, alpha is kept as well. *)
Theorem from_rgba_alpha q w h px speed ps f :
  from_rgba_speed q w h px speed = Some (ps, f) -> few_colors 256 px (N.to_nat (w * h)) -> one_transparent px (N.to_nat (w * h)) ->
  exists pal, f_palette f = Some pal /\
  forall k, (k < N.to_nat (w * h))%nat ->
    rgba_of pal (f_transparent f) (nth k (f_buffer f) 0) = Some (rgba_list (flat (px_at px k))).
Proof.
  intros H Hf Ho. destruct (from_rgba_exact _ _ _ _ _ _ _ H Hf) as (_ & _ & pal & t & Ep & _ & Hmk & _ & Hk).
  exists pal. split; [exact Ep|]. intros k Hlt. specialize (Hk k Hlt).
  destruct (px_at px k) as [[[r g] b] a] eqn:E. rewrite Hk. f_equal.
  assert (Ha : match t with Some p => rgba_eqb p (r, g, b, a) | None => false end = (a =? 0)).
  { destruct t as [p|]; cbn [marked] in Hmk.
    - destruct Hmk as (j & Hj & Ej & Ea). apply eq_true_iff_eq. rewrite rgba_eqb_eq, N.eqb_eq. split.
      + intros ->. exact Ea.
      + intros ->. rewrite <- Ej, <- E. apply Ho; try assumption; [now rewrite Ej|now rewrite E].
    - symmetry. apply N.eqb_neq. specialize (Hmk k Hlt). now rewrite E in Hmk. }
  rewrite Ha. unfold flat. destruct (N.eqb_spec a 0) as [->|]; reflexivity.
Qed.

(** The caller's pixel buffer is left with alpha 0 or 255. *)
Theorem from_rgba_buffer q w h px speed ps f : from_rgba_speed q w h px speed = Some (ps, f) ->
  length ps = N.to_nat (w * h) /\
  forall k, (k < N.to_nat (w * h))%nat -> nth k ps (0, 0, 0, 0) = flat (px_at px k).
Proof.
  intros H. assert (E : len px = w * h * 4).
  { destruct (N.eq_dec (len px) (w * h * 4)) as [E|E]; [exact E|]. exfalso.
    rewrite (proj2 (from_rgba_panics q w h px speed) (or_introl E)) in H. discriminate H. }
  assert (Hps : ps = map norm_alpha (chunks4 px)).
  { unfold from_rgba_speed in H. destruct (negb _); [discriminate H|]. destruct (negb _); [discriminate H|].
    destruct (256 <? _); injection H as <- _; reflexivity. }
  assert (Hm : length px = (4 * N.to_nat (w * h))%nat) by (unfold len in E; lia).
  subst ps. rewrite map_length, (ps_length px _ Hm). split; [reflexivity|]. intros k Hk.
  change (0, 0, 0, 0) with (norm_alpha (0, 0, 0, 0)). rewrite map_nth, chunks4_nth by lia. apply norm_flat.
Qed.

(** *** [from_rgb] *)
Definition rgb_at (px : list N) (k : nat) : N * N * N := (nth (3 * k) px 0, nth (3 * k + 1) px 0, nth (3 * k + 2) px 0).
Notation opaque := (flat_map (fun '(r, g, b) => [r; g; b; 0xFF])).

Lemma opaque_length l : length (opaque (chunks3 l)) = (4 * (length l / 3))%nat.
Proof.
  remember (length l) as n eqn:En. assert (Hn : (length l <= n)%nat) by lia. rewrite En. clear En.
  revert l Hn. induction n as [|n IH]; intros l Hn.
  - destruct l; [reflexivity|cbn [length] in Hn; lia].
  - destruct l as [|a [|b [|c l]]]; try reflexivity. cbn [chunks3 flat_map app length] in *. rewrite IH by lia.
    replace (S (S (S (length l)))) with (1 * 3 + length l)%nat by lia. rewrite Nat.div_add_l by lia. lia.
Qed.
Lemma opaque_px_at : forall k l, (3 * k + 2 < length l)%nat ->
  px_at (opaque (chunks3 l)) k = (let '(r, g, b) := rgb_at l k in (r, g, b, 255)).
Proof.
  induction k as [|k IH]; intros l Hk; destruct l as [|a [|b [|c l]]]; cbn [length] in Hk; try lia; [reflexivity|].
  cbn [chunks3 flat_map app]. specialize (IH l ltac:(lia)). unfold px_at, rgb_at in *.
  replace (4 * S k)%nat with (S (S (S (S (4 * k))))) by lia. replace (3 * S k)%nat with (S (S (S (3 * k)))) by lia.
  exact IH.
Qed.

Definition few_rgb (n : nat) (px : list N) (m : nat) : Prop :=
  exists cs, (length cs <= n)%nat /\ forall k, (k < m)%nat -> In (rgb_at px k) cs.

Theorem from_rgb_panics q w h px speed :
  from_rgb_speed q w h px speed = None <-> len px <> w * h * 3 \/ ~ (1 <= speed <= 30)%Z.
Proof.
  unfold from_rgb_speed. destruct (N.eqb_spec (w * h * 3) (len px)) as [E|E]; cbn [negb].
  2:{ split; [intros _; left; congruence|reflexivity]. }
  pose proof (from_rgba_panics q w h (opaque (chunks3 px)) speed) as H.
  assert (El : len (opaque (chunks3 px)) = w * h * 4).
  { unfold len. rewrite opaque_length. unfold len in E. replace (length px) with (N.to_nat (w * h) * 3)%nat by lia.
    rewrite Nat.div_mul by lia. lia. }
  destruct (from_rgba_speed _ _ _ _ _) as [[ps f]|]; cbn [option_map].
  - split; [discriminate|]. intros [Hn|Hn]; [congruence|]. exfalso.
    assert (Hx : Some (ps, f) = None) by (apply H; now right). discriminate Hx.
  - split; [|reflexivity]. intros _. destruct (proj1 H eq_refl) as [Hn|Hn]; [congruence|now right].
Qed.

Theorem from_rgb_exact q w h px speed f :
  from_rgb_speed q w h px speed = Some f -> few_rgb 256 px (N.to_nat (w * h)) ->
  f = mk_frame 0 DKeep None false 0 0 w h false (f_palette f) (f_buffer f) /\ len (f_buffer f) = w * h /\
  exists pal, f_palette f = Some pal /\ (length pal <= 768)%nat /\
  forall k, (k < N.to_nat (w * h))%nat ->
    let '(r, g, b) := rgb_at px k in rgba_of pal None (nth k (f_buffer f) 0) = Some [r; g; b; 255].
Proof.
  intros H Hf. unfold from_rgb_speed in H. destruct (N.eqb_spec (w * h * 3) (len px)) as [E|E]; [|discriminate H]. cbn [negb] in H.
  destruct (from_rgba_speed q w h (opaque (chunks3 px)) speed) as [[ps f']|] eqn:E1; [|discriminate H].
  injection H as ->. unfold len in E.
  assert (Hat : forall k, (k < N.to_nat (w * h))%nat -> px_at (opaque (chunks3 px)) k = (let '(r, g, b) := rgb_at px k in (r, g, b, 255))).
  { intros k Hk. apply opaque_px_at. lia. }
  destruct (from_rgba_exact _ _ _ _ _ _ _ E1) as (A & B & pal & t & Ep & Hl & Hmk & Ht & Hk).
  { destruct Hf as (cs & Hl & Hc). exists (map (fun '(r, g, b) => (r, g, b, 255)) cs). split; [now rewrite map_length|].
    intros k Hk. rewrite Hat by exact Hk. apply in_map_iff. exists (rgb_at px k). split; [|now apply Hc].
    destruct (rgb_at px k) as [[r g] b]. reflexivity. }
  assert (Et : t = None).
  { destruct t as [p|]; [|reflexivity]. cbn [marked] in Hmk. destruct Hmk as (k & Hk1 & Ek & Ea). rewrite Hat in Ek by exact Hk1.
    destruct (rgb_at px k) as [[r g] b]. subst p. discriminate Ea. }
  pose proof (proj1 Ht Et) as En. rewrite En in A. split; [exact A|]. split; [exact B|]. exists pal. split; [exact Ep|]. split; [exact Hl|].
  intros k Hk1. specialize (Hk k Hk1). rewrite Hat in Hk by exact Hk1. destruct (rgb_at px k) as [[r g] b].
  rewrite En in Hk. rewrite Et in Hk. exact Hk.
Qed.

(** *** Indexed constructors *)
Theorem from_palette_pixels_spec w h px pal t :
  (from_palette_pixels w h px pal t = None <-> len px <> w * h \/ 768 < len pal) /\
  forall f, from_palette_pixels w h px pal t = Some f -> f = mk_frame 0 DKeep t false 0 0 w h false (Some pal) px.
Proof.
  unfold from_palette_pixels. destruct (N.eqb_spec (w * h) (len px)) as [E|E]; cbn [negb].
  2:{ split; [split; [intros _; left; congruence|reflexivity]|discriminate]. }
  change (256 * 3) with 768. destruct (N.leb_spec (len pal) 768); cbn [negb].
  - split; [split; [discriminate|intros [H1|H1]; [congruence|lia]]|]. now intros f [= <-].
  - split; [split; [intros _; now right|reflexivity]|discriminate].
Qed.
Theorem from_indexed_pixels_spec w h px t :
  (from_indexed_pixels w h px t = None <-> len px <> w * h) /\
  forall f, from_indexed_pixels w h px t = Some f -> f = mk_frame 0 DKeep t false 0 0 w h false None px.
Proof.
  unfold from_indexed_pixels. destruct (N.eqb_spec (w * h) (len px)) as [E|E]; cbn [negb].
  - split; [split; [discriminate|congruence]|]. now intros f [= <-].
  - split; [split; [intros _; congruence|reflexivity]|discriminate].
Qed.
