(** The true-colour constructors of src/common.rs in detail: which palette is built, which entry is transparent, and what
    happens with more than 256 colours. *)
From Verif Require Import Base SpecPixels Common FrameProps.
From Coq Require Import Permutation Sorting.Sorted.
Open Scope N_scope.

(** ** Specification *)
(** Red counts most, alpha least. *)
Definition color_lt (p q : rgba) : Prop :=
  let '(r, g, b, a) := p in let '(r', g', b', a') := q in
  r < r' \/ (r = r' /\ (g < g' \/ (g = g' /\ (b < b' \/ (b = b' /\ a < a'))))).
(** The pixels after alpha was made 0 or 255. *)
Definition flat_pixels (px : list N) (m : nat) : list rgba := map (fun k => flat (px_at px k)) (seq 0 m).
(** The last fully transparent pixel, if there is one. *)
Definition last_clear (px : list N) (m : nat) (t : option rgba) : Prop :=
  match t with
  | Some p => exists k, (k < m)%nat /\ px_at px k = p /\ alpha p = 0 /\ forall j, (k < j < m)%nat -> alpha (px_at px j) <> 0
  | None => forall k, (k < m)%nat -> alpha (px_at px k) <> 0
  end.
Definition rgb_list (p : rgba) : list N := let '(r, g, b, _) := p in [r; g; b].
(** RGB pixels with an alpha of 255. *)
Definition with_alpha (px : list N) (m : nat) : list N :=
  flat_map (fun k => let '(r, g, b) := rgb_at px k in [r; g; b; 255]) (seq 0 m).

(** ** Sorting *)
Lemma leb_lt p q : rgba_leb p q = true <-> color_lt p q \/ p = q.
Proof.
  destruct p as [[[r g] b] a], q as [[[r' g'] b'] a']. unfold rgba_leb, color_lt.
  split.
  - intros K. repeat match type of K with context [?x <? ?y] => destruct (N.ltb_spec x y) end; try discriminate K; try (left; lia).
    apply N.leb_le in K. assert (r = r' /\ g = g' /\ b = b') as (-> & -> & ->) by lia.
    destruct (N.eq_dec a a') as [->|]; [now right|left; lia].
  - intros [K|K].
    + repeat match goal with |- context [?x <? ?y] => destruct (N.ltb_spec x y) end; try reflexivity; try lia; apply N.leb_le; lia.
    + injection K as -> -> -> ->. rewrite !N.ltb_irrefl. apply N.leb_refl.
Qed.
Lemma color_lt_trans p q r : color_lt p q -> color_lt q r -> color_lt p r.
Proof.
  destruct p as [[[? ?] ?] ?], q as [[[? ?] ?] ?], r as [[[? ?] ?] ?]. unfold color_lt. lia.
Qed.
Lemma color_total p q : color_lt p q \/ p = q \/ color_lt q p.
Proof.
  destruct p as [[[r g] b] a], q as [[[r' g'] b'] a']. unfold color_lt.
  destruct (N.lt_trichotomy r r') as [|[->|]]; [lia| |lia].
  destruct (N.lt_trichotomy g g') as [|[->|]]; [lia| |lia].
  destruct (N.lt_trichotomy b b') as [|[->|]]; [lia| |lia].
  destruct (N.lt_trichotomy a a') as [|[->|]]; [lia| |lia]. right. now left.
Qed.
Lemma insert_sorted p l : StronglySorted color_lt l -> ~ In p l -> StronglySorted color_lt (insert_rgba p l).
Proof.
  induction l as [|q l IH]; intros Hs Hn; cbn [insert_rgba]; [now repeat constructor|].
  apply StronglySorted_inv in Hs as [Hs Hq]. destruct (rgba_leb p q) eqn:E.
  - apply leb_lt in E as [E| ->]; [|exfalso; apply Hn; now left]. constructor; [now constructor|].
    constructor; [exact E|]. rewrite Forall_forall in *. intros x Hx. eapply color_lt_trans; [exact E|now apply Hq].
  - constructor; [apply IH; [exact Hs|intros H; apply Hn; now right]|].
    assert (Hqp : color_lt q p).
    { destruct (color_total p q) as [H|[H|H]]; [| |exact H]; exfalso.
      - rewrite (proj2 (leb_lt p q)) in E; [discriminate E|now left].
      - rewrite (proj2 (leb_lt p q)) in E; [discriminate E|now right]. }
    rewrite Forall_forall in *. intros x Hx. apply (Permutation_in _ (insert_perm p l)) in Hx as [<-|Hx]; [exact Hqp|now apply Hq].
Qed.
Lemma sort_sorted l : NoDup l -> StronglySorted color_lt (sort_rgba l).
Proof.
  induction l as [|p l IH]; intros Hn; [constructor|]. inversion Hn as [|? ? Hp Hn']; subst.
  cbn [sort_rgba fold_right]. change (fold_right insert_rgba [] l) with (sort_rgba l). apply insert_sorted; [now apply IH|].
  intros H. apply Hp. exact (Permutation_in _ (sort_perm l) H).
Qed.

(** ** The last transparent pixel *)
Lemma last_clear_spec ps : forall acc,
  let t := fold_left (fun acc (p : rgba) => let '(r, g, b, a) := p in if a =? 0 then Some (r, g, b, a) else acc) ps acc in
  (t = acc /\ forall q, In q ps -> alpha q <> 0) \/
  exists p i, t = Some p /\ nth_error ps i = Some p /\ alpha p = 0 /\ forall j q, (i < j)%nat -> nth_error ps j = Some q -> alpha q <> 0.
Proof.
  induction ps as [|[[[r g] b] a] ps IH]; intros acc; cbn [fold_left].
  - left. split; [reflexivity|intros q []].
  - set (acc1 := if a =? 0 then Some (r, g, b, a) else acc). specialize (IH acc1). cbn zeta in *.
    destruct IH as [[H1 H2]|(p & i & H1 & H2 & H3 & H4)].
    + rewrite H1. subst acc1. destruct (N.eqb_spec a 0) as [->|Ha].
      * right. exists (r, g, b, 0), O. split; [reflexivity|]. split; [reflexivity|]. split; [reflexivity|].
        intros [|j] q Hj Hq; [lia|]. apply H2. exact (nth_error_In ps j Hq).
      * left. split; [reflexivity|]. intros q [<-|Hq]; [exact Ha|now apply H2].
    + right. exists p, (S i). split; [exact H1|]. split; [exact H2|]. split; [exact H3|].
      intros [|j] q Hj Hq; [lia|]. apply (H4 j q); [lia|exact Hq].
Qed.

Section C.
Variable px : list N.
Variable m : nat.
Hypothesis Hm : length px = (4 * m)%nat.
Lemma chunks_pixels : chunks4 px = map (px_at px) (seq 0 m).
Proof.
  apply (nth_ext _ _ (0, 0, 0, 0) (px_at px 0)); [rewrite map_length, seq_length; exact (ps_length px m Hm)|].
  intros k Hk. pose proof (ps_length px m Hm) as Hl. assert (Hk2 : (k < m)%nat) by (rewrite <- Hl; exact Hk). clear Hk. rename Hk2 into Hk. rewrite chunks4_nth by lia. rewrite map_nth, seq_nth by exact Hk. reflexivity.
Qed.
Lemma norm_pixels : map norm_alpha (chunks4 px) = flat_pixels px m.
Proof. rewrite chunks_pixels, map_map. apply map_ext. intros k. apply norm_flat. Qed.
Lemma nth_chunk i p : nth_error (chunks4 px) i = Some p -> (i < m)%nat /\ px_at px i = p.
Proof.
  intros H. assert (Hi : (i < length (chunks4 px))%nat) by (apply nth_error_Some; congruence).
  pose proof (ps_length px m Hm) as Hl. rewrite Hl in Hi. split; [exact Hi|]. rewrite <- chunks4_nth by lia. now apply nth_error_nth.
Qed.
Lemma clear_last : last_clear px m (last_transparent (chunks4 px)).
Proof.
  unfold last_transparent. destruct (last_clear_spec (chunks4 px) None) as [[-> H]|(p & i & -> & H2 & H3 & H4)]; cbn [last_clear].
  - intros k Hk. apply H. apply (ps_in px m Hm). exists k. auto.
  - apply nth_chunk in H2 as [Hi E]. exists i. split; [exact Hi|]. split; [exact E|]. split; [exact H3|].
    intros j [Hj1 Hj2]. apply (H4 j); [exact Hj1|]. rewrite <- chunks4_nth by lia. apply nth_error_nth'. now rewrite (ps_length px m Hm).
Qed.
End C.

(** ** The theorems *)
(** At most 256 colours: the palette lists the colours that occur, each once, in order, and the transparent entry is that of the
    last transparent pixel. The quantiser is not used. *)
Theorem from_rgba_palette q w h px speed ps f : from_rgba_speed q w h px speed = Some (ps, f) ->
  few_colors 256 px (N.to_nat (w * h)) ->
  exists cs t, f_palette f = Some (flat_map rgb_list cs) /\ StronglySorted color_lt cs /\
    (forall c, In c cs <-> In c (flat_pixels px (N.to_nat (w * h)))) /\
    last_clear px (N.to_nat (w * h)) t /\
    match t with
    | Some p => exists i, f_transparent f = Some (N.of_nat i) /\ nth_error cs i = Some p
    | None => f_transparent f = None
    end.
Proof.
  intros H Hf. unfold from_rgba_speed in H. destruct (N.eqb_spec (w * h * 4) (len px)) as [E|]; [|discriminate H].
  cbn [negb] in H. destruct (negb _); [discriminate H|]. cbn zeta in H. set (m := N.to_nat (w * h)) in *.
  assert (Hm : length px = (4 * m)%nat) by (unfold m, len in *; lia).
  apply (cols_few px m Hm) in Hf. destruct (N.ltb_spec 256 (N.of_nat (length (color_set (map norm_alpha (chunks4 px)))))); [lia|].
  injection H as <- <-. cbn [f_transparent f_palette]. rewrite (norm_pixels px m Hm) in *.
  set (cols := sort_rgba (color_set (flat_pixels px m))).
  assert (Hl : (length cols <= 256)%nat) by (unfold cols; rewrite (Permutation_length (sort_perm _)); exact Hf).
  assert (Hin : forall c, In c cols <-> In c (flat_pixels px m)).
  { intros c. rewrite <- (color_set_in (flat_pixels px m)). split; apply Permutation_in; [apply sort_perm|apply Permutation_sym, sort_perm]. }
  exists cols, (last_transparent (chunks4 px)). split; [reflexivity|].
  split; [apply sort_sorted, color_set_nodup|]. split; [exact Hin|].
  pose proof (clear_last px m Hm) as Hc. split; [exact Hc|].
  destruct (last_transparent (chunks4 px)) as [p|]; [|reflexivity]. cbn [option_map last_clear] in *.
  destruct Hc as (k & Hk & Ek & Ea & _).
  assert (Hp : In p cols).
  { apply Hin. unfold flat_pixels. apply in_map_iff. exists k. split; [|apply in_seq; lia]. rewrite Ek.
    destruct p as [[[r g] b] a]. cbn [alpha] in Ea. now subst a. }
  destruct (index_of_spec cols p Hp Hl) as (i & Ei & Hi & En). exists i. split; [now rewrite Ei|].
  rewrite <- En. now apply nth_error_nth'.
Qed.

(** More than 256 colours: the quantiser gets the pixels with alpha 0 or 255 and the speed that was asked for; palette and
    indices are its own, and the transparent entry is the one it gives to the last transparent pixel. *)
Theorem from_rgba_many q w h px speed ps f : from_rgba_speed q w h px speed = Some (ps, f) ->
  ~ few_colors 256 px (N.to_nat (w * h)) ->
  let pixels := flat_pixels px (N.to_nat (w * h)) in
  exists t, last_clear px (N.to_nat (w * h)) t /\
    f = mk_frame 0 DKeep (option_map (fun p => nq_index q speed pixels p mod 256) t) false 0 0 w h false
          (Some (nq_map q speed pixels)) (map (fun p => nq_index q speed pixels p mod 256) pixels).
Proof.
  intros H Hf. unfold from_rgba_speed in H. destruct (N.eqb_spec (w * h * 4) (len px)) as [E|]; [|discriminate H].
  cbn [negb] in H. destruct (negb _); [discriminate H|]. cbn zeta in *. set (m := N.to_nat (w * h)) in *.
  assert (Hm : length px = (4 * m)%nat) by (unfold m, len in *; lia). rewrite (cols_few px m Hm) in Hf.
  destruct (N.ltb_spec 256 (N.of_nat (length (color_set (map norm_alpha (chunks4 px)))))); [|lia].
  injection H as <- <-. rewrite (norm_pixels px m Hm) in *. exists (last_transparent (chunks4 px)).
  split; [exact (clear_last px m Hm)|reflexivity].
Qed.

(** RGB frames are those of the same pixels with alpha 255. *)
Lemma chunks_alpha m : forall px, length px = (3 * m)%nat ->
  flat_map (fun '(r, g, b) => [r; g; b; 0xFF]) (chunks3 px) = with_alpha px m.
Proof.
  induction m as [|m IH]; intros px Hm; [now destruct px|].
  destruct px as [|a [|b [|c px]]]; cbn [length] in Hm; try lia. unfold with_alpha. cbn [chunks3 flat_map seq].
  change (rgb_at (a :: b :: c :: px) 0) with (a, b, c). cbv iota. f_equal. f_equal. f_equal. f_equal.
  rewrite IH by lia. unfold with_alpha. rewrite <- seq_shift, !flat_map_concat_map, map_map. f_equal. apply map_ext. intros k.
  assert (Ek : rgb_at (a :: b :: c :: px) (S k) = rgb_at px k).
  { unfold rgb_at. replace (3 * S k)%nat with (S (S (S (3 * k)))) by lia. reflexivity. }
  now rewrite Ek.
Qed.
Theorem from_rgb_opaque q w h px speed : len px = w * h * 3 ->
  from_rgb_speed q w h px speed = option_map snd (from_rgba_speed q w h (with_alpha px (N.to_nat (w * h))) speed).
Proof.
  intros E. unfold from_rgb_speed. rewrite E, N.eqb_refl. cbn [negb]. rewrite (chunks_alpha (N.to_nat (w * h))); [reflexivity|].
  unfold len in E. lia.
Qed.
(** The variants without a speed use 1. *)
Theorem default_speed q w h px :
  from_rgba q w h px = from_rgba_speed q w h px 1 /\ from_rgb q w h px = from_rgb_speed q w h px 1.
Proof. split; reflexivity. Qed.
