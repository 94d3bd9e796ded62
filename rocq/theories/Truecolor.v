(** True-colour pictures through the whole library: [Frame::from_rgba_speed], the encoder, the decoder (C50). *)
From Verif Require Import Base Common Lzw Encoder Stream Converter Reader DecoderSafe CanonReader SpecGif SpecPixels
  SpecEnc SpecRound DocAll EncLin EncSpec EncSession RoundTrip RoundProps FrameProps.
From Coq Require Import Permutation.
Open Scope N_scope.

(** ** Specification *)

(** A picture: size and RGBA bytes. *)
Record pic := mk_pic { p_w : N; p_h : N; p_px : list N }.
Definition p_count (p : pic) : nat := N.to_nat (p_w p * p_h p).
(** At least one pixel, at most 256 colours, at most one of them transparent. *)
Definition pic_ok (p : pic) : Prop :=
  u16_ok (p_w p) /\ u16_ok (p_h p) /\ bytes_ok (p_px p) /\ len (p_px p) = p_w p * p_h p * 4 /\ 0 < p_w p * p_h p /\
  few_colors 256 (p_px p) (p_count p) /\ one_transparent (p_px p) (p_count p).
(** The picture with partly transparent pixels made opaque. *)
Definition solid (p : pic) : list N := flat_map (fun k => rgba_list (flat (px_at (p_px p) k))) (seq 0 (p_count p)).
(** No pixel is partly transparent. *)
Definition crisp (p : pic) : Prop := forall k, (k < p_count p)%nat -> alpha (px_at (p_px p) k) = 0 \/ alpha (px_at (p_px p) k) = 255.
(** [f] was made from [p], after which delay, disposal, user input and position may have been set. *)
Definition made (q : neuquant) (speed : Z) (p : pic) (f : frame) : Prop :=
  exists ps f0, from_rgba_speed q (p_w p) (p_h p) (p_px p) speed = Some (ps, f0) /\
    f = mk_frame (f_delay f) (f_dispose f) (f_transparent f0) (f_needs_user_input f) (f_top f) (f_left f)
          (f_width f0) (f_height f0) (f_interlaced f0) (f_palette f0) (f_buffer f0) /\
    u16_ok (f_delay f) /\ u16_ok (f_top f) /\ u16_ok (f_left f).

(** ** Proofs *)
Lemma solid_crisp p : len (p_px p) = p_w p * p_h p * 4 -> crisp p -> solid p = p_px p.
Proof.
  intros Hl Hc. unfold solid, crisp, p_count in *. assert (H : length (p_px p) = (4 * N.to_nat (p_w p * p_h p))%nat) by (unfold len in Hl; lia).
  revert H Hc. clear. generalize (N.to_nat (p_w p * p_h p)) as m. generalize (p_px p) as px. intros px m. revert px.
  induction m as [|m IH]; intros px H Hc; [destruct px; [reflexivity|cbn [length] in H; lia]|].
  destruct px as [|a [|b [|c [|d px]]]]; cbn [length] in H; try lia.
  cbn [seq flat_map]. rewrite <- seq_shift, flat_map_concat_map, map_map, <- flat_map_concat_map.
  rewrite (flat_map_ext _ (fun k => rgba_list (flat (px_at px k)))).
  2:{ intros k. unfold px_at. replace (4 * Datatypes.S k)%nat with (Datatypes.S (Datatypes.S (Datatypes.S (Datatypes.S (4 * k))))) by lia. reflexivity. }
  rewrite IH by (try lia; intros k Hk; specialize (Hc (Datatypes.S k) ltac:(lia)); unfold px_at in Hc |- *;
    replace (4 * Datatypes.S k)%nat with (Datatypes.S (Datatypes.S (Datatypes.S (Datatypes.S (4 * k))))) in Hc by lia; exact Hc).
  specialize (Hc O ltac:(lia)). cbn in Hc. cbn [px_at Nat.mul nth Nat.add]. unfold flat. destruct (N.eqb_spec d 0) as [->|]; [reflexivity|].
  destruct Hc as [Hc| ->]; [lia|reflexivity].
Qed.

Lemma nth_cut n : forall j (l : list N), (j < n)%nat -> nth j (firstn n l) 0 = nth j l 0.
Proof.
  induction n as [|n IH]; intros j l H; [lia|]. destruct l as [|x l]; [now destruct j|]. cbn [firstn].
  destruct j as [|j]; [reflexivity|]. cbn [nth]. apply IH. lia.
Qed.
(** Padding a palette does not change the colours it has. *)
Lemma rgba_of_padded pal t i c : rgba_of pal t i = Some c -> rgba_of (padded pal) t i = Some c.
Proof.
  unfold rgba_of, padded, colors. destruct (Nat.leb_spec (3 * Datatypes.S (N.to_nat i)) (length pal)) as [H|]; [|discriminate]. intros <-.
  assert (Hl : (3 * Datatypes.S (N.to_nat i) <= 3 * (length pal / 3))%nat).
  { pose proof (Nat.div_le_mono (3 * Datatypes.S (N.to_nat i)) (length pal) 3 ltac:(lia) H) as Hd.
    rewrite Nat.mul_comm, Nat.div_mul in Hd; lia. }
  assert (Hl3 : (3 * (length pal / 3) <= length pal)%nat) by (apply Nat.mul_div_le; lia).
  destruct (Nat.leb_spec (3 * Datatypes.S (N.to_nat i)) (length (firstn (3 * (length pal / 3)) pal ++ repeat 0 (3 * (N.to_nat (2 ^ (size_field (length pal / 3) + 1)) - length pal / 3))))) as [_|Hx].
  2:{ rewrite app_length, firstn_length in Hx. lia. }
  assert (Hn : forall j, (j < 3 * Datatypes.S (N.to_nat i))%nat ->
    nth j (firstn (3 * (length pal / 3)) pal ++ repeat 0 (3 * (N.to_nat (2 ^ (size_field (length pal / 3) + 1)) - length pal / 3))) 0 = nth j pal 0).
  { intros j Hj. rewrite app_nth1 by (rewrite firstn_length; lia). apply nth_cut. lia. }
  rewrite !Hn by lia. reflexivity.
Qed.

Lemma shown_solid q speed p ps f : pic_ok p -> from_rgba_speed q (p_w p) (p_h p) (p_px p) speed = Some (ps, f) ->
  exists pal, f_palette f = Some pal /\
  shown CRgba (padded pal) (f_transparent f) (picture (N.to_nat (f_width f)) (N.to_nat (f_height f)) false (f_buffer f)) = solid p.
Proof.
  intros (_ & _ & _ & _ & _ & Hf & Ho) H. destruct (from_rgba_exact _ _ _ _ _ _ _ H Hf) as (E & El & _).
  destruct (from_rgba_alpha _ _ _ _ _ _ _ H Hf Ho) as (pal & Ep & Hk). exists pal. split; [exact Ep|].
  assert (Ew : f_width f = p_w p) by (rewrite E; reflexivity). assert (Eh : f_height f = p_h p) by (rewrite E; reflexivity).
  rewrite Ew, Eh. unfold picture. rewrite <- N2Nat.inj_mul. rewrite firstn_all2 by (unfold len in El; lia).
  unfold shown, solid, p_count in *. set (m := N.to_nat (p_w p * p_h p)) in *.
  assert (Hlen : length (f_buffer f) = m) by (unfold len in El; lia).
  assert (Hb : f_buffer f = map (fun k => nth k (f_buffer f) 0) (seq 0 m)).
  { rewrite <- Hlen. clear. induction (f_buffer f) as [|b l IH]; [reflexivity|]. cbn [length seq map nth]. f_equal.
    rewrite <- seq_shift, map_map. exact IH. }
  rewrite Hb. rewrite flat_map_concat_map, map_map, <- flat_map_concat_map.
  rewrite !flat_map_concat_map. f_equal. apply map_ext_in. intros k Hin. apply in_seq in Hin.
  rewrite (rgba_of_padded _ _ _ _ (Hk k ltac:(lia))). reflexivity.
Qed.

Lemma index_of_from_range p l : forall i, match index_of_from i p l with Some k => k < 256 | None => True end.
Proof.
  induction l as [|x l IH]; intros i; cbn [index_of_from]; [exact I|].
  destruct (N.ltb_spec 255 i); [exact I|]. destruct (rgba_eqb p x); [lia|apply IH].
Qed.
Lemma index_of_byte l p : byte_ok (Common.index_of l p).
Proof. unfold Common.index_of, byte_ok. pose proof (index_of_from_range p l 0). destruct (index_of_from 0 p l); lia. Qed.
Definition quad_ok (p : rgba) : Prop := let '(r, g, b, a) := p in byte_ok r /\ byte_ok g /\ byte_ok b /\ byte_ok a.
Lemma chunks4_ok n : forall l, (length l <= n)%nat -> bytes_ok l -> Forall quad_ok (chunks4 l).
Proof.
  induction n as [|n IH]; intros l Hn H.
  - destruct l; [constructor|cbn [length] in Hn; lia].
  - destruct l as [|a [|b [|c [|d l]]]]; try constructor.
    + apply Forall_cons_iff in H as [H1 H]. apply Forall_cons_iff in H as [H2 H]. apply Forall_cons_iff in H as [H3 H].
      apply Forall_cons_iff in H as [H4 _]. cbn [quad_ok]. auto.
    + apply IH; [cbn [length] in Hn; lia|]. do 4 apply Forall_inv_tail in H. exact H.
Qed.
Lemma made_rng q speed p f : pic_ok p -> made q speed p f -> frame_rng f.
Proof.
  intros (Hw & Hh & Hb & Hl & Hp & Hf & _) (ps & f0 & H & E & Hd & Ht & Hle). pose proof H as H0.
  unfold from_rgba_speed in H. destruct (negb _); [discriminate H|]. destruct (negb _); [discriminate H|]. cbn zeta in H.
  assert (Hm : length (p_px p) = (4 * p_count p)%nat) by (unfold len, p_count in *; lia).
  pose proof (proj1 (cols_few _ _ Hm) Hf) as Hc.
  destruct (N.ltb_spec 256 (N.of_nat (length (color_set (map norm_alpha (chunks4 (p_px p))))))); [lia|].
  assert (E0 : f0 = snd (ps, f0)) by reflexivity. injection H as _ H. rewrite <- H in E. clear H E0 H0.
  cbn [f_transparent f_width f_height f_interlaced f_palette f_buffer] in E.
  unfold frame_rng. split; [exact Hd|]. split; [exact Hle|]. split; [exact Ht|].
  rewrite E. cbn [f_width f_height f_transparent f_palette f_buffer]. split; [exact Hw|]. split; [exact Hh|]. split; [|split].
  - intros t. destruct (last_transparent _); [|discriminate]. cbn [option_map]. intros [= <-]. apply index_of_byte.
  - intros pal [= <-]. apply Forall_forall. intros x Hx. apply in_flat_map in Hx. destruct Hx as ([[[r g] b] a] & Hin & Hx).
    apply (Permutation_in _ (sort_perm _)) in Hin. apply color_set_in, in_map_iff in Hin. destruct Hin as (y & Ey & Hy).
    pose proof (proj1 (Forall_forall _ _) (chunks4_ok _ _ (le_n _) Hb) _ Hy) as Qy. destruct y as [[[r' g'] b'] a'].
    unfold norm_alpha in Ey. cbn [quad_ok] in Qy. cbn [In] in Hx.
    destruct (a' =? 0); injection Ey as <- <- <- <-; intuition (subst; assumption).
  - apply Forall_map, Forall_forall. intros x _. apply index_of_byte.
Qed.

Section TC.
Variable L : lzw_codec.
Variable S : lzw_spec L.
Variable umax : N.
Hypothesis Humax : 2 ^ 32 - 1 <= umax.

(** Pictures written as frames are read back exactly. *)
Theorem truecolor_round_trip q speed o w sw sh pal dbg pics frames :
  Forall pic_ok pics -> pics <> [] -> Forall2 (made q speed) pics frames ->
  u16_ok sw -> u16_ok sh -> bytes_ok pal -> (colors pal <= 256)%nat -> Forall harmless (w_plan w) -> w_out w = [] ->
  o_color o = CRgba -> o_skip_frame_decoding o = false -> o_check_for_end_code o = false ->
  Forall (fun p => 4 * (p_w p * p_h p) <= umax / 2 /\ fits (o_limit o) (4 * (p_w p * p_h p))) pics -> fits (o_limit o) 5 ->
  (o_check_frame_consistency o = true ->
     Forall (fun f => f_left f + f_width f <= sw /\ f_top f + f_height f <= sh) frames) ->
  exists e1 e2 e3 w3,
    encoder_new w sw sh pal = (e1, Ok tt) /\ run_ops L dbg e1 (map OWriteFrame frames) = (e2, Ok tt) /\ into_inner e2 = (e3, Ok w3) /\
    forall src tl n, delivers src (w_out w3 ++ tl) -> (length pics < n)%nat ->
    exists d d' fs, read_info L src o = Ok d /\ read_all L umax n d = (d', fs, Ok false) /\
      Forall2 (fun p f => f_width f = p_w p /\ f_height f = p_h p /\ f_buffer f = solid p) pics fs /\
      Forall2 (fun g f => f_delay f = f_delay g /\ f_dispose f = f_dispose g /\ f_needs_user_input f = f_needs_user_input g /\
                          f_top f = f_top g /\ f_left f = f_left g) frames fs.
Proof.
  intros Hp Hne Hm Hsw Hsh Hpal Hc Hh Hw Kc Ks Ke Hlim H5 Hcon.
  set (ops := map OWriteFrame frames).
  assert (Hall : Forall (fun pf => pic_ok (fst pf) /\ made q speed (fst pf) (snd pf) /\ 4 * (p_w (fst pf) * p_h (fst pf)) <= umax / 2 /\
    fits (o_limit o) (4 * (p_w (fst pf) * p_h (fst pf)))) (combine pics frames) /\ map fst (combine pics frames) = pics /\ map snd (combine pics frames) = frames).
  { clear - Hp Hm Hlim. induction Hm as [|p f pics frames H1 H2 IH]; [repeat constructor|].
    inversion Hp; subst. inversion Hlim; subst. destruct (IH ltac:(assumption) ltac:(assumption)) as (A & B & C).
    cbn [combine map fst snd]. rewrite B, C. split; [|split; reflexivity]. constructor; [|exact A]. cbn [fst snd]. tauto. }
  destruct Hall as (Hall & Hfst & Hsnd).
  assert (Hsize : forall p f, pic_ok p -> made q speed p f -> f_width f = p_w p /\ f_height f = p_h p /\ f_interlaced f = false /\
     len (f_buffer f) = p_w p * p_h p /\ exists pl, f_palette f = Some pl /\ (colors pl <= 256)%nat).
  { intros p f Hpk (ps & f0 & H & E & _). destruct Hpk as (_ & _ & _ & _ & _ & Hf & _).
    destruct (from_rgba_exact _ _ _ _ _ _ _ H Hf) as (E1 & El & pl & t & Epl & Hpl & _).
    rewrite E. cbn [f_width f_height f_interlaced f_buffer f_palette].
    split; [rewrite E1; reflexivity|]. split; [rewrite E1; reflexivity|]. split; [rewrite E1; reflexivity|]. split; [exact El|].
    exists pl. split; [exact Epl|]. unfold colors. apply Nat.div_le_upper_bound; lia. }
  assert (Ro : Forall op_rng ops).
  { unfold ops. rewrite <- Hsnd. apply Forall_map, Forall_map. eapply Forall_impl; [|exact Hall]. intros [p f] (A & B & _).
    exact (made_rng q speed p f A B). }
  assert (Hok : Forall (fun op => op_result dbg (usable pal) op = Ok tt) ops).
  { unfold ops. rewrite <- Hsnd. apply Forall_map, Forall_map. eapply Forall_impl; [|exact Hall]. intros [p f] (A & B & _). cbn [fst snd] in *.
    destruct (Hsize p f A B) as (W & Hg & _ & Hl & pl & Epl & Hpl). cbn [op_result]. rewrite W, Hg, Hl.
    destruct (N.ltb_spec (p_w p * p_h p) (p_w p * p_h p)); [lia|]. destruct A as (_ & _ & _ & _ & Hpos & _).
    destruct (N.eqb_spec (p_w p * p_h p) 0); [lia|]. rewrite andb_false_r. cbn [andb].
    unfold palette_error. rewrite Epl. destruct (Nat.ltb_spec 256 (colors pl)); [lia|reflexivity]. }
  destruct (session_runs L dbg w sw sh pal ops Hsw Hsh Ro Hh Hc Hok) as (e1 & e2 & e3 & w3 & S1 & S2 & S3).
  exists e1, e2, e3, w3. split; [exact S1|]. split; [exact S2|]. split; [exact S3|]. intros src tl n Hd Hn.
  set (fr := map (fun f => (f, f_buffer f)) frames).
  assert (Hcr : Forall (call_readable o) ops).
  { unfold ops. apply Forall_map, Forall_forall. intros f _. exact I. }
  assert (Hwr : written S ops fr).
  { unfold ops, fr. clear. induction frames as [|f l IH]; [constructor|]. cbn [map]. apply written_frame; [reflexivity|constructor|exact IH]. }
  assert (Hfr : Forall (fun x => frame_readable o umax sw sh (fst x) (snd x)) fr).
  { unfold fr. apply Forall_map. apply Forall_forall. intros f Hin. cbn [fst snd]. pose proof Hin as Hin0. rewrite <- Hsnd in Hin.
    apply in_map_iff in Hin. destruct Hin as ([p f'] & <- & Hin). cbn [snd] in Hin0.
    pose proof (proj1 (Forall_forall _ _) Hall _ Hin) as (A & B & C & D). cbn [fst snd] in *.
    destruct (Hsize p f' A B) as (W & Hg & _ & Hl & _). unfold frame_readable. rewrite Kc. cbn [px_bytes].
    split; [exact H5|]. split; [intros K; exact (proj1 (Forall_forall _ _) (Hcon K) _ Hin0)|].
    rewrite W, Hg. split; [|split; [exact C|exact D]]. destruct A as (_ & _ & _ & _ & Hpos & _). unfold len in Hl. lia. }
  assert (Hlen : length frames = length pics) by (clear - Hm; induction Hm; cbn [length]; congruence).
  assert (Hbl : Exists writes_block ops).
  { unfold ops. destruct frames as [|f l]; [destruct pics; [congruence|discriminate Hlen]|]. apply Exists_cons_hd. exact I. }
  destruct (round_trip_frames L S umax Humax o w sw sh pal dbg ops e1 e2 e3 w3 fr tl src n Hsw Hsh Hpal Ro S1 S2 S3 Hw Hd Hcr Hwr Hbl Hfr Ks Ke)
    as (d & d' & E1 & E2); [unfold fr; rewrite map_length; lia|].
  eexists d, d', _. split; [exact E1|]. split; [exact E2|]. unfold fr. rewrite map_map, Kc. cbn [fst snd].
  rewrite <- Hsnd. rewrite map_map.
  split.
  - rewrite <- Hfst at 1. clear - Hall Hsize. induction Hall as [|[p f] l (A & B & _) _ IH]; [constructor|]. cbn [map fst snd] in *. constructor; [|exact IH].
    destruct (Hsize p f A B) as (W & Hg & Hi & _). unfold wanted. cbn [f_width f_height f_buffer]. split; [exact W|]. split; [exact Hg|].
    destruct B as (ps & f0 & H & E & _). destruct (shown_solid q speed p ps f0 A H) as (pl & Epl & Hs).
    rewrite <- Hs. rewrite Hi. rewrite E. cbn [f_palette f_transparent f_width f_height f_buffer]. rewrite Epl. reflexivity.
  - clear. induction (combine pics frames) as [|[p f] l IH]; [constructor|]. cbn [map fst snd]. constructor; [|exact IH]. repeat split.
Qed.

(** Without partly transparent pixels the bytes come back unchanged. *)
Theorem truecolor_exact q speed o w sw sh pal dbg pics frames :
  Forall pic_ok pics -> Forall crisp pics -> pics <> [] -> Forall2 (made q speed) pics frames ->
  u16_ok sw -> u16_ok sh -> bytes_ok pal -> (colors pal <= 256)%nat -> Forall harmless (w_plan w) -> w_out w = [] ->
  o_color o = CRgba -> o_skip_frame_decoding o = false -> o_check_for_end_code o = false ->
  Forall (fun p => 4 * (p_w p * p_h p) <= umax / 2 /\ fits (o_limit o) (4 * (p_w p * p_h p))) pics -> fits (o_limit o) 5 ->
  (o_check_frame_consistency o = true ->
     Forall (fun f => f_left f + f_width f <= sw /\ f_top f + f_height f <= sh) frames) ->
  exists e1 e2 e3 w3,
    encoder_new w sw sh pal = (e1, Ok tt) /\ run_ops L dbg e1 (map OWriteFrame frames) = (e2, Ok tt) /\ into_inner e2 = (e3, Ok w3) /\
    forall src tl n, delivers src (w_out w3 ++ tl) -> (length pics < n)%nat ->
    exists d d' fs, read_info L src o = Ok d /\ read_all L umax n d = (d', fs, Ok false) /\ map f_buffer fs = map p_px pics.
Proof.
  intros Hp Hcr Hne Hm Hsw Hsh Hpal Hc Hh Hw Kc Ks Ke Hlim H5 Hcon.
  destruct (truecolor_round_trip q speed o w sw sh pal dbg pics frames Hp Hne Hm Hsw Hsh Hpal Hc Hh Hw Kc Ks Ke Hlim H5 Hcon)
    as (e1 & e2 & e3 & w3 & E1 & E2 & E3 & H). exists e1, e2, e3, w3. split; [exact E1|]. split; [exact E2|]. split; [exact E3|].
  intros src tl n Hd Hn. destruct (H src tl n Hd Hn) as (d & d' & fs & F1 & F2 & F3 & _). exists d, d', fs. split; [exact F1|]. split; [exact F2|].
  clear - Hp Hcr F3. induction F3 as [|p f pics fs (_ & _ & E) _ IH]; [reflexivity|].
  apply Forall_cons_iff in Hp as [P1 Hp]. apply Forall_cons_iff in Hcr as [C1 Hcr]. cbn [map].
  rewrite E, (solid_crisp p) by (try exact C1; apply P1). f_equal. apply IH; assumption.
Qed.
End TC.
