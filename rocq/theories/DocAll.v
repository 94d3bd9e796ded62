(** All frames of a well-formed file. *)
From Verif Require Import Base Common Lzw Encoder Stream Converter Reader StreamInv Steps StepsRev
  ReaderInv Interlace Ranges ConvInv DecoderSafe Canon CanonReader SpecGif DocTrace DocBlocks SpecPixels
  Pixels PixelRead DocRead.
Open Scope N_scope.

(** *** Users of the decoder (not in /repo) *)

(** [while let Some(frame) = decoder.read_next_frame()? { frames.push(frame.clone()) }], at most [n]
    times. *)
Fixpoint read_all (L : lzw_codec) (umax : N) (n : nat) (d : dcd L) : dcd L * list frame * dres bool :=
  match n with
  | O => (d, [], Ok true)
  | S n' =>
    let '(d1, x) := read_next_frame L umax d in
    match x with
    | Ok true => let '(d2, fs, y) := read_all L umax n' d1 in (d2, dc_cur L d1 :: fs, y)
    | _ => (d1, [], x)
    end
  end.

(** The same with [next_frame_info] only. *)
Fixpoint scan_all (L : lzw_codec) (n : nat) (d : dcd L) : dcd L * list frame * dres bool :=
  match n with
  | O => (d, [], Ok true)
  | S n' =>
    let '(d1, x) := next_frame_info L d in
    match x with
    | Ok true => let '(d2, fs, y) := scan_all L n' d1 in (d2, dc_cur L d1 :: fs, y)
    | _ => (d1, [], x)
    end
  end.

(** [decoder.into_iter().take(n).collect()]. *)
Fixpoint iter_all (L : lzw_codec) (umax : N) (n : nat) (it : iter L) : iter L * list item :=
  match n with
  | O => (it, [])
  | S n' =>
    let '(it1, x) := iter_next L umax it in
    let '(it2, xs) := iter_all L umax n' it1 in (it2, x :: xs)
  end.

Section DA.
Variable L : lzw_codec.
Variable S : lzw_spec L.
Variable umax : N.
Hypothesis Humax : 2 ^ 32 - 1 <= umax.
Notation dcd := (dcd L).
Variable o : options.
Variable g : gif.
Variable ez : ending.
Notation ready := (ready L S o g ez).
Notation reached := (reached L S o g ez).
(** How reading ends behind the last block: [last] is returned, and [fin] holds. *)
Variable last : dres bool.
Variable fin : dcd -> Prop.
Definition over (d : dcd) : Prop := exists d', next_frame_info L d = (d', last) /\ fin d'.
Hypothesis Hlast : last = Ok false \/ exists e, last = Err e.
Hypothesis Hend : forall d, reached d -> over d.
Lemma over_frame d : over d -> exists d', read_next_frame L umax d = (d', last) /\ fin d'.
Proof.
  intros (d' & E & F). exists d'. split; [|exact F]. unfold read_next_frame. rewrite E.
  destruct Hlast as [->|[e ->]]; reflexivity.
Qed.

(** [out]: the pixels in the image data of image [ci]. *)
Definition holds (ci : ctl * img) (out : list N) : Prop :=
  let i := snd ci in
  lz_pending S (lz_new L (im_mcs i)) (payload (im_subs i)) out /\
  (0 < im_pixels i <= length out)%nat /\
  N.of_nat (frame_bytes o i) <= umax / 2 /\ fits (o_limit o) (N.of_nat (frame_bytes o i)).
(** The frame reported for it. *)
Definition seen (ci : ctl * img) (out : list N) : frame :=
  meta_frame (fst ci) (snd ci) false
    (shown (o_color o) (pal_of g (snd ci)) (c_transparent (fst ci)) (im_picture (snd ci) out)).

(** Metadata alone can be read, whatever the image data, if nobody looks for the end code in data that were not read. *)
Definition scannable : Prop := o_skip_frame_decoding o = true \/ o_check_for_end_code o = false.
Definition meta_seen (ci : ctl * img) : frame :=
  meta_frame (fst ci) (snd ci) (is_interlaced (im_flags (snd ci))) [].

Lemma inimg_ready d i bs : inimg L S o g ez d i bs -> img_ok o g i -> scannable -> ready d ctl_none bs.
Proof.
  intros (F & x & Hok & M & Hd) Hi Hs. eapply skip_ready; [exact F|exact Hok|exact M|].
  intros Es. destruct Hs as [Hs|Hc]; [congruence|]. split; [exact Hc|].
  destruct (Hd Es) as (z & Hz & _ & Hp). exists z, [], []. split; [exact Hz|]. apply Hp, lz_new_nil. apply Hi.
Qed.

Lemma scan_all_doc n : forall d c bs, ready d c bs -> (length (controlled c bs) < n)%nat ->
  scannable ->
  exists d', scan_all L n d = (d', map meta_seen (controlled c bs), last) /\ fin d'.
Proof.
  induction n as [|n IH]; intros d c bs Hr Hn Hm; [lia|]. cbn [scan_all].
  pose proof (next_frame_info_at L S umax Humax o g ez d c bs Hr) as H. destruct (controlled c bs) as [|[c1 i] l] eqn:Ec.
  - destruct (Hend d H) as (d' & E & F). rewrite E. exists d'. destruct Hlast as [->|[e ->]]; auto.
  - destruct H as (d1 & bs' & E & El & Hi & Hin & Hcur & _). rewrite E. subst.
    pose proof (inimg_ready d1 i bs' Hin Hi Hm) as Hr1.
    cbn [length] in Hn. destruct (IH d1 ctl_none bs' Hr1) as (d' & E' & F'); [lia|exact Hm|].
    exists d'. rewrite E'. split; [|exact F']. cbn [map]. now rewrite Hcur.
Qed.

(** Compressed frames. *)
Definition raw_seen (ci : ctl * img) : frame :=
  meta_frame (fst ci) (snd ci) (is_interlaced (im_flags (snd ci))) (im_mcs (snd ci) :: payload (im_subs (snd ci))).
Lemma read_all_raw n : o_skip_frame_decoding o = true -> forall d c bs, ready d c bs -> (length (controlled c bs) < n)%nat ->
  Forall (fun ci => fits (o_limit o) (1 + len (payload (im_subs (snd ci))))) (controlled c bs) ->
  exists d', read_all L umax n d = (d', map raw_seen (controlled c bs), last) /\ fin d'.
Proof.
  intros Hsk. induction n as [|n IH]; intros d c bs Hr Hn Hm; [lia|]. cbn [read_all].
  pose proof (read_next_frame_raw_at L S umax Humax o g ez d c bs Hsk Hr) as H. destruct (controlled c bs) as [|[c1 i] l] eqn:Ec.
  - destruct (over_frame d (Hend d H)) as (d' & E & F). rewrite E. exists d'. destruct Hlast as [->|[e ->]]; auto.
  - inversion Hm as [|? ? Hm1 Hm2]; subst. destruct (H Hm1) as (d1 & bs' & E & El & Hi & Hcur & Hr1). rewrite E.
    cbn [length] in Hn. rewrite El in *. destruct (IH d1 ctl_none bs' Hr1) as (d' & E' & F'); [lia|exact Hm2|].
    exists d'. rewrite E'. split; [|exact F']. cbn [map]. now rewrite Hcur.
Qed.

Hypothesis noskip : o_skip_frame_decoding o = false.
Hypothesis nocheck : o_check_for_end_code o = false.

Definition all_seen (l : list (ctl * img)) (outs : list (list N)) : list frame :=
  map (fun p => seen (fst p) (snd p)) (combine l outs).

Lemma read_all_doc n : forall d c bs outs, ready d c bs -> (length outs < n)%nat ->
  Forall2 holds (controlled c bs) outs ->
  exists d', read_all L umax n d = (d', all_seen (controlled c bs) outs, last) /\ fin d'.
Proof.
  induction n as [|n IH]; intros d c bs outs Hr Hn Hm; [lia|]. cbn [read_all].
  pose proof (read_next_frame_at L S umax Humax o g ez noskip nocheck d c bs Hr) as H. destruct (controlled c bs) as [|[c1 i] l] eqn:Ec.
  - inversion Hm; subst. destruct (over_frame d (Hend d H)) as (d' & E & F). rewrite E. exists d'. destruct Hlast as [El|[e El]]; rewrite El; auto.
  - inversion Hm as [|? out ? outs' Hm1 Hm2]; subst. destruct Hm1 as (M1 & M2 & M3 & M4).
    destruct (H out M1 M2 M3 M4) as (d1 & bs' & E & El & Hcur & Hpx). rewrite E.
    pose proof (inpx_ready L S o g ez d1 bs' _ nocheck Hpx) as Hr1.
    cbn [length] in Hn. rewrite El in *. destruct (IH d1 ctl_none bs' outs' Hr1) as (d' & E' & F'); [lia|exact Hm2|].
    exists d'. rewrite E'. split; [|exact F']. cbn [all_seen combine map fst snd]. now rewrite Hcur.
Qed.

Lemma seen_nonempty ci out : holds ci out -> f_buffer (seen ci out) <> [].
Proof.
  intros (H1 & H2 & _). cbn [seen meta_frame f_buffer]. unfold im_picture.
  assert (Hlen : length (picture (N.to_nat (im_w (snd ci))) (N.to_nat (im_h (snd ci))) (is_interlaced (im_flags (snd ci))) out) = im_pixels (snd ci)).
  { unfold picture, im_pixels in *. destruct (is_interlaced _); [unfold deinterlace; rewrite map_length, seq_length; reflexivity|].
    rewrite firstn_length. lia. }
  destruct (picture _ _ _ out) as [|x l]; [cbn [length] in Hlen; lia|].
  unfold shown. destruct (o_color o); [|discriminate]. cbn [flat_map].
  unfold rgba_of. destruct (_ <=? _)%nat; discriminate.
Qed.

(** Nothing after the end, the reader stays where it is. *)
Lemma iter_ended n d : iter_all L umax n (mk_iter L d true) = (mk_iter L d true, repeat INone n).
Proof.
  induction n as [|n IH]; [reflexivity|]. cbn [iter_all iter_next it_ended]. rewrite IH. reflexivity.
Qed.

(** Taking the current frame leaves the reader as it is. *)
Lemma ready_take d c bs f t : ready d c bs -> frame_ok f -> ready (set_cur L d f t) c bs.
Proof.
  intros (F & H) Hf. split; [|exact H].
  destruct F as [[G Q] Fe Fo Fw Fh Fg Fb Fr]. constructor; try assumption.
  split; [|exact Q]. destruct G as (G1 & G2 & G3 & G4 & G5). split; [exact G1|]. split; [exact Hf|]. auto.
Qed.

(** What the iterator returns at the end. *)
Definition last_item : item := match last with Err e => IErr e | _ => INone end.
Lemma iter_all_doc k : forall n d c bs outs, ready d c bs -> n = length outs ->
  Forall2 holds (controlled c bs) outs ->
  exists d', iter_all L umax (n + k) (mk_iter L d false) =
     (mk_iter L d' (0 <? k)%nat, map IFrame (all_seen (controlled c bs) outs) ++ firstn k (last_item :: repeat INone (k - 1))) /\
    ((0 < k)%nat -> fin d').
Proof.
  intros n. induction n as [|n IH]; intros d c bs outs Hr Hn Hm.
  - destruct outs; [|discriminate Hn]. inversion Hm as [Hc|]. cbn [Nat.add]. destruct k as [|k].
    + exists d. cbn [iter_all firstn map all_seen combine app]. split; [reflexivity|lia].
    + pose proof (read_next_frame_at L S umax Humax o g ez noskip nocheck d c bs Hr) as H. rewrite <- Hc in H.
      destruct (over_frame d (Hend d H)) as (d' & E & F). exists d'. cbn [iter_all]. unfold iter_next. cbn [it_ended it_dec]. rewrite E.
      cbn [all_seen combine map app firstn]. replace (Datatypes.S k - 1)%nat with k by lia.
      unfold last_item. destruct Hlast as [El|[e El]]; rewrite El, iter_ended;
        (rewrite firstn_all2 by (rewrite repeat_length; lia); split; [reflexivity|auto]).
  - pose proof (read_next_frame_at L S umax Humax o g ez noskip nocheck d c bs Hr) as H.
    destruct outs as [|out outs]; [discriminate Hn|]. injection Hn as Hn.
    destruct (controlled c bs) as [|[c1 i] l] eqn:Ec; [inversion Hm|].
    inversion Hm as [|? ? ? ? Hm1 Hm2]; subst. pose proof Hm1 as (M1 & M2 & M3 & M4).
    destruct (H out M1 M2 M3 M4) as (d1 & bs' & E & El & Hcur & Hpx).
    pose proof (inpx_ready L S o g ez d1 bs' _ nocheck Hpx) as Hr1.
    change (meta_frame c1 i false _) with (seen (c1, i) out) in Hcur.
    cbn [Nat.add iter_all]. unfold iter_next. cbn [it_ended it_dec]. rewrite E, Hcur.
    pose proof (seen_nonempty (c1, i) out Hm1) as Hne. destruct (f_buffer (seen (c1, i) out)) as [|x y] eqn:Eb; [congruence|].
    cbn [is_nil]. unfold frame_take.
    rewrite El in *. destruct (IH (set_cur L d1 (snd (frame_take (seen (c1, i) out))) (dc_ty L d1)) ctl_none bs' outs) as (d' & E' & F').
    + apply ready_take; [exact Hr1|]. destruct Hr1 as ([[(_ & G2 & _) _] _ _ _ _ _ _ _] & _). rewrite Hcur in G2.
      destruct G2 as (F1 & F2 & F3 & F4 & F5 & F6 & _). unfold frame_take. cbn [snd].
      split; [exact F1|]. split; [exact F2|]. split; [exact F3|]. split; [exact F4|]. split; [exact F5|]. split; [exact F6|exact I].
    + reflexivity.
    + exact Hm2.
    + exists d'. unfold frame_take in E'. cbn [snd] in E'. rewrite E'. split; [|exact F']. reflexivity.
Qed.

(** *** The whole file *)
End DA.

Section File.
Variable L : lzw_codec.
Variable S : lzw_spec L.
Variable umax : N.
Hypothesis Humax : 2 ^ 32 - 1 <= umax.

(** A source that delivers [bytes] in some non-empty pieces. *)
Definition delivers (src : list revent) (bytes : list N) : Prop :=
  src_ok src /\ good_src src /\ concat (map ev_bytes src) = bytes.

Theorem file_info o g tl src : gif_ok o g -> delivers src (ser_gif g tl) ->
  exists d, read_info L src o = Ok d /\ dec_width L d = g_w g /\ dec_height L d = g_h g /\
    dec_global_palette L d = gif_palette g /\ dec_bg_color L d = gif_bg g /\ dec_repeat L d = gif_repeat g.
Proof.
  intros Hg (H1 & H2 & H3). destruct (read_info_doc L S umax Humax o g tl src Hg H1 H2 H3) as (d & c & bs & E & (F & _) & _).
  exists d. split; [exact E|]. split; [apply F|]. split; [apply F|]. split; [apply F|]. split; apply F.
Qed.

(** The file [g] with its end replaced by the bytes [tz]. *)
Definition ser_cut (g : gif) (tz : list N) : list N := ser_head g ++ ser_blocks (g_blocks g) ++ tz.

Section Cut.
Variable o : options.
Variable g : gif.
Variable tz : list N.
Notation ez := (cut_off (g_blocks g) tz).
Variable last : dres bool.
Variable fin : dcd L -> Prop.
Hypothesis Hlast : last = Ok false \/ exists e, last = Err e.
Hypothesis Hend : forall d, reached L S o g ez d -> over L last fin d.
Hypothesis Hg : part_ok o g.
Hypothesis Hst : starts ez (g_blocks g).
Hypothesis Hop : opens ez (g_blocks g).
Variable src : list revent.
Hypothesis Hsrc : delivers src (ser_cut g tz).

Lemma cut_opened : exists d c bs, read_info L src o = Ok d /\ ready L S o g ez d c bs /\ controlled c bs = gif_images g.
Proof. destruct Hsrc as (H1 & H2 & H3). apply (read_info_at L S umax Humax o g ez); try assumption. split; reflexivity. Qed.

Theorem cut_frames outs n : o_skip_frame_decoding o = false -> o_check_for_end_code o = false ->
  Forall2 (holds L S umax o) (gif_images g) outs -> (length outs < n)%nat ->
  exists d d', read_info L src o = Ok d /\ read_all L umax n d = (d', all_seen o g (gif_images g) outs, last) /\ fin d'.
Proof.
  intros N1 N2 Ho Hn. destruct cut_opened as (d & c & bs & E & Hr & Ec).
  rewrite <- Ec in Ho. destruct (read_all_doc L S umax Humax o g ez last fin Hlast Hend N1 N2 n d c bs outs Hr Hn Ho) as (d' & E' & F).
  exists d, d'. split; [exact E|]. rewrite E', Ec. auto.
Qed.

Theorem cut_iter outs k : o_skip_frame_decoding o = false -> o_check_for_end_code o = false ->
  Forall2 (holds L S umax o) (gif_images g) outs ->
  exists d it, read_info L src o = Ok d /\
    iter_all L umax (length outs + k) (mk_iter L d false) =
      (it, map IFrame (all_seen o g (gif_images g) outs) ++ firstn k (last_item last :: repeat INone (k - 1))).
Proof.
  intros N1 N2 Ho. destruct cut_opened as (d & c & bs & E & Hr & Ec).
  rewrite <- Ec in Ho. destruct (iter_all_doc L S umax Humax o g ez last fin Hlast Hend N1 N2 k _ d c bs outs Hr eq_refl Ho) as (d' & E' & F).
  eexists d, _. split; [exact E|]. rewrite E', Ec. reflexivity.
Qed.

Theorem cut_raw n : o_skip_frame_decoding o = true ->
  Forall (fun ci => fits (o_limit o) (1 + len (payload (im_subs (snd ci))))) (gif_images g) -> (length (gif_images g) < n)%nat ->
  exists d d', read_info L src o = Ok d /\ read_all L umax n d = (d', map raw_seen (gif_images g), last) /\ fin d'.
Proof.
  intros N1 Ho Hn. destruct cut_opened as (d & c & bs & E & Hr & Ec).
  rewrite <- Ec in Ho, Hn. destruct (read_all_raw L S umax Humax o g ez last fin Hlast Hend n N1 d c bs Hr Hn Ho) as (d' & E' & F).
  exists d, d'. split; [exact E|]. rewrite E', Ec. auto.
Qed.

Theorem cut_scan n : scannable o -> (length (gif_images g) < n)%nat ->
  exists d d', read_info L src o = Ok d /\ scan_all L n d = (d', map meta_seen (gif_images g), last) /\ fin d'.
Proof.
  intros Ho Hn. destruct cut_opened as (d & c & bs & E & Hr & Ec).
  rewrite <- Ec in Hn. destruct (scan_all_doc L S umax Humax o g ez last fin Hlast Hend n d c bs Hr Hn Ho) as (d' & E' & F).
  exists d, d'. split; [exact E|]. rewrite E', Ec. auto.
Qed.
End Cut.

(** With the trailer. *)
Lemma done_over o g tl : forall d, reached L S o g (done g tl) d -> over L (Ok false) (finished L g tl) d.
Proof. intros d H. exact (reached_end L S umax Humax o g _ d tl H eq_refl). Qed.
Lemma done_opens g tl bs : opens (done g tl) bs.
Proof. left. left. split; [reflexivity|]. exists tl. reflexivity. Qed.

Lemma done_starts o g tl : gif_ok o g -> starts (done g tl) (g_blocks g).
Proof. intros Hg. left. apply Hg. Qed.

Theorem file_frames o g tl src outs n : gif_ok o g -> delivers src (ser_gif g tl) ->
  o_skip_frame_decoding o = false -> o_check_for_end_code o = false ->
  Forall2 (holds L S umax o) (gif_images g) outs -> (length outs < n)%nat ->
  exists d d', read_info L src o = Ok d /\ read_all L umax n d = (d', all_seen o g (gif_images g) outs, Ok false) /\
    rd_rest L (dc_rd L d') = tl.
Proof.
  intros Hg Hd N1 N2 Ho Hn.
  destruct (cut_frames o g (0x3B :: tl) (Ok false) (finished L g tl) (or_introl eq_refl) (done_over o g tl) (gif_part_ok _ _ Hg) (done_starts o g tl Hg) (done_opens g tl _) src Hd
    outs n N1 N2 Ho Hn) as (d & d' & E & F & G). exists d, d'. split; [exact E|]. split; [exact F|apply G].
Qed.

Theorem file_iter o g tl src outs k : gif_ok o g -> delivers src (ser_gif g tl) ->
  o_skip_frame_decoding o = false -> o_check_for_end_code o = false ->
  Forall2 (holds L S umax o) (gif_images g) outs ->
  exists d it, read_info L src o = Ok d /\
    iter_all L umax (length outs + k) (mk_iter L d false) = (it, map IFrame (all_seen o g (gif_images g) outs) ++ repeat INone k).
Proof.
  intros Hg Hd N1 N2 Ho.
  destruct (cut_iter o g (0x3B :: tl) (Ok false) (finished L g tl) (or_introl eq_refl) (done_over o g tl) (gif_part_ok _ _ Hg) (done_starts o g tl Hg) (done_opens g tl _) src Hd
    outs k N1 N2 Ho) as (d & it & E & F). exists d, it. split; [exact E|]. rewrite F. do 2 f_equal.
  destruct k as [|k]; [reflexivity|]. cbn [last_item firstn repeat]. f_equal. replace (Datatypes.S k - 1)%nat with k by lia.
  apply firstn_all2. rewrite repeat_length. lia.
Qed.

Theorem file_raw o g tl src n : gif_ok o g -> delivers src (ser_gif g tl) -> o_skip_frame_decoding o = true ->
  Forall (fun ci => fits (o_limit o) (1 + len (payload (im_subs (snd ci))))) (gif_images g) -> (length (gif_images g) < n)%nat ->
  exists d d', read_info L src o = Ok d /\ read_all L umax n d = (d', map raw_seen (gif_images g), Ok false) /\
    rd_rest L (dc_rd L d') = tl.
Proof.
  intros Hg Hd N1 Ho Hn.
  destruct (cut_raw o g (0x3B :: tl) (Ok false) (finished L g tl) (or_introl eq_refl) (done_over o g tl) (gif_part_ok _ _ Hg) (done_starts o g tl Hg) (done_opens g tl _) src Hd
    n N1 Ho Hn) as (d & d' & E & F & G). exists d, d'. split; [exact E|]. split; [exact F|apply G].
Qed.

Theorem file_scan o g tl src n : gif_ok o g -> delivers src (ser_gif g tl) ->
  scannable o -> (length (gif_images g) < n)%nat ->
  exists d d', read_info L src o = Ok d /\ scan_all L n d = (d', map meta_seen (gif_images g), Ok false) /\
    rd_rest L (dc_rd L d') = tl.
Proof.
  intros Hg Hd Ho Hn.
  destruct (cut_scan o g (0x3B :: tl) (Ok false) (finished L g tl) (or_introl eq_refl) (done_over o g tl) (gif_part_ok _ _ Hg) (done_starts o g tl Hg) (done_opens g tl _) src Hd
    n Ho Hn) as (d & d' & E & F & G). exists d, d'. split; [exact E|]. split; [exact F|apply G].
Qed.
End File.
