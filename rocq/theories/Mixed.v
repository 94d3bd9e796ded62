(** Every way of reading the frames of a well-formed file gives the same pixels. *)
From Verif Require Import Base Common Lzw Encoder Stream Converter Reader StreamInv Steps StepsRev
  ReaderInv Interlace Ranges ConvInv DecoderSafe Canon CanonReader SpecGif DocTrace DocBlocks SpecPixels
  Pixels PixelRead DocRead DocAll.
Open Scope N_scope.

(** *** A user of the decoder (not in /repo) *)

(** How a frame is read: with [read_next_frame]; with [next_frame_info] and then [read_into_buffer],
    or [fill_buffer] on some slices one after the other, or not at all. *)
Inductive how := HFrame | HInto (buf : list N) | HPieces (bufs : list (list N)) | HSkip.

Fixpoint fill_each (L : lzw_codec) (d : dcd L) (bufs : list (list N)) : dcd L * list N * dres bool :=
  match bufs with
  | [] => (d, [], Ok true)
  | b :: bufs' =>
    let '(d1, b1, x) := fill_buffer L d b in
    match x with
    | Ok true => let '(d2, b2, y) := fill_each L d1 bufs' in (d2, b1 ++ b2, y)
    | _ => (d1, b1, x)
    end
  end.

(** The frame as it is then seen, and the bytes in the caller's buffers. *)
Definition read_how (L : lzw_codec) (umax : N) (d : dcd L) (m : how) : dcd L * frame * list N * dres bool :=
  match m with
  | HFrame => let '(d1, x) := read_next_frame L umax d in (d1, dc_cur L d1, [], x)
  | HSkip => let '(d1, x) := next_frame_info L d in (d1, dc_cur L d1, [], x)
  | HInto buf =>
    let '(d1, x) := next_frame_info L d in
    match x with
    | Ok true =>
      let '(d2, b, y) := read_into_buffer L umax d1 buf in
      (d2, dc_cur L d2, b, match y with Ok _ => Ok true | Err e => Err e | Panic => Panic | Hang => Hang end)
    | _ => (d1, dc_cur L d1, buf, x)
    end
  | HPieces bufs =>
    let '(d1, x) := next_frame_info L d in
    match x with
    | Ok true => let '(d2, b, y) := fill_each L d1 bufs in (d2, dc_cur L d2, b, y)
    | _ => (d1, dc_cur L d1, [], x)
    end
  end.

Fixpoint read_mixed (L : lzw_codec) (umax : N) (d : dcd L) (ms : list how) : dcd L * list (frame * list N) * dres bool :=
  match ms with
  | [] => let '(d1, x) := next_frame_info L d in (d1, [], x)
  | m :: ms' =>
    let '(d1, f, b, x) := read_how L umax d m in
    match x with
    | Ok true => let '(d2, l, y) := read_mixed L umax d1 ms' in (d2, (f, b) :: l, y)
    | _ => (d1, [], x)
    end
  end.

Lemma paint_cons pal t x p old :
  paint pal t (x :: p) old = (match rgba_of pal t x with Some c => c | None => firstn 4 old end) ++ paint pal t p (skipn 4 old).
Proof.
  unfold paint. cbn [length seq flat_map nth]. rewrite <- seq_shift, flat_map_concat_map, map_map, <- flat_map_concat_map.
  change (skipn (4 * 0) old) with old. f_equal. apply flat_map_ext. intros k. cbn [nth].
  destruct (rgba_of pal t (nth k p 0)); [reflexivity|]. rewrite skipn_skipn. do 2 f_equal. lia.
Qed.
Lemma paint_app pal t p1 : forall p2 o1 o2, length o1 = (4 * length p1)%nat ->
  paint pal t (p1 ++ p2) (o1 ++ o2) = paint pal t p1 o1 ++ paint pal t p2 o2.
Proof.
  induction p1 as [|x p1 IH]; intros p2 o1 o2 Hl.
  - destruct o1; [reflexivity|discriminate Hl].
  - cbn [length] in Hl. cbn [app]. rewrite !paint_cons, <- app_assoc. f_equal.
    + destruct (rgba_of pal t x); [reflexivity|]. rewrite firstn_app. replace (4 - length o1)%nat with O by lia.
      cbn [firstn]. now rewrite app_nil_r.
    + rewrite skipn_app. replace (4 - length o1)%nat with O by lia. change (skipn 0 o2) with o2. apply IH. rewrite skipn_length. lia.
Qed.
Lemma shown_over_app c pal t p1 p2 o1 o2 : length o1 = (px_bytes c * length p1)%nat ->
  shown_over c pal t (p1 ++ p2) (o1 ++ o2) = shown_over c pal t p1 o1 ++ shown_over c pal t p2 o2.
Proof. intros Hl. unfold shown_over. destruct c; [apply paint_app; exact Hl|reflexivity]. Qed.

Section M.
Variable L : lzw_codec.
Variable S : lzw_spec L.
Variable umax : N.
Hypothesis Humax : 2 ^ 32 - 1 <= umax.
Notation dcd := (dcd L).
Variable o : options.
Variable g : gif.
Variable tl : list N.
Notation ready := (ready L S o g (done g tl)).
Notation inpx := (inpx L S o g (done g tl)).
Notation finished := (finished L g tl).
Hypothesis noskip : o_skip_frame_decoding o = false.
Hypothesis nocheck : o_check_for_end_code o = false.

(** What the image data must be for this way of reading; nothing if they are skipped. *)
Definition readable (m : how) (ci : ctl * img) (out : list N) : Prop :=
  (m <> HSkip -> lz_pending S (lz_new L (im_mcs (snd ci))) (payload (im_subs (snd ci))) out) /\
  match m with
  | HSkip => True
  | HFrame => holds L S umax o ci out
  | HInto buf => (0 < im_pixels (snd ci) <= length out)%nat /\ (frame_bytes o (snd ci) <= length buf)%nat /\ len buf <= umax
  | HPieces bufs => Forall (fun b => exists n, (0 < n)%nat /\ length b = (px_bytes (o_color o) * n)%nat) bufs /\
                    (length (concat bufs) <= px_bytes (o_color o) * length out)%nat
  end.
(** The result. *)
Definition outcome (m : how) (ci : ctl * img) (out : list N) : frame * list N :=
  let i := snd ci in
  let over px old := shown_over (o_color o) (pal_of g i) (c_transparent (fst ci)) px old in
  match m with
  | HSkip => (meta_seen ci, [])
  | HFrame => (seen o g ci out, [])
  | HInto buf => (meta_seen ci, over (im_picture i out) buf ++ skipn (frame_bytes o i) buf)
  | HPieces bufs => (meta_seen ci, over (firstn (length (concat bufs) / px_bytes (o_color o)) out) (concat bufs))
  end.

Lemma fill_each_doc c1 i bs bufs : forall d out, inpx d bs out ->
  dc_cur L d = meta_frame c1 i (is_interlaced (im_flags i)) [] ->
  Forall (fun b => exists n, (0 < n)%nat /\ length b = (px_bytes (o_color o) * n)%nat) bufs ->
  (length (concat bufs) <= px_bytes (o_color o) * length out)%nat ->
  exists d' out', fill_each L d bufs = (d', shown_over (o_color o) (pal_of g i) (c_transparent c1)
                      (firstn (length (concat bufs) / px_bytes (o_color o)) out) (concat bufs), Ok true) /\
    dc_cur L d' = dc_cur L d /\ inpx d' bs out'.
Proof.
  assert (Hpb : (0 < px_bytes (o_color o))%nat) by (destruct (o_color o); cbn; lia).
  induction bufs as [|b bufs IH]; intros d out Hin Hcur Hb Hl.
  - exists d, out. cbn [fill_each concat length]. rewrite Nat.div_0_l by lia. cbn [firstn].
    split; [|auto]. f_equal. f_equal. unfold shown_over. destruct (o_color o); reflexivity.
  - inversion Hb as [|? ? (n & Hn & Eb) Hb']; subst. cbn [concat] in Hl. rewrite app_length in Hl.
    destruct (fill_buffer_doc L S umax Humax o g (done g tl) noskip nocheck d c1 i bs out b n Hin Hcur) as (d1 & E1 & C1 & I1); [nia|exact Eb|].
    rewrite <- C1 in Hcur. destruct (IH d1 (skipn n out) I1 Hcur Hb') as (d2 & out2 & E2 & C2 & I2); [rewrite skipn_length; nia|].
    exists d2, out2. split; [|split; [congruence|exact I2]]. cbn [fill_each]. rewrite E1, E2.
    cbn [concat]. rewrite app_length, Eb, (Nat.mul_comm _ n), Nat.div_add_l by lia.
    assert (Ef : firstn (n + length (concat bufs) / px_bytes (o_color o)) out
            = firstn n out ++ firstn (length (concat bufs) / px_bytes (o_color o)) (skipn n out)).
    { set (q := (length (concat bufs) / px_bytes (o_color o))%nat). clearbody q.
      assert (Hn2 : (n <= length out)%nat) by nia.
      rewrite <- (firstn_skipn n out) at 1. rewrite firstn_app, firstn_firstn, firstn_length.
      rewrite Nat.min_r by lia. do 2 f_equal. lia. }
    rewrite Ef, shown_over_app; [reflexivity|]. rewrite firstn_length, Eb. nia.
Qed.

Lemma read_mixed_doc ms : forall d c bs outs, ready d c bs -> length ms = length outs ->
  Forall2 (fun p ci => readable (fst p) ci (snd p)) (combine ms outs) (controlled c bs) ->
  exists d', read_mixed L umax d ms =
    (d', map (fun q => outcome (fst (fst q)) (snd q) (snd (fst q))) (combine (combine ms outs) (controlled c bs)), Ok false) /\ finished d'.
Proof.
  induction ms as [|m ms IH]; intros d c bs outs Hr Hlen Hm.
  - destruct outs; [|discriminate Hlen]. cbn [combine] in *. destruct (controlled c bs) as [|ci l] eqn:Hc; [|inversion Hm].
    pose proof (next_frame_info_doc L S umax Humax o g tl d c bs Hr) as Hi. rewrite Hc in Hi. destruct Hi as (d' & E & F).
    exists d'. cbn [read_mixed]. rewrite E. auto.
  - destruct outs as [|out outs]; [discriminate Hlen|]. injection Hlen as Hlen. cbn [combine] in *.
    destruct (controlled c bs) as [|[c1 i] l] eqn:Ec; [inversion Hm|].
    inversion Hm as [|? ? ? ? Hm1 Hm2]; subst. cbn [fst snd] in Hm1. destruct Hm1 as [Hpend Hm1]. cbn [fst snd] in Hpend.
    assert (Hstep : exists d1 bs', read_how L umax d m = (d1, fst (outcome m (c1, i) out), snd (outcome m (c1, i) out), Ok true) /\
              l = controlled ctl_none bs' /\ ready d1 ctl_none bs').
    { pose proof (next_frame_info_doc L S umax Humax o g tl d c bs Hr) as H. rewrite Ec in H.
      destruct H as (d1 & bs' & E & El & Hi & Hin & Hcur & _).
      assert (Hpx : m <> HSkip -> inpx d1 bs' out).
      { intros Hne. exact (inimg_px L S o g (done g tl) d1 i bs' out noskip Hin (Hpend Hne)). }
      destruct m as [|buf|bufs|]; cbn [read_how outcome fst snd] in *.
      - pose proof (read_next_frame_doc L S umax Humax o g tl noskip nocheck d c bs Hr) as H. rewrite Ec in H.
        destruct Hm1 as (M1 & M2 & M3 & M4). destruct (H out M1 M2 M3 M4) as (d2 & bs2 & E2 & El2 & Hcur2 & Hpx2).
        exists d2, bs2. rewrite E2, Hcur2. split; [reflexivity|]. split; [exact El2|].
        exact (inpx_ready L S o g (done g tl) d2 bs2 _ nocheck Hpx2).
      - destruct Hm1 as (M1 & M2 & M3). rewrite E.
        destruct (read_into_buffer_doc L S umax Humax o g (done g tl) noskip nocheck d1 c1 i bs' out buf (Hpx ltac:(discriminate)) Hcur M1 M2 M3) as (d2 & E2 & C2 & I2).
        exists d2, bs'. rewrite E2, C2, Hcur. split; [reflexivity|]. split; [exact El|].
        exact (inpx_ready L S o g (done g tl) d2 bs' _ nocheck I2).
      - destruct Hm1 as (M1 & M2). rewrite E.
        destruct (fill_each_doc c1 i bs' bufs d1 out (Hpx ltac:(discriminate)) Hcur M1 M2) as (d2 & out2 & E2 & C2 & I2).
        exists d2, bs'. rewrite E2, C2, Hcur. split; [reflexivity|]. split; [exact El|].
        exact (inpx_ready L S o g (done g tl) d2 bs' _ nocheck I2).
      - exists d1, bs'. rewrite E, Hcur. split; [reflexivity|]. split; [exact El|].
        exact (inimg_ready L S o g (done g tl) d1 i bs' Hin Hi (or_intror nocheck)). }
    destruct Hstep as (d1 & bs' & E1 & El & Hr1). rewrite El in *.
    destruct (IH d1 ctl_none bs' outs Hr1 Hlen Hm2) as (d2 & E2 & F2). exists d2. split; [|exact F2].
    cbn [read_mixed]. rewrite E1, E2. cbn [map combine fst snd]. now rewrite <- surjective_pairing.
Qed.
End M.

Section File.
Variable L : lzw_codec.
Variable S : lzw_spec L.
Variable umax : N.
Hypothesis Humax : 2 ^ 32 - 1 <= umax.

(** [ms]: how the frames are read, [outs]: their decoded pixels. *)
Theorem file_mixed o g tl src ms outs : gif_ok o g -> delivers src (ser_gif g tl) ->
  o_skip_frame_decoding o = false -> o_check_for_end_code o = false -> length ms = length outs ->
  Forall2 (fun p ci => readable L S umax o (fst p) ci (snd p)) (combine ms outs) (gif_images g) ->
  exists d d', read_info L src o = Ok d /\
    read_mixed L umax d ms =
      (d', map (fun q => outcome o g (fst (fst q)) (snd q) (snd (fst q))) (combine (combine ms outs) (gif_images g)), Ok false) /\
    rd_rest L (dc_rd L d') = tl.
Proof.
  intros Hg (H1 & H2 & H3) N1 N2 Hlen Ho. destruct (read_info_doc L S umax Humax o g tl src Hg H1 H2 H3) as (d & c & bs & E & Hr & Ec).
  rewrite <- Ec in Ho. destruct (read_mixed_doc L S umax Humax o g tl N1 N2 ms d c bs outs Hr Hlen Ho) as (d' & E' & F).
  exists d, d'. split; [exact E|]. rewrite E', Ec. split; [reflexivity|apply F].
Qed.
End File.

(** Over buffers of zeros the three ways give the same bytes for frames that are not interlaced. *)
Lemma paint_zeros pal t px old : Forall (fun b => b = 0) old -> length old = (4 * length px)%nat ->
  paint pal t px old = flat_map (fun i => match rgba_of pal t i with Some c => c | None => [0; 0; 0; 0] end) px.
Proof.
  revert old. induction px as [|x px IH]; intros old Hz Hl; [reflexivity|]. rewrite paint_cons. cbn [flat_map length] in *.
  destruct old as [|a [|b [|c [|e old]]]]; cbn [length] in Hl; try lia.
  inversion Hz as [|? ? -> Hz1]; subst. inversion Hz1 as [|? ? -> Hz2]; subst. inversion Hz2 as [|? ? -> Hz3]; subst.
  inversion Hz3 as [|? ? -> Hz4]; subst. f_equal. cbn [skipn]. apply IH; [exact Hz4|lia].
Qed.
Theorem shown_over_zeros c pal t px old : Forall (fun b => b = 0) old -> length old = (px_bytes c * length px)%nat ->
  shown_over c pal t px old = shown c pal t px.
Proof. intros Hz Hl. unfold shown_over, shown. destruct c; [apply paint_zeros; assumption|reflexivity]. Qed.
