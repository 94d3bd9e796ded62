(** A well-formed file whose image data contain an invalid LZW code. *)
From Verif Require Import Base Common Lzw LzwErrs Encoder Stream Converter Reader StreamInv Steps StepsRev
  ReaderInv Interlace Ranges ConvInv DecoderSafe Canon CanonReader SpecGif DocTrace DocBlocks SpecPixels
  Pixels PixelRead DocRead DocAll Mixed ShortData SpecVerdict Verdict Corrupt SpecCorrupt.
Open Scope N_scope.

Section CD.
Variable L : lzw_codec.
Variable S : lzw_spec L.
Variable Z : lzw_errs S.
Variable umax : N.
Hypothesis Humax : 2 ^ 32 - 1 <= umax.
Notation dcd := (dcd L).
Notation rd := (rd L).
Variable o : options.
Variable g : gif.
Variable tl : list N.
Notation ready := (ready L S o g (done g tl)).
Notation inimg := (inimg L S o g (done g tl)).
Notation after := (after (done g tl)).
Hypothesis noskip : o_skip_frame_decoding o = false.
Hypothesis nocheck : o_check_for_end_code o = false.
Notation fails i out := (lz_fails Z (lz_new L (im_mcs i)) (payload (im_subs i)) out).

(** In the data of an image, with [out] to be delivered before the invalid code. *)
Definition inbad (d : dcd) (bs : list blk) (out : list N) : Prop :=
  file_dec L o g d /\ exists x, badr L S Z o g (after x bs) (dc_rd L d) out.

Lemma inimg_bad d i bs out : inimg d i bs -> fails i out -> inbad d bs out.
Proof.
  intros (F & x & Hok & M & Hd) Hp. destruct (Hd noskip) as (z & Hz & Hb & _).
  split; [exact F|]. exists x. pose proof (fl_quiet _ _ _ _ F) as [[G _] Q].
  split; [exact G|]. split; [exact Q|]. split; [apply F|]. eapply bad_start; eassumption.
Qed.

Lemma badr_file d r c f t x bs out : file_dec L o g d -> badr L S Z o g (after x bs) r out -> same_settings (dc_conv L d) c -> frame_ok f ->
  file_dec L o g (set_cur L (set_conv L (set_rd L d r) c) f t).
Proof.
  intros F (G & Q & E & (data & z & M & _)) Hs Hf. destruct M as [M1 M2 M3 M4 M5 M6 M7 M8].
  apply file_set; assumption.
Qed.

Lemma inbad_color d bs out : inbad d bs out -> cv_color (dc_conv L d) = o_color o /\ cv_limit (dc_conv L d) = o_limit o.
Proof.
  intros (F & _). destruct (fl_quiet _ _ _ _ F) as [(_ & _ & G3 & G4 & _) _]. rewrite G3, G4, (fl_opts _ _ _ _ F). auto.
Qed.

Theorem read_next_frame_bad d c bs c1 i l out : ready d c bs -> controlled c bs = (c1, i) :: l -> fails i out ->
  feasible umax o HFrame i ->
  exists d' x, read_next_frame L umax d = (d', x) /\ told_bad o g HFrame (c1, i) out (dc_cur L d', [], x).
Proof.
  intros Hr Ec Hp (Hpx & Hu & Hlim). pose proof (next_frame_info_doc L S umax Humax o g tl d c bs Hr) as H. rewrite Ec in H.
  destruct H as (d1 & bs' & E & El & Hi & Hin & Hcur & Hty).
  pose proof (inimg_bad d1 i bs' out Hin Hp) as Hb. destruct (inbad_color _ _ _ Hb) as [Eco Eli]. destruct Hb as (F & x & Hb).
  assert (Hwh : (0 < N.to_nat (im_w i) /\ 0 < N.to_nat (im_h i))%nat).
  { unfold im_pixels in Hpx. destruct (N.to_nat (im_w i)); destruct (N.to_nat (im_h i)); lia. }
  unfold read_next_frame. rewrite E, Hty. unfold DocBlocks.img_ty. rewrite noskip.
  destruct (bad_frame umax rd (decode_next_bytes L) (DIo InvalidData) (badr L S Z o g (after x bs'))
     (cb_badr L S Z o g noskip nocheck (after x bs'))
     (dc_rd L d1) (dc_conv L d1) (dc_cur L d1) out (N.to_nat (im_w i)) (N.to_nat (im_h i)))
    as [(r & c2 & f2 & Ef & Hl & Hf2)|(r & c2 & Ef & Hl & Hs & _)].
  { rewrite Hcur. reflexivity. } { rewrite Hcur. reflexivity. } { apply Hwh. } { apply Hwh. } { exact Hb. }
  { rewrite Hcur. reflexivity. } { rewrite Eco. exact Hu. } { rewrite Eco, Eli. exact Hlim. }
  - rewrite Ef. eexists. eexists. split; [reflexivity|]. left. split; [reflexivity|exact Hl].
  - rewrite Ef. rewrite Eco, Hcur, (effective_pal_of L o g d1 c1 i _ _ F).
    eexists. eexists. split; [reflexivity|]. right. split; [reflexivity|]. split; [exact Hl|]. reflexivity.
Qed.

Theorem read_into_buffer_bad d c1 i bs out buf : inbad d bs out ->
  dc_cur L d = meta_frame c1 i (is_interlaced (im_flags i)) [] -> feasible umax o (HInto buf) i ->
  exists d' b x, read_into_buffer L umax d buf = (d', b, x) /\ dc_cur L d' = dc_cur L d /\
   ((x = Err (DIo InvalidData) /\ (length out <= im_pixels i)%nat) \/
    (x = Ok tt /\ (im_pixels i <= length out)%nat /\
     b = shown_over (o_color o) (pal_of g i) (c_transparent c1) (im_picture i out) buf ++ skipn (frame_bytes o i) buf)).
Proof.
  intros Hb Hcur (Hpx & Hbl & Hu). destruct (inbad_color _ _ _ Hb) as [Eco Eli]. destruct Hb as (F & x & Hb).
  assert (Hwh : (0 < N.to_nat (im_w i) /\ 0 < N.to_nat (im_h i))%nat).
  { unfold im_pixels in Hpx. destruct (N.to_nat (im_w i)); destruct (N.to_nat (im_h i)); lia. }
  unfold read_into_buffer.
  destruct (bad_into umax rd (decode_next_bytes L) (DIo InvalidData) (badr L S Z o g (after x bs))
     (cb_badr L S Z o g noskip nocheck (after x bs))
     (dc_rd L d) (dc_conv L d) (dc_cur L d) buf out (N.to_nat (im_w i)) (N.to_nat (im_h i)))
    as [(r & c2 & b & Ef & Hl)|(r & c2 & Ef & Hl & Hs & _)].
  { rewrite Hcur. reflexivity. } { rewrite Hcur. reflexivity. } { apply Hwh. } { apply Hwh. } { exact Hb. }
  { rewrite Eco. exact Hbl. } { exact Hu. }
  - rewrite Ef. eexists. eexists. eexists. split; [reflexivity|]. split; [reflexivity|]. left. auto.
  - rewrite Ef. rewrite Eco, Hcur, (effective_pal_of L o g d c1 i _ _ F).
    eexists. eexists. eexists. split; [reflexivity|]. split; [exact Hcur|]. right. split; [reflexivity|]. split; [exact Hl|]. reflexivity.
Qed.

Theorem fill_buffer_bad d c1 i bs out buf n : inbad d bs out ->
  dc_cur L d = meta_frame c1 i (is_interlaced (im_flags i)) [] ->
  (0 < n)%nat -> length buf = (px_bytes (o_color o) * n)%nat ->
  exists d' b x, fill_buffer L d buf = (d', b, x) /\ dc_cur L d' = dc_cur L d /\
   ((x = Err (DIo InvalidData) /\ (length out <= n)%nat) \/
    (x = Ok true /\ (n <= length out)%nat /\ b = shown_over (o_color o) (pal_of g i) (c_transparent c1) (firstn n out) buf /\
     inbad d' bs (skipn n out))).
Proof.
  intros Hb Hcur Hn Hbl. destruct (inbad_color _ _ _ Hb) as [Eco Eli]. destruct Hb as (F & x & Hb).
  unfold fill_buffer.
  destruct (bad_fill rd (decode_next_bytes L) (DIo InvalidData) (badr L S Z o g (after x bs))
     (cb_badr L S Z o g noskip nocheck (after x bs))
     (dc_rd L d) (dc_conv L d) (dc_cur L d) buf out n)
    as [(r & c2 & b & Ef & Hl)|(r & c2 & line & Ef & Hl & Hs & Hp' & Hll & Hc)].
  { exact Hb. } { exact Hn. } { rewrite Eco. exact Hbl. }
  - rewrite Ef. eexists. eexists. eexists. split; [reflexivity|]. split; [reflexivity|]. left. auto.
  - rewrite Ef. eexists. eexists. eexists. split; [reflexivity|]. split; [reflexivity|]. right. split; [reflexivity|]. split; [exact Hl|].
    split.
    + assert (Hfl : length (firstn n out) = n) by (rewrite firstn_length; lia).
      rewrite (shown_over_cells (o_color o) (pal_of g i) (c_transparent c1) (firstn n out) buf line).
      * rewrite Hfl, <- Hbl, skipn_all, app_nil_r. reflexivity.
      * lia.
      * exact Hll.
      * intros k Hk. rewrite Hfl in Hk. rewrite Eco in Hc. rewrite (Hc k Hk). unfold cellf. rewrite Eco, Hcur, (effective_pal_of L o g d c1 i _ _ F).
        replace (nth k (firstn n out) 0) with (nth k out 0); [reflexivity|].
        rewrite <- (firstn_skipn n out) at 1. rewrite app_nth1 by lia. reflexivity.
      * rewrite Hfl, <- Hbl, <- Hll at 1. rewrite Hll, !skipn_all2 by lia. reflexivity.
    + split; [|exists x; exact Hp'].
      assert (F' : file_dec L o g (set_cur L (set_conv L (set_rd L d r) c2) (dc_cur L d) (dc_ty L d))).
      { eapply badr_file; [exact F|exact Hp'|exact Hs|]. destruct (fl_quiet _ _ _ _ F) as [(_ & G2 & _) _]. exact G2. }
      exact F'.
Qed.

Lemma pieces_bad c1 i bs bufs : forall d out, inbad d bs out ->
  dc_cur L d = meta_frame c1 i (is_interlaced (im_flags i)) [] ->
  Forall (fun b => exists n, (0 < n)%nat /\ length b = (px_bytes (o_color o) * n)%nat) bufs ->
  let over px old := shown_over (o_color o) (pal_of g i) (c_transparent c1) px old in
  let pb := px_bytes (o_color o) in
  exists d' b x, fill_each L d bufs = (d', b, x) /\ dc_cur L d' = dc_cur L d /\
    ((x = Err (DIo InvalidData) /\
      exists pre cur post b1 b2, bufs = pre ++ cur :: post /\ b = b1 ++ b2 /\
        (length (concat pre) <= pb * length out <= length (concat pre) + length cur)%nat /\
        b1 = over (firstn (length (concat pre) / pb) out) (concat pre)) \/
     (x = Ok true /\ (length (concat bufs) <= pb * length out)%nat /\
      b = over (firstn (length (concat bufs) / pb) out) (concat bufs))).
Proof.
  cbn zeta. set (pb := px_bytes (o_color o)). assert (Hpb : (0 < pb)%nat) by (unfold pb; destruct (o_color o); cbn; lia).
  assert (Hnil : forall out, shown_over (o_color o) (pal_of g i) (c_transparent c1) (firstn (0 / pb) out) [] = []).
  { intros out. rewrite Nat.div_0_l by lia. cbn [firstn]. unfold shown_over. destruct (o_color o); reflexivity. }
  induction bufs as [|b bufs IH]; intros d out Hin Hcur Hb.
  - exists d, [], (Ok true). cbn [fill_each concat length]. split; [reflexivity|]. split; [reflexivity|]. right.
    split; [reflexivity|]. split; [lia|]. now rewrite Hnil.
  - inversion Hb as [|? ? (n & Hn & Eb) Hb']; subst. fold pb in Eb. cbn [fill_each].
    destruct (fill_buffer_bad d c1 i bs out b n Hin Hcur Hn Eb) as (d1 & b1 & x & E1 & C1 & [[-> Hl]|(-> & Hl & Eb1 & I1)]); rewrite E1.
    + exists d1, b1, (Err (DIo InvalidData)). split; [reflexivity|]. split; [exact C1|]. left. split; [reflexivity|].
      exists [], b, bufs, [], b1. cbn [concat length app]. rewrite Hnil. split; [reflexivity|]. split; [reflexivity|]. split; [nia|reflexivity].
    + rewrite <- C1 in Hcur. destruct (IH d1 (skipn n out) I1 Hcur Hb') as (d2 & b2 & y & E2 & C2 & Hcase). rewrite E2.
      assert (Hstep : forall m old, (length old = pb * m)%nat -> (m <= length out - n)%nat ->
        shown_over (o_color o) (pal_of g i) (c_transparent c1) (firstn n out) b ++
        shown_over (o_color o) (pal_of g i) (c_transparent c1) (firstn (length old / pb) (skipn n out)) old =
        shown_over (o_color o) (pal_of g i) (c_transparent c1) (firstn ((length b + length old) / pb) out) (b ++ old)).
      { intros m old Hm Hml. rewrite Hm, Eb. replace (pb * n + pb * m)%nat with ((n + m) * pb)%nat by lia.
        rewrite (Nat.mul_comm pb m), !Nat.div_mul by lia.
        rewrite <- shown_over_app by (rewrite firstn_length; fold pb; rewrite Eb; f_equal; lia). f_equal.
        rewrite <- (firstn_skipn n out) at 3. rewrite firstn_app, firstn_length, firstn_firstn.
        replace (Nat.min (n + m) n) with n by lia. f_equal. f_equal. lia. }
      exists d2, (b1 ++ b2), y. split; [reflexivity|]. split; [congruence|].
      destruct Hcase as [(-> & pre & cur & post & q1 & q2 & Ebs & Eb2 & Hpre & Eq1)|(-> & Hl2 & Eb2)].
      * left. split; [reflexivity|]. exists (b :: pre), cur, post, (b1 ++ q1), q2. cbn [concat app].
        split; [now rewrite Ebs|]. split; [rewrite Eb2; apply app_assoc|]. rewrite skipn_length in Hpre. rewrite !app_length.
        split; [nia|]. rewrite Eb1, Eq1.
        assert (Hm : exists m, length (concat pre) = (pb * m)%nat).
        { rewrite Ebs in Hb'. apply Forall_app in Hb' as [Hb' _]. clear -Hb'. induction pre as [|p pre IH]; [exists O; cbn; lia|].
          inversion Hb' as [|? ? (k & _ & Hk) Hr]; subst. destruct (IH Hr) as [m Hm]. exists (k + m)%nat. cbn [concat]. rewrite app_length, Hm. unfold pb in *. lia. }
        destruct Hm as [m Hm]. apply (Hstep m); [exact Hm|]. nia.
      * right. split; [reflexivity|]. rewrite skipn_length in Hl2. cbn [concat]. rewrite app_length. split; [nia|].
        rewrite Eb1, Eb2.
        assert (Hm : exists m, length (concat bufs) = (pb * m)%nat).
        { clear -Hb'. induction bufs as [|p pre IH]; [exists O; cbn; lia|].
          inversion Hb' as [|? ? (k & _ & Hk) Hr]; subst. destruct (IH Hr) as [m Hm]. exists (k + m)%nat. cbn [concat]. rewrite app_length, Hm. unfold pb in *. lia. }
        destruct Hm as [m Hm]. apply (Hstep m); [exact Hm|]. nia.
Qed.

(** One image, any way of reading it. *)
Lemma how_bad d c bs c1 i l m out : ready d c bs -> controlled c bs = (c1, i) :: l -> fails i out -> feasible umax o m i ->
  exists d' f b x, read_how L umax d m = (d', f, b, x) /\ told_bad o g m (c1, i) out (f, b, x).
Proof.
  intros Hr Ec Hp Hs. pose proof (next_frame_info_doc L S umax Humax o g tl d c bs Hr) as H. rewrite Ec in H.
  destruct H as (d1 & bs' & E & El & Hi & Hin & Hcur & Hty).
  pose proof (inimg_bad d1 i bs' out Hin Hp) as Hb.
  destruct m as [|buf|bufs|]; cbn [read_how].
  - destruct (read_next_frame_bad d c bs c1 i l out Hr Ec Hp Hs) as (d2 & x & E2 & Ht). rewrite E2.
    exists d2, (dc_cur L d2), [], x. auto.
  - rewrite E. destruct (read_into_buffer_bad d1 c1 i bs' out buf Hb Hcur Hs) as (d2 & b & x & E2 & C2 & Hcase). rewrite E2.
    eexists. eexists. eexists. eexists. split; [reflexivity|]. cbn [told_bad snd fst]. split; [rewrite C2, Hcur; reflexivity|].
    destruct Hcase as [[-> Hl]|(-> & Hl & ->)]; [left|right]; auto.
  - rewrite E. destruct (pieces_bad c1 i bs' bufs d1 out Hb Hcur Hs) as (d2 & b & x & E2 & C2 & Hcase). rewrite E2.
    eexists. eexists. eexists. eexists. split; [reflexivity|]. cbn [told_bad snd fst]. split; [rewrite C2, Hcur; reflexivity|exact Hcase].
  - rewrite E. eexists. eexists. eexists. eexists. split; [reflexivity|]. cbn [told_bad]. split; [reflexivity|]. rewrite Hcur. reflexivity.
Qed.

Hypothesis Hlimit : limit_ok umax (o_limit o).
Notation asked := (asked L S umax o).

Lemma each_bad mos : forall d c bs l1 ci l2 m out, ready d c bs -> controlled c bs = l1 ++ ci :: l2 ->
  Forall2 asked l1 mos -> fails (snd ci) out -> feasible umax o m (snd ci) ->
  exists d' rs r y, read_each L umax d (map fst mos ++ [m]) = (d', rs ++ [r], y) /\
    Forall2 (fun cm r => told umax o g (fst (snd cm)) (fst cm) (snd (snd cm)) r) (combine l1 mos) rs /\ told_bad o g m ci out r.
Proof.
  induction mos as [|[m0 out0] mos IH]; intros d c bs l1 ci l2 m out Hr Ec Hm Hp Hs.
  - inversion Hm; subst. cbn [app] in Ec. destruct ci as [c1 i].
    destruct (how_bad d c bs c1 i l2 m out Hr Ec Hp Hs) as (d1 & f & b & x & E & Ht). cbn [map app read_each]. rewrite E.
    destruct (next_frame_info L d1) as [d2 y]. exists d2, [], (f, b, x), y. split; [reflexivity|]. split; [constructor|exact Ht].
  - inversion Hm as [|[c1 i] ? l1' ? [Hp0 Hs0] Hm2]; subst. cbn [fst snd app] in *.
    destruct (how_told L S umax Humax o g tl noskip nocheck Hlimit d c bs c1 i _ m0 out0 Hr Ec Hp0 Hs0) as (d1 & f & b & x & bs' & E & Ht & El & Hr1).
    destruct (IH d1 ctl_none bs' l1' ci l2 m out Hr1 (eq_sym El) Hm2 Hp Hs) as (d2 & rs & r & y & E2 & T2 & Tb).
    exists d2, ((f, b, x) :: rs), r, y. cbn [map fst app read_each]. rewrite E, E2. split; [reflexivity|]. split; [|exact Tb].
    cbn [combine]. constructor; [exact Ht|exact T2].
Qed.

(** The iterator stops at such a frame. *)
Lemma iter_bad k : forall l1 d c bs outs c1 i out l2, ready d c bs -> controlled c bs = l1 ++ (c1, i) :: l2 ->
  Forall2 (holds L S umax o) l1 outs -> fails i out -> feasible umax o HFrame i -> (length out < im_pixels i)%nat ->
  exists it, iter_all L umax (length outs + Datatypes.S k) (mk_iter L d false) =
     (it, map IFrame (all_seen o g l1 outs) ++ IErr (DIo InvalidData) :: repeat INone k).
Proof.
  induction l1 as [|[c0 i0] l1 IH]; intros d c bs outs c1 i out l2 Hr Ec Hm Hp Hs Hl.
  - inversion Hm; subst. cbn [length Nat.add app] in *.
    destruct (read_next_frame_bad d c bs c1 i l2 out Hr Ec Hp Hs) as (d1 & x & E & Ht).
    cbn [told_bad snd] in Ht. destruct Ht as [[-> _]|(_ & Hx & _)]; [|lia].
    cbn [iter_all]. unfold iter_next. cbn [it_ended it_dec]. rewrite E. rewrite iter_ended.
    eexists. reflexivity.
  - inversion Hm as [|? out0 ? outs' Hm1 Hm2]; subst. cbn [app] in Ec.
    pose proof (read_next_frame_doc L S umax Humax o g tl noskip nocheck d c bs Hr) as H. rewrite Ec in H.
    pose proof Hm1 as (M1 & M2 & M3 & M4).
    destruct (H out0 M1 M2 M3 M4) as (d1 & bs' & E & El & Hcur & Hpx).
    pose proof (inpx_ready L S o g (done g tl) d1 bs' _ nocheck Hpx) as Hr1.
    change (meta_frame c0 i0 false _) with (seen o g (c0, i0) out0) in Hcur.
    cbn [length Nat.add iter_all]. unfold iter_next. cbn [it_ended it_dec]. rewrite E, Hcur.
    pose proof (seen_nonempty L S umax Humax o g (c0, i0) out0 Hm1) as Hne. destruct (f_buffer (seen o g (c0, i0) out0)) as [|x y] eqn:Eb; [congruence|].
    cbn [is_nil]. unfold frame_take.
    destruct (IH (set_cur L d1 (snd (frame_take (seen o g (c0, i0) out0))) (dc_ty L d1)) ctl_none bs' outs' c1 i out l2) as (it & E').
    + apply ready_take; [exact Hr1|]. destruct Hr1 as ([[(_ & G2 & _) _] _ _ _ _ _ _ _] & _). rewrite Hcur in G2.
      destruct G2 as (F1 & F2 & F3 & F4 & F5 & F6 & _). unfold frame_take. cbn [snd].
      split; [exact F1|]. split; [exact F2|]. split; [exact F3|]. split; [exact F4|]. split; [exact F5|]. split; [exact F6|exact I].
    + symmetry. exact El.
    + exact Hm2.
    + exact Hp.
    + exact Hs.
    + exact Hl.
    + unfold frame_take in E'. cbn [snd] in E'. rewrite E'. exists it. reflexivity.
Qed.
End CD.

Section File.
Variable L : lzw_codec.
Variable S : lzw_spec L.
Variable Z : lzw_errs S.
Variable umax : N.
Hypothesis Humax : 2 ^ 32 - 1 <= umax.

Theorem file_corrupt o g tl src l1 ci l2 mos m out : gif_ok o g -> delivers src (ser_gif g tl) ->
  o_skip_frame_decoding o = false -> o_check_for_end_code o = false -> limit_ok umax (o_limit o) ->
  gif_images g = l1 ++ ci :: l2 -> Forall2 (asked L S umax o) l1 mos ->
  lz_fails Z (lz_new L (im_mcs (snd ci))) (payload (im_subs (snd ci))) out -> feasible umax o m (snd ci) ->
  exists d d' rs r y, read_info L src o = Ok d /\ read_each L umax d (map fst mos ++ [m]) = (d', rs ++ [r], y) /\
    Forall2 (fun cm r => told umax o g (fst (snd cm)) (fst cm) (snd (snd cm)) r) (combine l1 mos) rs /\ told_bad o g m ci out r.
Proof.
  intros Hg (H1 & H2 & H3) N1 N2 Hl Hi Ho Hp Hf. destruct (read_info_doc L S umax Humax o g tl src Hg H1 H2 H3) as (d & c & bs & E & Hr & Ec).
  rewrite Hi in Ec. destruct (each_bad L S Z umax Humax o g tl N1 N2 Hl mos d c bs l1 ci l2 m out Hr Ec Ho Hp Hf) as (d' & rs & r & y & E' & T & Tb).
  exists d, d', rs, r, y. auto.
Qed.

Theorem file_corrupt_iter o g tl src l1 ci l2 outs out k : gif_ok o g -> delivers src (ser_gif g tl) ->
  o_skip_frame_decoding o = false -> o_check_for_end_code o = false ->
  gif_images g = l1 ++ ci :: l2 -> Forall2 (holds L S umax o) l1 outs ->
  lz_fails Z (lz_new L (im_mcs (snd ci))) (payload (im_subs (snd ci))) out -> feasible umax o HFrame (snd ci) ->
  (length out < im_pixels (snd ci))%nat ->
  exists d it, read_info L src o = Ok d /\
    iter_all L umax (length outs + Datatypes.S k) (mk_iter L d false) =
      (it, map IFrame (all_seen o g l1 outs) ++ IErr (DIo InvalidData) :: repeat INone k).
Proof.
  intros Hg (H1 & H2 & H3) N1 N2 Hi Ho Hp Hf Hl. destruct (read_info_doc L S umax Humax o g tl src Hg H1 H2 H3) as (d & c & bs & E & Hr & Ec).
  destruct ci as [c1 i]. rewrite Hi in Ec.
  destruct (iter_bad L S Z umax Humax o g tl N1 N2 k l1 d c bs outs c1 i out l2 Hr Ec Ho Hp Hf Hl) as (it & E').
  exists d, it. auto.
Qed.

(** Whatever the image data of the next frame are: the picture, or one of two errors. *)
Theorem file_any_data o g tl src ci l : gif_ok o g -> delivers src (ser_gif g tl) ->
  o_skip_frame_decoding o = false -> o_check_for_end_code o = false -> limit_ok umax (o_limit o) ->
  gif_images g = ci :: l -> feasible umax o HFrame (snd ci) ->
  exists d d' x out, read_info L src o = Ok d /\ read_next_frame L umax d = (d', x) /\
    ((lz_pending S (lz_new L (im_mcs (snd ci))) (payload (im_subs (snd ci))) out /\
      ((x = Ok true /\ (im_pixels (snd ci) <= length out)%nat /\ dc_cur L d' = seen o g ci out) \/
       (x = Err (DFormat ImageTruncated) /\ (length out < im_pixels (snd ci))%nat))) \/
     (lz_fails Z (lz_new L (im_mcs (snd ci))) (payload (im_subs (snd ci))) out /\
      ((x = Ok true /\ (im_pixels (snd ci) <= length out)%nat /\ dc_cur L d' = seen o g ci out) \/
       (x = Err (DIo InvalidData) /\ (length out <= im_pixels (snd ci))%nat)))).
Proof.
  intros Hg (H1 & H2 & H3) N1 N2 Hl Hi Hf. destruct (read_info_doc L S umax Humax o g tl src Hg H1 H2 H3) as (d & c & bs & E & Hr & Ec).
  rewrite Hi in Ec. destruct ci as [c1 i]. cbn [snd] in *.
  destruct (lf_total S Z (im_mcs i) (payload (im_subs i))) as [[out Hp]|[out Hp]].
  - pose proof Hf as (F1 & F2 & F3). destruct (le_lt_dec (im_pixels i) (length out)) as [Hge|Hlt].
    + pose proof (read_next_frame_doc L S umax Humax o g tl N1 N2 d c bs Hr) as H. rewrite Ec in H.
      destruct (H out Hp (conj F1 Hge) F2 F3) as (d1 & bs' & E1 & _ & Hcur & _).
      exists d, d1, (Ok true), out. split; [exact E|]. split; [exact E1|]. left. split; [exact Hp|]. left. auto.
    + destruct (read_next_frame_short L S umax Humax o g tl N1 N2 d c bs c1 i l out Hr Ec) as (d1 & bs' & E1 & _).
      { split; [exact Hp|]. auto. } { exact Hlt. }
      exists d, d1, (Err (DFormat ImageTruncated)), out. split; [exact E|]. split; [exact E1|]. left. split; [exact Hp|]. right. auto.
  - destruct (read_next_frame_bad L S Z umax Humax o g tl N1 N2 d c bs c1 i l out Hr Ec Hp Hf) as (d1 & x & E1 & Ht).
    exists d, d1, x, out. split; [exact E|]. split; [exact E1|]. right. split; [exact Hp|].
    cbn [told_bad snd] in Ht. destruct Ht as [Ht|Ht]; [right; exact Ht|left; exact Ht].
Qed.
End File.
