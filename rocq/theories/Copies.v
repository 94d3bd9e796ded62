(** The example programs: every order of arrival gives the same file; the copies show the pictures of the original. *)
From Coq Require Import Permutation.
From Verif Require Import Base Common Lzw Encoder Stream Converter Reader DecoderSafe CanonReader SpecGif SpecPixels
  SpecEnc SpecRound DocBlocks Pixels DocRead DocAll EncLin EncSpec EncSession RoundTrip FrameDec FrameInv Rewrite Programs.
Open Scope N_scope.

(** ** The queue *)
Definition numbered (k : nat) (fs : list frame) : list (nat * frame) := combine (seq k (length fs)) fs.

Lemma pick_some k q f q' : pick k q = Some (f, q') -> Permutation q ((k, f) :: q').
Proof.
  revert q'. induction q as [|[j h] q IH]; intros q'; cbn [pick fst snd]; [discriminate|].
  destruct (Nat.eqb_spec j k) as [->|Hn].
  - intros [= <- <-]. apply Permutation_refl.
  - destruct (pick k q) as [[f1 l]|]; [|discriminate]. intros [= <- <-].
    eapply Permutation_trans; [apply perm_skip, IH; reflexivity|]. apply perm_swap.
Qed.
Lemma pick_none k q f : pick k q = None -> ~ In (k, f) q.
Proof.
  induction q as [|[j h] q IH]; cbn [pick fst snd]; [intros _ []|]. destruct (Nat.eqb_spec j k) as [->|Hn]; [discriminate|].
  destruct (pick k q) as [[f1 l]|]; [discriminate|]. intros _ [H|H]; [congruence|]. exact (IH eq_refl H).
Qed.
Lemma numbered_cons k f fs : numbered k (f :: fs) = (k, f) :: numbered (S k) fs.
Proof. reflexivity. Qed.
Lemma numbered_ge k fs j f : In (j, f) (numbered k fs) -> (k <= j)%nat.
Proof. intros H. apply in_combine_l in H. apply in_seq in H. lia. Qed.
(** The frame with the smallest number is the first. *)
Lemma numbered_head k fs f l : Permutation ((k, f) :: l) (numbered k fs) -> exists fs', fs = f :: fs' /\ Permutation l (numbered (S k) fs').
Proof.
  intros H. destruct fs as [|f1 fs].
  { apply Permutation_sym, Permutation_nil in H. discriminate. }
  rewrite numbered_cons in H. assert (Hin : In (k, f) ((k, f1) :: numbered (S k) fs)) by (eapply Permutation_in; [exact H|now left]).
  destruct Hin as [[= <-]|Hin]; [|apply numbered_ge in Hin; lia].
  exists fs. split; [reflexivity|]. eapply Permutation_cons_inv; exact H.
Qed.

Section Queue.
Variables (L : lzw_codec) (dbg : bool).

Lemma flush_spec fuel : forall q next e fs rest q2 next2 e2 r, Permutation (q ++ rest) (numbered next fs) -> (length q <= fuel)%nat ->
  flush_queue fuel q next e = (q2, next2, e2, r) ->
  exists fs1 fs2, fs = fs1 ++ fs2 /\ run_ops L dbg e (map OWritePre fs1) = (e2, r) /\
    (r = Ok tt -> Permutation (q2 ++ rest) (numbered next2 fs2) /\ pick next2 q2 = None).
Proof.
  induction fuel as [|fuel IH]; intros q next e fs rest q2 next2 e2 r Hp Hf; cbn [flush_queue].
  - destruct q as [|p q]; [|cbn [length] in Hf; lia]. cbn [pick]. intros [= <- <- <- <-]. exists [], fs. split; [reflexivity|].
    split; [reflexivity|]. auto.
  - destruct (pick next q) as [[f q']|] eqn:Ep.
    + pose proof (pick_some _ _ _ _ Ep) as Hq.
      assert (Hp2 : Permutation ((next, f) :: (q' ++ rest)) (numbered next fs)).
      { eapply Permutation_trans; [|exact Hp]. change ((next, f) :: q' ++ rest) with (((next, f) :: q') ++ rest).
        apply Permutation_app_tail. now apply Permutation_sym. }
      destruct (numbered_head _ _ _ _ Hp2) as (fs' & -> & Hp3). apply Permutation_length in Hq. cbn [length] in Hq.
      destruct (write_lzw_pre_encoded_frame e f) as [e1 r1] eqn:Ew. destruct r1 as [[]|er| |].
      * intros H. destruct (IH _ _ _ _ _ _ _ _ _ Hp3 ltac:(lia) H) as (fs1 & fs2 & -> & Hr & Hk).
        exists (f :: fs1), fs2. split; [reflexivity|]. split; [|exact Hk]. cbn [map run_ops run_op]. rewrite Ew. exact Hr.
      * intros [= <- <- <- <-]. exists [f], fs'. split; [reflexivity|]. cbn [map run_ops run_op]. rewrite Ew. split; [reflexivity|discriminate].
      * intros [= <- <- <- <-]. exists [f], fs'. split; [reflexivity|]. cbn [map run_ops run_op]. rewrite Ew. split; [reflexivity|discriminate].
      * intros [= <- <- <- <-]. exists [f], fs'. split; [reflexivity|]. cbn [map run_ops run_op]. rewrite Ew. split; [reflexivity|discriminate].
    + intros [= <- <- <- <-]. exists [], fs. split; [reflexivity|]. split; [reflexivity|]. auto.
Qed.

Lemma run_ops_app ops1 : forall e ops2, run_ops L dbg e (ops1 ++ ops2) =
  let '(e1, r) := run_ops L dbg e ops1 in match r with Ok _ => run_ops L dbg e1 ops2 | _ => (e1, r) end.
Proof.
  induction ops1 as [|o ops1 IH]; intros e ops2; [reflexivity|]. cbn [app run_ops].
  destruct (run_op L dbg e o) as [e1 [a|er| |]]; [apply IH|reflexivity|reflexivity|reflexivity].
Qed.
Lemma run_ops_unit ops : forall e e' a, run_ops L dbg e ops = (e', Ok a) -> a = tt.
Proof. intros e e' [] _. reflexivity. Qed.

Lemma receive_gen msgs : forall q next e fs, Permutation (q ++ msgs) (numbered next fs) -> pick next q = None ->
  receive msgs q next e = run_ops L dbg e (map OWritePre fs).
Proof.
  induction msgs as [|m msgs IH]; intros q next e fs Hp Hq; cbn [receive].
  - rewrite app_nil_r in Hp. destruct fs as [|f fs]; [reflexivity|]. exfalso. eapply pick_none; [exact Hq|].
    eapply Permutation_in; [apply Permutation_sym, Hp|]. rewrite numbered_cons. now left.
  - destruct (flush_queue (length (q ++ [m])) (q ++ [m]) next e) as [[[q2 next2] e1] r] eqn:Ef.
    assert (Hp1 : Permutation ((q ++ [m]) ++ msgs) (numbered next fs)) by (rewrite <- app_assoc; exact Hp).
    destruct (flush_spec _ _ _ _ _ _ _ _ _ _ Hp1 (le_n _) Ef) as (fs1 & fs2 & -> & Hr & Hk).
    rewrite map_app, run_ops_app, Hr. destruct r as [[]|er| |]; try reflexivity.
    destruct (Hk eq_refl) as [K1 K2]. exact (IH _ _ _ _ K1 K2).
Qed.
End Queue.

(** Whatever the order of arrival, and whatever the writer does, the program writes the frames in their order. *)
Theorem receive_in_order L dbg e fs msgs : Permutation msgs (numbered 0 fs) ->
  receive msgs [] 0 e = run_ops L dbg e (map OWritePre fs).
Proof. intros H. exact (receive_gen L dbg msgs [] 0 e fs H eq_refl). Qed.

(** ** A frame read as indices, and written again *)
Lemma picture_bytes w h b px : bytes_ok px -> bytes_ok (picture w h b px).
Proof.
  intros H. unfold picture. destruct b; [|now apply bytes_ok_firstn]. unfold deinterlace. apply Forall_forall. intros x Hx.
  apply in_map_iff in Hx. destruct Hx as (p & <- & _). now apply nth_byte.
Qed.
(** Dropping an encoder writes what [into_inner] would. *)
Lemma drop_inner e e3 w3 : into_inner e = (e3, Ok w3) -> e_w (encoder_drop e) = Some w3.
Proof.
  unfold into_inner, encoder_drop. destruct (e_w e) as [w|] eqn:Ew.
  - destruct (write_trailer e) as [e1 [a|er| |]]; try discriminate. cbn [fst]. destruct (e_w e1); [|discriminate]. now intros [= _ <-].
  - unfold write_trailer, with_writer. rewrite Ew. discriminate.
Qed.

Section Copy.
Variable L : lzw_codec.
Variable S : lzw_spec L.
Variable umax : N.
Hypothesis Humax : 2 ^ 32 - 1 <= umax.
Variable g : gif.
Notation pal := (or_empty (gif_palette g)).
Notation copy ci out := (seen options_new g ci out).

Lemma pal_facts o : gif_ok o g ->
  (has_table (g_flags g) = true -> pal = g_gct g /\ usable pal = true /\ padded pal = pal) /\ (colors pal <= 256)%nat /\ bytes_ok pal.
Proof.
  clear. intros (_ & _ & _ & _ & _ & Gt & _). unfold gif_palette. destruct (has_table (g_flags g)) eqn:Et; cbn [or_empty].
  - destruct (padded_table _ _ Gt Et) as (P1 & P2 & P3). split; [auto|]. split; [exact P2|apply Gt].
  - split; [discriminate|]. split; [cbn; lia|constructor].
Qed.

Lemma copy_size ci out o : holds L S umax o ci out -> length (im_picture (snd ci) out) = im_pixels (snd ci) /\ (0 < im_pixels (snd ci))%nat.
Proof.
  clear. intros (_ & H & _). split; [|lia]. unfold im_picture, im_pixels in *. apply picture_length. lia.
Qed.
Lemma copy_rng o ci out : ctl_rng (fst ci) /\ img_ok o g (snd ci) -> bytes_ok out -> frame_rng (copy ci out).
Proof.
  intros [[C1 C2] I] Hb. destruct ci as [c i]. cbn [fst snd] in *.
  destruct I as (I1 & I2 & I3 & I4 & I5 & I6 & _). unfold frame_rng, seen.
  cbn [meta_frame fst snd f_delay f_left f_top f_width f_height f_transparent f_palette f_buffer].
  repeat (split; [assumption|]). split.
  - intros p. destruct (has_table (im_flags i)); [|discriminate]. intros [= <-]. apply I6.
  - cbn [options_new o_color shown]. apply picture_bytes. exact Hb.
Qed.
Lemma copy_palette o ci out : gif_ok o g -> img_ok o g (snd ci) -> palette_error (usable pal) (copy ci out) = None.
Proof.
  clear Humax. intros Hg (_ & _ & _ & _ & _ & I6 & _ & _ & _ & It). destruct (pal_facts o Hg) as (P1 & _).
  unfold palette_error, seen. cbn [meta_frame f_palette]. destruct (has_table (im_flags (snd ci))) eqn:Et.
  - destruct (padded_table _ _ I6 Et) as (_ & Q & _). destruct (Nat.ltb_spec 256 (colors (im_lct (snd ci)))); [lia|reflexivity].
  - destruct It as [It|It]; [discriminate|]. destruct (P1 It) as (_ & -> & _). reflexivity.
Qed.
Lemma copy_buffer ci out : f_buffer (copy ci out) = im_picture (snd ci) out.
Proof. reflexivity. Qed.
Lemma copy_pixels ci out o : holds L S umax o ci out ->
  f_width (copy ci out) * f_height (copy ci out) = len (f_buffer (copy ci out)) /\ 0 < len (f_buffer (copy ci out)).
Proof.
  clear Humax. intros H. destruct (copy_size _ _ _ H) as [E P]. rewrite copy_buffer. unfold seen. cbn [meta_frame f_width f_height].
  unfold len. rewrite E. unfold im_pixels in *. split; lia.
Qed.
Lemma copy_written dbg o1 o2 ci out : gif_ok o1 g -> img_ok o1 g (snd ci) -> holds L S umax o2 ci out ->
  op_result dbg (usable pal) (OWriteFrame (copy ci out)) = Ok tt.
Proof.
  clear Humax. intros Hg Hi Hh. destruct (copy_pixels _ _ _ Hh) as [E P]. unfold op_result. rewrite E, N.ltb_irrefl.
  destruct (N.eqb_spec (len (f_buffer (copy ci out))) 0) as [Hz|_]; [lia|]. rewrite andb_false_r. cbn [andb].
  rewrite (copy_palette o1) by assumption. reflexivity.
Qed.

Lemma copy_readable o ci out : gif_ok o g -> img_ok o g (snd ci) -> holds L S umax o ci out -> fits (o_limit o) 5 ->
  frame_readable o umax (g_w g) (g_h g) (copy ci out) (f_buffer (copy ci out)).
Proof.
  clear Humax. intros Hg Hi Hh H5. destruct (copy_pixels _ _ _ Hh) as [E P]. destruct Hh as (_ & M2 & M3 & M4).
  unfold frame_readable. rewrite E. split; [exact H5|]. split; [unfold seen; cbn [meta_frame f_left f_top f_width f_height]; apply Hi|].
  split; [unfold len in *; lia|]. rewrite <- E. unfold seen. cbn [meta_frame f_width f_height].
  unfold frame_bytes, im_pixels in *.
  replace (N.of_nat (px_bytes (o_color o)) * (im_w (snd ci) * im_h (snd ci))) with
    (N.of_nat (px_bytes (o_color o) * (N.to_nat (im_w (snd ci)) * N.to_nat (im_h (snd ci))))) by lia. auto.
Qed.

Lemma copy_wanted o ci out : gif_ok o g -> img_ok o g (snd ci) -> holds L S umax o ci out ->
  wanted (o_color o) pal (copy ci out) (f_buffer (copy ci out)) = seen o g ci out.
Proof.
  clear Humax. intros Hg Hi Hh. destruct (copy_size _ _ _ Hh) as [E P]. destruct (pal_facts o Hg) as (P1 & _).
  pose proof Hg as (_ & _ & _ & _ & _ & Gt & _).
  destruct Hi as (_ & _ & _ & _ & _ & I6 & _ & _ & _ & It). rewrite copy_buffer. destruct ci as [c i]. cbn [fst snd] in *.
  unfold wanted, seen, pal_of, meta_frame. cbn [fst snd f_delay f_dispose f_transparent f_needs_user_input f_top f_left f_width f_height f_interlaced f_palette].
  replace (picture (N.to_nat (im_w i)) (N.to_nat (im_h i)) false (im_picture i out)) with (im_picture i out)
    by (unfold picture at 1; rewrite firstn_all2 by (rewrite E; unfold im_pixels; lia); reflexivity).
  destruct (has_table (im_flags i)) eqn:Et.
  - destruct (padded_table _ _ I6 Et) as [-> _]. reflexivity.
  - destruct It as [It|It]; [discriminate|]. destruct (P1 It) as (-> & _ & _). rewrite It.
    destruct (padded_table _ _ Gt It) as [-> _]. reflexivity.
Qed.

(** ** explode *)
(** The copy [w] of one image: a file of the same size that shows this image alone, with any options that can read it
    in the original. *)
Definition single_copy (w : writer) (p : ctl * img * list N) : Prop :=
  forall o src tl, gif_ok o g -> o_skip_frame_decoding o = false -> o_check_for_end_code o = false ->
  holds L S umax o (fst p) (snd p) -> fits (o_limit o) 5 -> delivers src (w_out w ++ tl) ->
  exists d d', read_info L src o = Ok d /\ dec_width L d = g_w g /\ dec_height L d = g_h g /\
    read_all L umax 2 d = (d', [seen o g (fst p) (snd p)], Ok false) /\ rd_rest L (dc_rd L d') = tl.

Lemma explode_one dbg o1 w ci out : gif_ok o1 g -> ctl_rng (fst ci) /\ img_ok o1 g (snd ci) -> holds L S umax options_new ci out ->
  bytes_ok out -> Forall harmless (w_plan w) -> w_out w = [] -> In ci (gif_images g) ->
  exists w', explode_file L dbg w (g_w g) (g_h g) pal (copy ci out) = (w', Ok tt) /\ single_copy w' (ci, out).
Proof.
  intros G1 Hr Hh Hb Hp Hw Hin. pose proof G1 as (Gw & Gh & _). destruct (pal_facts o1 G1) as (P1 & P2 & P3).
  set (ops := [OWriteFrame (copy ci out)]).
  assert (Ro : Forall op_rng ops) by (constructor; [exact (copy_rng _ _ _ Hr Hb)|constructor]).
  assert (Hok : Forall (fun op => op_result dbg (usable pal) op = Ok tt) ops).
  { constructor; [|constructor]. exact (copy_written dbg _ _ _ _ G1 (proj2 Hr) Hh). }
  destruct (session_runs L dbg w (g_w g) (g_h g) pal ops Gw Gh Ro Hp P2 Hok) as (e1 & e2 & e3 & w3 & S1 & S2 & S3).
  exists w3. split.
  - unfold explode_file. rewrite S1. unfold ops in S2. cbn [run_ops run_op] in S2.
    destruct (write_frame L dbg e1 (copy ci out)) as [ea [[]|er| |]]; try discriminate S2. injection S2 as ->.
    unfold file_of. rewrite (drop_inner _ _ _ S3). reflexivity.
  - intros o src tl G2 K1 K2 Ho H5 Hd. cbn [fst snd] in Ho.
    pose proof (proj1 (Forall_forall _ _) (images_rng o g G2) ci Hin) as [_ Hi].
    destruct (round_trip L S umax Humax o w (g_w g) (g_h g) pal dbg ops e1 e2 e3 w3 [(copy ci out, f_buffer (copy ci out))] tl src 2 Gw Gh P3 Ro S1 S2 S3 Hw Hd)
      as (d & d' & E & T1 & T2 & T3 & T4 & T5 & T6).
    + constructor; [exact I|constructor].
    + apply written_frame; [reflexivity|constructor|constructor].
    + apply Exists_cons_hd. exact I.
    + constructor; [|constructor]. cbn [fst snd]. exact (copy_readable _ _ _ G2 Hi Ho H5).
    + exact K1.
    + exact K2.
    + cbn [length]. lia.
    + exists d, d'. split; [exact E|]. split; [exact T1|]. split; [exact T2|]. split; [|exact T6].
      rewrite T5. cbn [map fst snd]. rewrite copy_wanted by assumption. reflexivity.
Qed.
End Copy.

Section Programs.
Variable L : lzw_codec.
Variable S : lzw_spec L.
Variable umax : N.
Hypothesis Humax : 2 ^ 32 - 1 <= umax.
Variable g : gif.
Notation pal := (or_empty (gif_palette g)).
Notation copy ci out := (seen options_new g ci out).

Lemma explode_loop_copies dbg create o1 : gif_ok o1 g ->
  (forall k, exists w, create k = Some w /\ Forall harmless (w_plan w) /\ w_out w = []) ->
  forall n d d' cis outs k, read_all L umax n d = (d', map (fun p => copy (fst p) (snd p)) (combine cis outs), Ok false) ->
  (length outs < n)%nat -> length cis = length outs ->
  Forall (fun ci => In ci (gif_images g)) cis -> Forall2 (holds L S umax options_new) cis outs -> Forall bytes_ok outs ->
  exists files, explode_loop L umax dbg create n (g_w g) (g_h g) pal k d = (files, Ok tt) /\
    Forall2 (single_copy L S umax g) files (combine cis outs).
Proof.
  intros G1 Hc. induction n as [|n IH]; intros d d' cis outs k Hr Hn Hl Hin Hh Hb; [lia|].
  cbn [read_all explode_loop] in *. destruct (read_next_frame L umax d) as [d1 x] eqn:E.
  destruct Hh as [|ci out cis outs H1 H2].
  - cbn [combine map] in *. destruct x as [[|]|er| |]; try discriminate Hr.
    + destruct (read_all L umax n d1) as [[? ?] ?]; discriminate Hr.
    + exists []. split; [reflexivity|constructor].
  - cbn [combine map fst snd] in *. destruct x as [[|]|er| |]; try discriminate Hr.
    destruct (read_all L umax n d1) as [[d2 fs] y] eqn:E2. injection Hr as -> Hf Hfs ->.
    inversion Hin as [|? ? I1 I2]; subst. inversion Hb as [|? ? B1 B2]; subst.
    destruct (Hc k) as (w & Ew & Hp & Hw). rewrite Ew, Hf.
    pose proof (proj1 (Forall_forall _ _) (images_rng o1 g G1) ci I1) as Hrng.
    destruct (explode_one L S umax Humax g dbg o1 w ci out G1 Hrng H1 B1 Hp Hw I1) as (w' & Ef & Hs). rewrite Ef.
    cbn [length] in *. destruct (IH d1 d' cis outs (Datatypes.S k) E2 ltac:(lia) ltac:(lia) I2 H2 B2) as (files & El & F).
    rewrite El. exists (w' :: files). split; [reflexivity|]. constructor; assumption.
Qed.

Theorem explode_copies dbg create tl src outs n : gif_ok options_new g -> delivers src (ser_gif g tl) ->
  Forall2 (holds L S umax options_new) (gif_images g) outs -> Forall bytes_ok outs -> (length outs < n)%nat ->
  (forall k, exists w, create k = Some w /\ Forall harmless (w_plan w) /\ w_out w = []) ->
  exists files, explode L umax dbg create n src = (files, Ok tt) /\
    Forall2 (single_copy L S umax g) files (combine (gif_images g) outs).
Proof.
  intros G D Ho Hb Hn Hc. unfold explode.
  destruct (file_info L S umax Humax options_new g tl src G D) as (d & E & I1 & I2 & I3 & _).
  destruct (file_frames L S umax Humax options_new g tl src outs n G D eq_refl eq_refl Ho Hn) as (d0 & d' & E0 & Er & _).
  rewrite E in E0. injection E0 as <-. rewrite E, I1, I2, I3.
  apply (explode_loop_copies dbg create options_new G Hc n d d' (gif_images g) outs 1); auto.
  - exact (forall2_length _ _ _ Ho).
  - apply Forall_forall. auto.
Qed.

(** ** parallel *)
(** The iterator gives the compressed frames. *)
Lemma take_frames_raw ez fin o : o_skip_frame_decoding o = true ->
  (forall d, reached L S o g ez d -> over L (Ok false) fin d) ->
  forall n d c bs, ready L S o g ez d c bs -> (length (controlled c bs) < n)%nat ->
  Forall (fun ci => fits (o_limit o) (1 + len (payload (im_subs (snd ci))))) (controlled c bs) ->
  take_frames L umax n (mk_iter L d false) = (map raw_seen (controlled c bs), Ok tt).
Proof.
  intros Hsk Hend. induction n as [|n IH]; intros d c bs Hr Hn Hm; [lia|]. cbn [take_frames]. unfold iter_next. cbn [it_ended it_dec].
  pose proof (read_next_frame_raw_at L S umax Humax o g ez d c bs Hsk Hr) as H. destruct (controlled c bs) as [|[c1 i] l] eqn:Ec.
  - destruct (over_frame L umax (Ok false) fin (or_introl eq_refl) d (Hend d H)) as (d' & E & F). rewrite E. reflexivity.
  - inversion Hm as [|? ? Hm1 Hm2]; subst. destruct (H Hm1) as (d1 & bs' & E & El & Hi & Hcur & Hr1). rewrite E, Hcur.
    cbn [meta_frame f_buffer is_nil]. unfold frame_take.
    rewrite El in *. cbn [length] in Hn. rewrite IH with (c := ctl_none) (bs := bs').
    + reflexivity.
    + apply ready_take; [exact Hr1|]. destruct Hr1 as ([[(_ & G2 & _) _] _ _ _ _ _ _ _] & _). rewrite Hcur in G2.
      destruct G2 as (F1 & F2 & F3 & F4 & F5 & F6 & _). 
      split; [exact F1|]. split; [exact F2|]. split; [exact F3|]. split; [exact F4|]. split; [exact F5|]. split; [exact F6|exact I].
    + lia.
    + exact Hm2.
Qed.

(** Each thread makes a compressed copy of its picture. *)
Hypothesis eager : lzw_eager S.
Lemma reencode_copy ci out : 1 <= im_mcs (snd ci) <= 11 -> holds L S umax options_new ci out ->
  reencode L umax (raw_seen ci) = Ok (make_lzw_pre_encoded L (copy ci out)).
Proof.
  intros Hm (H1 & H2 & H3 & H4). destruct ci as [c i]. cbn [fst snd] in *. unfold frame_bytes, im_pixels in *.
  assert (Hfd : fd_fit L S (fd_new L options_new)) by (apply fd_fit_new; reflexivity).
  destruct (decode_frame_spec L S umax eager Humax (fd_new L options_new) (raw_seen (c, i)) (im_mcs i) (payload (im_subs i)) out Hfd eq_refl Hm H1) as (fd' & E & _).
  - cbn [raw_seen meta_frame f_width f_height fst snd]. lia.
  - cbn [raw_seen meta_frame f_width f_height fst snd fd_new fd_conv conv_new cv_color options_new o_color px_bytes] in *. lia.
  - cbn [raw_seen meta_frame f_width f_height fst snd fd_new fd_conv conv_new cv_color cv_limit options_new o_limit o_color px_bytes fits] in *. lia.
  - unfold reencode. rewrite E. reflexivity.
Qed.
Lemma reencode_copies cis outs : Forall (fun ci => 1 <= im_mcs (snd ci) <= 11) cis -> Forall2 (holds L S umax options_new) cis outs ->
  reencode_all L umax (map raw_seen cis) = Ok (map (fun p => make_lzw_pre_encoded L (copy (fst p) (snd p))) (combine cis outs)).
Proof.
  intros Hm H. induction H as [|ci out cis outs H1 H2 IH]; [reflexivity|]. apply Forall_cons_iff in Hm as [M1 Hm].
  cbn [map reencode_all combine fst snd]. rewrite (reencode_copy _ _ M1 H1), (IH Hm). reflexivity.
Qed.

Definition whole_copy (w : writer) (outs : list (list N)) : Prop :=
  forall o src tl n, gif_ok o g -> o_skip_frame_decoding o = false -> o_check_for_end_code o = false ->
  Forall2 (holds L S umax o) (gif_images g) outs -> fits (o_limit o) 15 -> (length outs < n)%nat -> delivers src (w_out w ++ tl) ->
  exists d d', read_info L src o = Ok d /\ dec_width L d = g_w g /\ dec_height L d = g_h g /\ dec_repeat L d = gif_repeat g /\
    (has_table (g_flags g) = true -> dec_global_palette L d = gif_palette g) /\
    read_all L umax n d = (d', all_seen o g (gif_images g) outs, Ok false) /\ rd_rest L (dc_rd L d') = tl.

Theorem parallel_copies order tl src outs n w : gif_ok parallel_opts g -> delivers src (ser_gif g tl) ->
  Forall (fun ci => fits (o_limit parallel_opts) (1 + len (payload (im_subs (snd ci))))) (gif_images g) ->
  Forall2 (holds L S umax options_new) (gif_images g) outs -> Forall bytes_ok outs -> (length outs < n)%nat ->
  gif_images g <> [] \/ gif_repeat g <> RFinite 0 ->
  (forall l, Permutation (order l) l) -> Forall harmless (w_plan w) -> w_out w = [] ->
  exists w', parallel L umax order n src w = (w', Ok tt) /\ whole_copy w' outs.
Proof.
  intros G D Hf Ho Hb Hn Hne Hord Hp Hw. pose proof (forall2_length _ _ _ Ho) as Hlen.
  pose proof G as (Gw & Gh & _ & _ & _ & Gt & _). destruct (pal_facts g parallel_opts G) as (P1 & P2 & P3).
  destruct (file_info L S umax Humax parallel_opts g tl src G D) as (d & E & I1 & I2 & I3 & _ & I5).
  destruct (cut_opened L S umax Humax parallel_opts g (0x3B :: tl) (gif_part_ok _ _ G) (done_starts parallel_opts g tl G) (done_opens g tl _) src D)
    as (d0 & c & bs & E0 & Hr & Ec).
  rewrite E in E0. injection E0 as <-.
  assert (Ht : take_frames L umax n (mk_iter L d false) = (map raw_seen (gif_images g), Ok tt)).
  { rewrite <- Ec. apply (take_frames_raw (done g tl) (finished L g tl) parallel_opts eq_refl (done_over L S umax Humax parallel_opts g tl)); [exact Hr|rewrite Ec; lia|rewrite Ec; exact Hf]. }
  pose proof (images_rng parallel_opts g G) as Hrng.
  assert (Hm : Forall (fun ci => 1 <= im_mcs (snd ci) <= 11) (gif_images g)) by (eapply Forall_impl; [|exact Hrng]; intros ci [_ Hi]; apply Hi).
  set (fs := map (fun p => make_lzw_pre_encoded L (copy (fst p) (snd p))) (combine (gif_images g) outs)).
  set (ops := OSetRepeat (gif_repeat g) :: map OWritePre fs).
  assert (Hpre : forall ci out, bytes_ok out -> f_buffer (make_lzw_pre_encoded L (copy ci out)) =
     code_bits (f_buffer (copy ci out)) :: lz_encode L (code_bits (f_buffer (copy ci out))) (f_buffer (copy ci out))).
  { intros ci out Hbo. unfold make_lzw_pre_encoded. cbn [set_buffer f_buffer]. apply lzw_encode_nil. apply picture_bytes. exact Hbo. }
  assert (Hall : forall p, In p (combine (gif_images g) outs) ->
     (ctl_rng (fst (fst p)) /\ img_ok parallel_opts g (snd (fst p))) /\ holds L S umax options_new (fst p) (snd p) /\ bytes_ok (snd p)).
  { intros [ci out] Hin. cbn [fst snd]. split; [exact (proj1 (Forall_forall _ _) Hrng _ (in_combine_l _ _ _ _ Hin))|].
    split; [|exact (proj1 (Forall_forall _ _) Hb _ (in_combine_r _ _ _ _ Hin))].
    clear - Ho Hin. induction Ho as [|c0 o0 cs os H1 H2 IH]; [destruct Hin|]. cbn [combine] in Hin. destruct Hin as [[= <- <-]|Hin]; auto. }
  assert (Ro : Forall op_rng ops).
  { constructor; [exact (repeat_of_rng _ _ G)|]. apply Forall_map, Forall_map, Forall_forall. intros [ci out] Hin.
    destruct (Hall _ Hin) as (R & Hh & Hbo). cbn [fst snd op_rng] in *. pose proof (copy_rng g _ _ _ R Hbo) as Q.
    destruct Q as (Q1 & Q2 & Q3 & Q4 & Q5 & Q6 & Q7 & Q8).
    split; [exact Q1|]. split; [exact Q2|]. split; [exact Q3|]. split; [exact Q4|]. split; [exact Q5|]. split; [exact Q6|]. split; [exact Q7|].
    rewrite (Hpre ci out Hbo). pose proof (code_bits_range (f_buffer (copy ci out))) as Hr8. constructor; [unfold byte_ok; lia|].
    apply (lz_encode_bytes L S); [exact Hr8|]. apply code_bits_fit. exact Q8. }
  assert (Hok : forall dbg, Forall (fun op => op_result dbg (usable pal) op = Ok tt) ops).
  { intros dbg. constructor; [reflexivity|]. apply Forall_map, Forall_map, Forall_forall. intros [ci out] Hin.
    destruct (Hall _ Hin) as (R & Hh & Hbo). cbn [fst snd] in *. cbn [op_result]. rewrite (Hpre ci out Hbo).
    pose proof (code_bits_range (f_buffer (copy ci out))) as Hr8.
    destruct (N.leb_spec 2 (code_bits (f_buffer (copy ci out)))); [|lia]. destruct (N.leb_spec (code_bits (f_buffer (copy ci out))) 11); [|lia].
    cbn [andb]. change (palette_error (usable pal) (make_lzw_pre_encoded L (copy ci out))) with (palette_error (usable pal) (copy ci out)).
    rewrite (copy_palette g parallel_opts) by (assumption || apply R). reflexivity. }
  destruct (session_runs L false w (g_w g) (g_h g) pal ops Gw Gh Ro Hp P2 (Hok false)) as (e1 & e2 & e3 & w3 & S1 & S2 & S3).
  exists w3. split.
  - unfold parallel. rewrite E, I1, I2, I3, I5. change (match gif_palette g with Some p => p | None => [] end) with pal. rewrite S1.
    unfold ops in S2. cbn [run_ops run_op] in S2. destruct (set_repeat e1 (gif_repeat g)) as [ea [[]|er| |]]; try discriminate S2.
    rewrite Ht, (reencode_copies _ _ Hm Ho). fold fs. fold (numbered 0 fs).
    rewrite (receive_in_order L false ea fs _ (Hord _)), S2, S3. reflexivity.
  - intros o src2 tl2 n2 G2 K1 K2 Ho2 H15 Hn2 D2.
    set (frames := map (fun p => (make_lzw_pre_encoded L (copy (fst p) (snd p)), f_buffer (copy (fst p) (snd p)))) (combine (gif_images g) outs)).
    assert (L5 : fits (o_limit o) 5) by (destruct (o_limit o); cbn [fits] in *; lia).
    pose proof (images_rng o g G2) as Hrng2.
    assert (Hall2 : forall p, In p (combine (gif_images g) outs) -> img_ok o g (snd (fst p)) /\ holds L S umax o (fst p) (snd p)).
    { intros [ci out] Hin. cbn [fst snd]. split; [exact (proj2 (proj1 (Forall_forall _ _) Hrng2 _ (in_combine_l _ _ _ _ Hin)))|].
      clear - Ho2 Hin. induction Ho2 as [|c0 o0 cs os H1 H2 IH]; [destruct Hin|]. cbn [combine] in Hin. destruct Hin as [[= <- <-]|Hin]; auto. }
    destruct (round_trip L S umax Humax o w (g_w g) (g_h g) pal false ops e1 e2 e3 w3 frames tl2 src2 n2 Gw Gh P3 Ro S1 S2 S3 Hw D2)
      as (d3 & d3' & E3 & T1 & T2 & T3 & T4 & T5 & T6).
    + constructor; [right; exact H15|]. apply Forall_map, Forall_map, Forall_forall. intros [ci out] Hin.
      destruct (Hall _ Hin) as (R & Hh & Hbo). cbn [fst snd call_readable] in *. rewrite (Hpre ci out Hbo).
      pose proof (code_bits_range (f_buffer (copy ci out))) as Hr8.
      assert (Hfit : Forall (fun b => b < 2 ^ code_bits (f_buffer (copy ci out))) (f_buffer (copy ci out))) by (apply code_bits_fit, picture_bytes; exact Hbo).
      pose proof (lz_encode_nonempty L S _ _ Hr8 Hfit) as Hnn. destruct (copy_pixels L S umax g _ _ _ Hh) as [_ Pp].
      destruct (lz_encode L (code_bits (f_buffer (copy ci out))) (f_buffer (copy ci out))) as [|b data].
      * exfalso. apply Hnn; [|reflexivity]. intros Ez. rewrite Ez in Pp. cbn in Pp. lia.
      * eexists _, b, data. reflexivity.
    + apply written_other; [reflexivity|]. unfold frames, fs. 
      assert (Hbb : Forall (fun p => bytes_ok (snd p)) (combine (gif_images g) outs)) by (apply Forall_forall; intros p Hin; apply (Hall p Hin)).
      clear - Hbb Hpre. induction Hbb as [|[ci out] l Hbo _ IH]; [constructor|]. cbn [map fst snd].
      apply written_frame; [reflexivity| |exact IH]. eapply carries_pre; [exact (Hpre ci out Hbo)|].
      apply (lz_encode_pending L S); [apply code_bits_range|]. apply code_bits_fit, picture_bytes. exact Hbo.
    + destruct Hne as [Hne|Hne].
      * apply Exists_cons_tl. unfold fs. destruct (gif_images g) as [|ci l]; [congruence|]. destruct outs as [|out outs]; [discriminate Hlen|].
        apply Exists_cons_hd. exact I.
      * apply Exists_cons_hd. cbn [writes_block]. destruct (gif_repeat g) as [[|p]|]; [congruence|exact I|exact I].
    + unfold frames. apply Forall_map, Forall_forall. intros [ci out] Hin. destruct (Hall2 _ Hin) as [Hi Hh]. cbn [fst snd] in *.
      exact (copy_readable L S umax g o ci out G2 Hi Hh L5).
    + exact K1.
    + exact K2.
    + unfold frames. rewrite map_length, combine_length. lia.
    + exists d3, d3'. split; [exact E3|]. split; [exact T1|]. split; [exact T2|]. split.
      { rewrite T4.
        - unfold ops. cbn [last_repeat].
          assert (Hl : forall r l, last_repeat r (map OWritePre l) = r) by (intros r l; destruct l; reflexivity).
          rewrite Hl. destruct (gif_repeat g) as [[|p]|]; reflexivity.
        - constructor; [exact I|]. apply Forall_map, Forall_forall. intros ci _. exact I. }
      split. { intros Et. rewrite T3. destruct (P1 Et) as (Q1 & _ & Q2). rewrite Q2. unfold gif_palette. rewrite Et. reflexivity. }
      split; [|exact T6]. rewrite T5. f_equal. f_equal. unfold frames, all_seen. rewrite map_map. apply map_ext_in. intros [ci out] Hin.
      destruct (Hall2 _ Hin) as [Hi Hh]. cbn [fst snd] in *.
      exact (copy_wanted L S umax g o ci out G2 Hi Hh).
Qed.
End Programs.
