(** What the result of an example program says about its input. *)
From Coq Require Import Permutation.
From Verif Require Import Base Common Lzw Encoder Stream Converter Reader ConvInv DecoderSafe DocAll Programs SpecCount FrameCount
  SpecGif SpecPixels SpecEnc SpecRound EncLin EncSession FrameDec FrameInv Copies.
Open Scope N_scope.

Section P.
Variable L : lzw_codec.
Variable umax : N.

Lemma explode_loop_result dbg create sw sh pal n : forall k d files r,
  explode_loop L umax dbg create n sw sh pal k d = (files, r) ->
  match r with
  | Ok _ => exists d' fs, read_all L umax n d = (d', fs, Ok false) /\ length files = length fs
  | Err (PDecode e) => exists d' fs, read_all L umax n d = (d', fs, Err e) /\ length files = length fs
  | Err PCreate => create (k + length files)%nat = None
  | Err (PEncode _) => files <> []
  | Panic | Hang => True
  end.
Proof.
  induction n as [|n IH]; intros k d files r H; cbn [explode_loop read_all] in *; [now injection H as <- <-|].
  destruct (read_next_frame L umax d) as [d1 x]. destruct x as [[|]|e| | ]; cbn [boxed] in H.
  - destruct (create k) as [w|] eqn:Ec; [|injection H as <- <-; cbn [length]; now rewrite Nat.add_0_r].
    destruct (explode_file L dbg w sw sh pal (dc_cur L d1)) as [w1 z]. destruct z as [u|e| | ]; cbn [boxed] in H;
      [|injection H as <- <-; discriminate|injection H as <- <-; exact I|injection H as <- <-; exact I].
    destruct (explode_loop L umax dbg create n sw sh pal (S k) d1) as [ws y] eqn:E1. injection H as <- <-.
    specialize (IH _ _ _ _ E1). destruct y as [u'|[e|e| ]| | ]; cbn [length].
    + destruct IH as (d2 & fs & -> & El). eexists _, _. split; [reflexivity|]. cbn [length]. now rewrite El.
    + destruct IH as (d2 & fs & -> & El). eexists _, _. split; [reflexivity|]. cbn [length]. now rewrite El.
    + discriminate.
    + rewrite <- IH. f_equal. lia.
    + exact I.
    + exact I.
  - injection H as <- <-. eexists _, _. split; reflexivity.
  - injection H as <- <-. eexists _, _. split; reflexivity.
  - now injection H as <- <-.
  - now injection H as <- <-.
Qed.
Theorem explode_result dbg create n src files r : explode L umax dbg create n src = (files, r) ->
  match r with
  | Ok _ => exists d d' fs, read_info L src options_new = Ok d /\ read_all L umax n d = (d', fs, Ok false) /\ length files = length fs
  | Err (PDecode e) =>
    (read_info L src options_new = Err e /\ files = []) \/
    exists d d' fs, read_info L src options_new = Ok d /\ read_all L umax n d = (d', fs, Err e) /\ length files = length fs
  | Err PCreate => create (S (length files)) = None
  | Err (PEncode _) => files <> []
  | Panic | Hang => True
  end.
Proof.
  intros H. unfold explode in H. destruct (read_info L src options_new) as [d|e| | ] eqn:Ei; cbn [boxed] in H.
  - apply explode_loop_result in H. destruct r as [u|[e|e| ]| | ]; try exact H.
    + destruct H as (d' & fs & H). exists d, d', fs. auto.
    + right. destruct H as (d' & fs & H). exists d, d', fs. auto.
  - injection H as <- <-. left. auto.
  - now injection H as <- <-.
  - now injection H as <- <-.
Qed.

(** [take_frames] takes what the iterator gives. *)
Lemma take_items n : forall it fs x, take_frames L umax n it = (fs, x) ->
  match x with
  | Ok _ => exists it', iter_all L umax (S (length fs)) it = (it', map IFrame fs ++ [INone])
  | Err e => exists it', iter_all L umax (S (length fs)) it = (it', map IFrame fs ++ [IErr e])
  | Panic | Hang => True
  end.
Proof.
  induction n as [|n IH]; intros it fs x H; cbn [take_frames] in H; [now injection H as <- <-|].
  destruct (iter_next L umax it) as [it1 y] eqn:E. destruct y as [ |f|e| | ].
  - injection H as <- <-. exists it1. cbn [iter_all length]. now rewrite E.
  - destruct (take_frames L umax n it1) as [fs1 y] eqn:E1. injection H as <- <-. specialize (IH _ _ _ E1).
    destruct y as [u|e| | ]; try exact I; destruct IH as (it' & Hi); exists it'; cbn [iter_all length map app] in *; rewrite E;
      cbn [iter_all] in Hi; rewrite Hi; reflexivity.
  - injection H as <- <-. exists it1. cbn [iter_all length]. now rewrite E.
  - now injection H as <- <-.
  - now injection H as <- <-.
Qed.
Lemma reencode_all_ok fs : forall fs1, reencode_all L umax fs = Ok fs1 -> length fs1 = length fs /\
  Forall (fun f => snd (decode_lzw_encoded_frame L umax (fd_new L options_new) f) = Ok tt) fs.
Proof.
  induction fs as [|f fs IH]; intros fs1 H; cbn [reencode_all] in H; [injection H as <-; split; [reflexivity|constructor]|].
  unfold reencode in H. destruct (decode_lzw_encoded_frame L umax (fd_new L options_new) f) as [[p f1] x] eqn:E.
  destruct x as [[]|e| | ]; try discriminate H.
  destruct (reencode_all L umax fs) as [l|e| | ]; try discriminate H. injection H as <-. destruct (IH l eq_refl) as [A B].
  split; [cbn [length]; now rewrite A|]. constructor; [now rewrite E|exact B].
Qed.
Theorem parallel_result order n src w w' r : parallel L umax order n src w = (w', r) ->
  match r with
  | Ok _ => exists d it fs, read_info L src parallel_opts = Ok d /\
      iter_all L umax (S (length fs)) (mk_iter L d false) = (it, map IFrame fs ++ [INone]) /\
      Forall (fun f => snd (decode_lzw_encoded_frame L umax (fd_new L options_new) f) = Ok tt) fs
  | Err (PDecode e) => read_info L src parallel_opts = Err e \/
      exists d it fs, read_info L src parallel_opts = Ok d /\
        iter_all L umax (S (length fs)) (mk_iter L d false) = (it, map IFrame fs ++ [IErr e])
  | Err PCreate => False
  | Err (PEncode _) | Panic | Hang => True
  end.
Proof.
  intros H. unfold parallel in H. destruct (read_info L src parallel_opts) as [d|e| | ] eqn:Ei; cbn [boxed] in H.
  2:{ injection H as <- <-. now left. }
  2:{ now injection H as <- <-. }
  2:{ now injection H as <- <-. }
  destruct (encoder_new w (dec_width L d) (dec_height L d) (match dec_global_palette L d with Some p => p | None => [] end)) as [e1 r1].
  destruct r1 as [u1|e| | ]; cbn [boxed] in H; try (injection H as <- <-; exact I).
  destruct (set_repeat e1 (dec_repeat L d)) as [e2 r2].
  destruct r2 as [u2|e| | ]; cbn [boxed] in H; try (injection H as <- <-; exact I).
  destruct (take_frames L umax n (mk_iter L d false)) as [fs x] eqn:Et. apply take_items in Et.
  destruct x as [u3|e| | ]; cbn [boxed] in H; try (injection H as <- <-; exact I).
  2:{ injection H as <- <-. destruct Et as (it & Et). right. exists d, it, fs. auto. }
  destruct Et as (it & Et).
  assert (Hne : forall e, reencode_all L umax fs <> Err e).
  { clear. induction fs as [|f fs IH]; intros e; cbn [reencode_all]; [discriminate|]. unfold reencode.
    destruct (decode_lzw_encoded_frame L umax (fd_new L options_new) f) as [[p f1] [[]|e'| | ]]; try discriminate.
    destruct (reencode_all L umax fs); try discriminate. exact (IH e). }
  destruct (reencode_all L umax fs) as [fs1|e| | ] eqn:Er; cbn [boxed] in H; try (injection H as <- <-; exact I).
  2:{ now elim (Hne e). }
  apply reencode_all_ok in Er as [_ Er].
  destruct (receive (order (combine (seq 0 (length fs1)) fs1)) [] 0 e2) as [e3 r3].
  destruct r3 as [u4|e| | ]; cbn [boxed] in H; try (injection H as <- <-; exact I).
  destruct (into_inner e3) as [e4 r4]. destruct r4 as [w4|e| | ]; cbn [boxed] in H; try (injection H as <- <-; exact I).
  injection H as <- <-. exists d, it, fs. auto.
Qed.

(** ** check and the fuzz target follow [read_all] *)
Lemma check_loop_all n : forall d, check_loop L umax n d =
  match read_all L umax n d with
  | (_, fs, Ok false) => Ok (map report_of fs, None)
  | (_, fs, Err e) => Ok (map report_of fs, Some e)
  | (_, _, Panic) => Panic
  | (_, _, _) => Hang
  end.
Proof.
  induction n as [|n IH]; intros d; cbn [check_loop read_all]; [reflexivity|].
  destruct (read_next_frame L umax d) as [d1 x]. destruct x as [[|]|e| | ]; try reflexivity. rewrite IH.
  destruct (read_all L umax n d1) as [[d2 fs] y]. destruct y as [[|]|e| | ]; reflexivity.
Qed.
Lemma fuzz_loop_all n : forall d, fuzz_loop L umax n d =
  match snd (read_all L umax n d) with Ok false => Ok tt | Ok true => Hang | Err e => Err e | Panic => Panic | Hang => Hang end.
Proof.
  induction n as [|n IH]; intros d; cbn [fuzz_loop read_all]; [reflexivity|].
  destruct (read_next_frame L umax d) as [d1 x]. destruct x as [[|]|e| | ]; try reflexivity. rewrite IH.
  destruct (read_all L umax n d1) as [[d2 fs] y]. reflexivity.
Qed.
End P.

Section Safe.
Variable L : lzw_codec.
Variable safe : lzw_safe L.
Variable umax : N.
Hypothesis Humax : 2 ^ 32 - 1 <= umax.

(** On every input: [check] panics exactly when the file cannot be opened; otherwise it prints a report for every frame that can
    be read, and the error that stopped it, if any. *)
Theorem check_result src n : src_ok src -> limit_ok umax (o_limit check_opts) -> (bytes_of src < 13 * n)%nat ->
  match read_info L src check_opts with
  | Ok d => exists d' fs e, check L umax n src = Ok (map report_of fs, e) /\ frames_fit (length fs) (bytes_of src) /\
      read_all L umax n d = (d', fs, match e with Some e => Err e | None => Ok false end)
  | _ => check L umax n src = Panic
  end.
Proof.
  intros Hs Hl Hn. unfold check. destruct (read_info_returns L safe umax Humax src check_opts Hs) as [Hr _].
  pose proof (loops_end L safe umax Humax src check_opts) as Hx.
  destruct (read_info L src check_opts) as [d|e| | ]; try reflexivity; [|contradiction Hr].
  specialize (Hx d n Hs Hl eq_refl). destruct Hx as [Hx _]. rewrite check_loop_all.
  destruct (read_all L umax n d) as [[d' fs] x]. destruct (Hx d' fs x eq_refl) as [Hf [->|[e ->]]]; [exact Hn| |].
  - exists d', fs, None. auto.
  - exists d', fs, (Some e). auto.
Qed.
(** The fuzz target cannot crash, whatever the bytes. *)
Theorem fuzz_result src n : src_ok src -> limit_ok umax (o_limit options_new) -> (bytes_of src < 13 * n)%nat ->
  try_decode L umax n src = Ok tt \/ exists e, try_decode L umax n src = Err e.
Proof.
  intros Hs Hl Hn. unfold try_decode. destruct (read_info_returns L safe umax Humax src options_new Hs) as [Hr _].
  pose proof (loops_end L safe umax Humax src options_new) as Hx.
  destruct (read_info L src options_new) as [d|e| | ]; [|eauto|contradiction Hr|contradiction Hr].
  specialize (Hx d n Hs Hl eq_refl). destruct Hx as [Hx _]. rewrite fuzz_loop_all.
  destruct (read_all L umax n d) as [[d' fs] x]. destruct (Hx d' fs x eq_refl) as [Hf [->|[e ->]]]; [exact Hn|cbn; auto|cbn; eauto].
Qed.
End Safe.

(** On a well-formed file [check] reports every image. *)
Definition report_spec (ci : ctl * img) : report :=
  mk_report (c_delay (fst ci)) (im_w (snd ci)) (im_h (snd ci)) (im_left (snd ci)) (im_top (snd ci)) (c_dispose (fst ci)) (c_input (fst ci)).
(** Whether a file is well-formed depends on the limit and on two of the options. *)
Lemma gif_ok_weaken o o' g : o_limit o = o_limit o' -> (o_check_frame_consistency o' = true -> o_check_frame_consistency o = true) ->
  (o_allow_unknown_blocks o = true -> o_allow_unknown_blocks o' = true) -> gif_ok o g -> gif_ok o' g.
Proof.
  intros Hl Hc Hu (H1 & H2 & H3 & H4 & H5 & H6 & H7 & H8 & H9). repeat (split; [assumption|]). split.
  - eapply Forall_impl; [|exact H8]. intros [l subs|i|t subs]; cbn [blk_ok]; unfold ext_ok, img_ok; rewrite ?Hl; tauto.
  - clear - Hl H9. revert H9. generalize 0 at 1 3. generalize 0. induction (g_blocks g) as [|[l subs|i|t subs] bs IH]; intros n l0 H; cbn [unknown_ok] in *;
      [exact I|apply IH, H|apply IH, H|]. rewrite Hl in H. destruct H as (A & B & C). split; [exact A|]. split; [exact B|apply IH, C].
Qed.
Theorem check_reports L (S : lzw_spec L) umax : 2 ^ 32 - 1 <= umax -> forall o g tl src outs n,
  gif_ok o g -> o_limit o = o_limit options_new -> delivers src (ser_gif g tl) ->
  Forall2 (holds L S umax check_opts) (gif_images g) outs -> (length outs < n)%nat ->
  check L umax n src = Ok (map report_spec (gif_images g), None).
Proof.
  intros Hu o g tl src outs n Hg0 Hl Hd Ho Hn. assert (Hg : gif_ok check_opts g) by (revert Hg0; apply gif_ok_weaken; [exact Hl|discriminate|reflexivity]).
  destruct (file_frames L S umax Hu check_opts g tl src outs n Hg Hd eq_refl eq_refl Ho Hn) as (d & d' & E & F & _).
  unfold check. rewrite E, check_loop_all, F. f_equal. f_equal. unfold all_seen. rewrite map_map.
  clear - Ho. induction Ho as [|ci out cis outs _ _ IH]; [reflexivity|]. cbn [combine map]. rewrite <- IH. reflexivity.
Qed.
Theorem parallel_copies_default L (S : lzw_spec L) umax : 2 ^ 32 - 1 <= umax -> forall g, lzw_eager S ->
  forall order tl src outs n w, gif_ok options_new g -> delivers src (ser_gif g tl) ->
  Forall (fun ci => fits (o_limit options_new) (1 + len (payload (im_subs (snd ci))))) (gif_images g) ->
  Forall2 (holds L S umax options_new) (gif_images g) outs -> Forall bytes_ok outs -> (length outs < n)%nat ->
  gif_images g <> [] \/ gif_repeat g <> RFinite 0 ->
  (forall l, Permutation (order l) l) -> Forall harmless (w_plan w) -> w_out w = [] ->
  exists w', parallel L umax order n src w = (w', Ok tt) /\ whole_copy L S umax g w' outs.
Proof.
  intros Hu g He order tl src outs n w Hg. apply (parallel_copies L S umax Hu g He order tl src outs n w).
  revert Hg. apply gif_ok_weaken; [reflexivity|intros H; exact H|intros H; exact H].
Qed.
