(** Property C56: the example programs copy pictures faithfully. *)
From Coq Require Import Permutation.
From Verif Require Import Base Common Lzw Encoder Stream Converter Reader LzwRef LzwRefSpec SpecGif SpecPixels
  SpecEnc SpecRound DocAll EncLin EncSession ConvInv DecoderSafe SpecCount Programs Copies ProgResult Validate Refuted PropEnc PropDec.
Open Scope N_scope.

(** ** parallel: the order of arrival does not matter *)
(** Whatever the writer does (also if it fails), the effect is that of writing the frames in their order. *)
Theorem C56_order : forall L dbg e fs msgs, Permutation msgs (combine (seq 0 (length fs)) fs) ->
  receive msgs [] 0 e = run_ops L dbg e (map OWritePre fs).
Proof. exact receive_in_order. Qed.
Print Assumptions C56_order.

(** The copy has the size, the loop count, the colour table and the pictures of the original, for every setting of the
    options with which the original can be read. *)
Theorem C56_parallel : forall L (S : lzw_spec L) umax, 2 ^ 32 - 1 <= umax -> forall g, lzw_eager S ->
  forall order tl src outs n w, gif_ok options_new g -> delivers src (ser_gif g tl) ->
  Forall (fun ci => fits (o_limit options_new) (1 + len (payload (im_subs (snd ci))))) (gif_images g) ->
  Forall2 (holds L S umax options_new) (gif_images g) outs -> Forall bytes_ok outs -> (length outs < n)%nat ->
  gif_images g <> [] \/ gif_repeat g <> RFinite 0 ->
  (forall l, Permutation (order l) l) -> Forall harmless (w_plan w) -> w_out w = [] ->
  exists w', parallel L umax order n src w = (w', Ok tt) /\
    forall o src2 tl2 n2, gif_ok o g -> o_skip_frame_decoding o = false -> o_check_for_end_code o = false ->
    Forall2 (holds L S umax o) (gif_images g) outs -> fits (o_limit o) 15 -> (length outs < n2)%nat -> delivers src2 (w_out w' ++ tl2) ->
    exists d d', read_info L src2 o = Ok d /\ dec_width L d = g_w g /\ dec_height L d = g_h g /\ dec_repeat L d = gif_repeat g /\
      (has_table (g_flags g) = true -> dec_global_palette L d = gif_palette g) /\
      read_all L umax n2 d = (d', all_seen o g (gif_images g) outs, Ok false) /\ rd_rest L (dc_rd L d') = tl2.
Proof. exact parallel_copies_default. Qed.
Print Assumptions C56_parallel.

(** ** explode *)
(** One file per image, of the size of the original, showing that image alone. *)
Theorem C56_explode : forall L (S : lzw_spec L) umax, 2 ^ 32 - 1 <= umax -> forall g dbg create tl src outs n,
  gif_ok options_new g -> delivers src (ser_gif g tl) ->
  Forall2 (holds L S umax options_new) (gif_images g) outs -> Forall bytes_ok outs -> (length outs < n)%nat ->
  (forall k, exists w, create k = Some w /\ Forall harmless (w_plan w) /\ w_out w = []) ->
  exists files, explode L umax dbg create n src = (files, Ok tt) /\
    Forall2 (fun w p =>
      forall o src2 tl2, gif_ok o g -> o_skip_frame_decoding o = false -> o_check_for_end_code o = false ->
      holds L S umax o (fst p) (snd p) -> fits (o_limit o) 5 -> delivers src2 (w_out w ++ tl2) ->
      exists d d', read_info L src2 o = Ok d /\ dec_width L d = g_w g /\ dec_height L d = g_h g /\
        read_all L umax 2 d = (d', [seen o g (fst p) (snd p)], Ok false) /\ rd_rest L (dc_rd L d') = tl2)
      files (combine (gif_images g) outs).
Proof. exact explode_copies. Qed.
Print Assumptions C56_explode.

(** ** What the results say, for every input *)
(** [explode] says that it succeeded only if all frames up to the end of the file were read, and has then written a file for
    each; an error of the decoder is passed on, after a file for each frame before it. *)
Theorem C56_explode_result : forall L umax dbg create n src files r, explode L umax dbg create n src = (files, r) ->
  match r with
  | Ok _ => exists d d' fs, read_info L src options_new = Ok d /\ read_all L umax n d = (d', fs, Ok false) /\ length files = length fs
  | Err (PDecode e) =>
    (read_info L src options_new = Err e /\ files = []) \/
    exists d d' fs, read_info L src options_new = Ok d /\ read_all L umax n d = (d', fs, Err e) /\ length files = length fs
  | Err PCreate => create (S (length files)) = None
  | Err (PEncode _) => files <> []
  | Panic | Hang => True
  end.
Proof. exact explode_result. Qed.
Print Assumptions C56_explode_result.

(** [parallel] succeeds only if the iterator came to the end and every frame could be decoded; an error of the decoder is
    passed on. *)
Theorem C56_parallel_result : forall L umax order n src w w' r, parallel L umax order n src w = (w', r) ->
  match r with
  | Ok _ => exists d it fs, read_info L src parallel_opts = Ok d /\
      iter_all L umax (S (length fs)) (mk_iter L d false) = (it, map IFrame fs ++ [INone]) /\
      Forall (fun f => snd (decode_lzw_encoded_frame L umax (fd_new L options_new) f) = Ok tt) fs
  | Err (PDecode e) => read_info L src parallel_opts = Err e \/
      exists d it fs, read_info L src parallel_opts = Ok d /\
        iter_all L umax (S (length fs)) (mk_iter L d false) = (it, map IFrame fs ++ [IErr e])
  | Err PCreate => False
  | Err (PEncode _) | Panic | Hang => True
  end.
Proof. exact parallel_result. Qed.
Print Assumptions C56_parallel_result.

(** [check] panics exactly when the file cannot be opened; otherwise it reports every frame that can be read, and then the
    error that stopped it, if there was one. On a file that is well-formed for some setting of the options it reports every
    image. *)
Theorem C56_check : forall L, lzw_safe L -> forall umax, 2 ^ 32 - 1 <= umax -> forall src n,
  src_ok src -> limit_ok umax (o_limit check_opts) -> (bytes_of src < 13 * n)%nat ->
  match read_info L src check_opts with
  | Ok d => exists d' fs e, check L umax n src = Ok (map report_of fs, e) /\ frames_fit (length fs) (bytes_of src) /\
      read_all L umax n d = (d', fs, match e with Some e => Err e | None => Ok false end)
  | _ => check L umax n src = Panic
  end.
Proof. exact check_result. Qed.
Print Assumptions C56_check.
Theorem C56_check_reports : forall L (S : lzw_spec L) umax, 2 ^ 32 - 1 <= umax -> forall o g tl src outs n,
  gif_ok o g -> o_limit o = o_limit options_new -> delivers src (ser_gif g tl) ->
  Forall2 (holds L S umax check_opts) (gif_images g) outs -> (length outs < n)%nat ->
  check L umax n src = Ok (map report_spec (gif_images g), None).
Proof. exact check_reports. Qed.
Print Assumptions C56_check_reports.

(** The fuzz target of the repository cannot crash or run forever, whatever the bytes. *)
Theorem C56_fuzz : forall L, lzw_safe L -> forall umax, 2 ^ 32 - 1 <= umax -> forall src n,
  src_ok src -> limit_ok umax (o_limit options_new) -> (bytes_of src < 13 * n)%nat ->
  try_decode L umax n src = Ok tt \/ exists e, try_decode L umax n src = Err e.
Proof. exact fuzz_result. Qed.
Print Assumptions C56_fuzz.

(** ** The file of the other examples *)
Definition plain : writer := mk_writer [] [].
Lemma dx_bytes : Forall bytes_ok dx_outs.
Proof. repeat constructor; unfold byte_ok; lia. Qed.
Example C56_explode_case : exists w1 w2, explode lzw_ref umax64 true (fun _ => Some plain) 3 dx_src = ([w1; w2], Ok tt) /\
  exists d1 d2 d3 d4, read_info lzw_ref (bytewise (w_out w1)) rgba_opts = Ok d1 /\ read_all lzw_ref umax64 2 d1 = (d2, [dx_frame1], Ok false) /\
  read_info lzw_ref (bytewise (w_out w2)) rgba_opts = Ok d3 /\ read_all lzw_ref umax64 2 d3 = (d4, [dx_frame2], Ok false).
Proof.
  assert (G : gif_ok options_new dx_gif) by (apply dx_ok; auto).
  assert (Hh : Forall2 (holds lzw_ref lzw_ref_spec umax64 options_new) (gif_images dx_gif) dx_outs) by (apply dx_holds; auto).
  assert (Hn : (length dx_outs < 3)%nat) by (cbn; lia).
  assert (Hc : forall k : nat, exists w, (fun _ : nat => Some plain) k = Some w /\ Forall harmless (w_plan w) /\ w_out w = [])
    by (intros k; exists plain; repeat split; constructor).
  assert (Hn2 : (2 = 2)%nat) by reflexivity.
  destruct (C56_explode lzw_ref lzw_ref_spec umax64 dx_umax dx_gif true (fun _ => Some plain) dx_tail dx_src dx_outs 3 G dx_delivers Hh dx_bytes Hn Hc)
    as (files & E & F).
  assert (G2 : gif_ok rgba_opts dx_gif) by (apply dx_ok; auto).
  assert (Hh2 : Forall2 (holds lzw_ref lzw_ref_spec umax64 rgba_opts) (gif_images dx_gif) dx_outs) by (apply dx_holds; auto).
  assert (Ei : exists a b, gif_images dx_gif = [a; b]) by (eexists _, _; reflexivity). destruct Ei as (a & b & Ei).
  rewrite Ei in F, Hh2. assert (Eo : exists x y, dx_outs = [x; y]) by (eexists _, _; reflexivity). destruct Eo as (x & y & Eo).
  assert (Hs : seen rgba_opts dx_gif a x = dx_frame1 /\ seen rgba_opts dx_gif b y = dx_frame2).
  { assert (Hs : all_seen rgba_opts dx_gif (gif_images dx_gif) dx_outs = [dx_frame1; dx_frame2]) by (vm_compute; reflexivity).
    rewrite Ei, Eo in Hs. split; [exact (f_equal (hd dx_frame1) Hs)|exact (f_equal (fun l => nth 1 l dx_frame1) Hs)]. }
  destruct Hs as [Hs1 Hs2]. rewrite Eo in F, Hh2. cbn [combine] in F.
  destruct files as [|w1 [|w2 [|w3 files]]]; try (exfalso; inversion F as [|? ? ? ? _ F1]; inversion F1 as [|? ? ? ? _ F2]; inversion F2; fail).
  inversion F as [|? ? ? ? F1 F2]; subst. inversion F2 as [|? ? ? ? F3 _]; subst.
  inversion Hh2 as [|? ? ? ? K1 K2]; subst. inversion K2 as [|? ? ? ? K3 _]; subst.
  assert (H5 : fits (o_limit rgba_opts) 5) by (cbn; lia).
  assert (Hd : explode lzw_ref umax64 true (fun _ => Some plain) 3 dx_src = ([w1; w2], Ok tt) ->
     delivers (bytewise (w_out w1)) (w_out w1 ++ []) /\ delivers (bytewise (w_out w2)) (w_out w2 ++ [])).
  { intros E0.
    assert (V : match explode lzw_ref umax64 true (fun _ => Some plain) 3 dx_src with
       ([v1; v2], _) => forallb (fun b => b <? 256) (w_out v1) = true /\ forallb (fun b => b <? 256) (w_out v2) = true | _ => False end)
      by (vm_compute; auto).
    rewrite E0 in V. destruct V as [V1 V2]. rewrite !app_nil_r.
    split; apply bytewise_delivers; apply Forall_forall; intros z Hz; [eapply forallb_forall in V1; [|exact Hz]|eapply forallb_forall in V2; [|exact Hz]];
      unfold byte_ok; apply N.ltb_lt; assumption. }
  destruct (Hd E) as [D1 D2].
  destruct (F1 rgba_opts _ [] G2 eq_refl eq_refl K1 H5 D1) as (d1 & d2 & R1 & _ & _ & R2 & _).
  destruct (F3 rgba_opts _ [] G2 eq_refl eq_refl K3 H5 D2) as (d3 & d4 & R3 & _ & _ & R4 & _).
  exists w1, w2. split; [exact E|]. exists d1, d2, d3, d4. cbn [fst snd] in R2, R4. rewrite Hs1 in R2. rewrite Hs2 in R4. auto.
Qed.

(** The threads finish in reverse order. *)
Lemma dx_fits : Forall (fun ci => fits (o_limit options_new) (1 + len (payload (im_subs (snd ci))))) (gif_images dx_gif).
Proof. repeat constructor; vm_compute; discriminate. Qed.
Example C56_parallel_case : exists w, parallel lzw_ref umax64 (@rev _) 3 dx_src plain = (w, Ok tt) /\
  exists d d', read_info lzw_ref (bytewise (w_out w)) rgba_opts = Ok d /\ dec_repeat lzw_ref d = RFinite 5 /\
    read_all lzw_ref umax64 3 d = (d', [dx_frame1; dx_frame2], Ok false).
Proof.
  assert (G : gif_ok options_new dx_gif) by (apply dx_ok; auto).
  assert (Hh : Forall2 (holds lzw_ref lzw_ref_spec umax64 options_new) (gif_images dx_gif) dx_outs) by (apply dx_holds; auto).
  assert (Hn : (length dx_outs < 3)%nat) by (cbn; lia).
  assert (Hne : gif_images dx_gif <> [] \/ gif_repeat dx_gif <> RFinite 0) by (left; discriminate).
  assert (Hord : forall l : list (nat * frame), Permutation (rev l) l) by (intros l; apply Permutation_sym, Permutation_rev).
  destruct (C56_parallel lzw_ref lzw_ref_spec umax64 dx_umax dx_gif lzw_ref_eager (@rev _) dx_tail dx_src dx_outs 3 plain G dx_delivers dx_fits Hh
    dx_bytes Hn Hne Hord (Forall_nil _) eq_refl) as (w & E & F).
  assert (G2 : gif_ok rgba_opts dx_gif) by (apply dx_ok; auto).
  assert (Hh2 : Forall2 (holds lzw_ref lzw_ref_spec umax64 rgba_opts) (gif_images dx_gif) dx_outs) by (apply dx_holds; auto).
  assert (H15 : fits (o_limit rgba_opts) 15) by (cbn; lia).
  assert (Hd : delivers (bytewise (w_out w)) (w_out w ++ [])).
  { assert (V : forallb (fun b => b <? 256) (w_out (fst (parallel lzw_ref umax64 (@rev _) 3 dx_src plain))) = true) by (vm_compute; reflexivity).
    rewrite E in V. cbn [fst] in V. rewrite app_nil_r. apply bytewise_delivers. apply Forall_forall. intros z Hz.
    eapply forallb_forall in V; [|exact Hz]. unfold byte_ok. now apply N.ltb_lt. }
  destruct (F rgba_opts _ [] 3%nat G2 eq_refl eq_refl Hh2 H15 Hn Hd) as (d & d' & R1 & _ & _ & R2 & _ & R3 & _).
  exists w. split; [exact E|]. exists d, d'. split; [exact R1|]. split; [rewrite R2; reflexivity|].
  rewrite R3. assert (Hs : all_seen rgba_opts dx_gif (gif_images dx_gif) dx_outs = [dx_frame1; dx_frame2]) by (vm_compute; reflexivity).
  rewrite Hs. reflexivity.
Qed.
(** Five frames in a wild order, on a writer that fails: the failure is that of writing in order. *)
Example C56_order_case :
  let f k := mk_frame 0 DKeep None false 0 0 1 1 false (Some [1; 2; 3]) [2; k] in
  let fs := [f 1; f 2; f 3; f 4; f 5] in
  let '(e, _) := encoder_new (mk_writer [] (repeat (WAccept 1) 60 ++ [WFail 7])) 1 1 [] in
  receive [(3%nat, f 4); (0%nat, f 1); (4%nat, f 5); (2%nat, f 3); (1%nat, f 2)] [] 0 e = run_ops lzw_ref false e (map OWritePre fs).
Proof. vm_compute. reflexivity. Qed.

(** The results on the whole file and on its first 10, 60 and 85 bytes. *)
Definition px_cut (n : nat) : list revent := bytewise (firstn n (ser_gif dx_gif dx_tail)).
Example C56_results_case :
  (let '(files, r) := explode lzw_ref umax64 true (fun _ => Some plain) 3 (px_cut 60) in (length files, r)) = (0%nat, Err (PDecode (DIo UnexpectedEof))) /\
  (let '(files, r) := explode lzw_ref umax64 true (fun _ => Some plain) 9 (px_cut 85) in (length files, r)) = (1%nat, Err (PDecode (DIo UnexpectedEof))) /\
  (let '(files, r) := explode lzw_ref umax64 true (fun k => if Nat.eqb k 2 then None else Some plain) 9 dx_src in (length files, r)) = (1%nat, Err PCreate) /\
  snd (parallel lzw_ref umax64 (@rev _) 9 (px_cut 85) plain) = Err (PDecode (DIo UnexpectedEof)) /\
  try_decode lzw_ref umax64 9 (px_cut 85) = Err (DIo UnexpectedEof) /\ try_decode lzw_ref umax64 9 dx_src = Ok tt /\
  check lzw_ref umax64 9 (px_cut 85) = Ok ([mk_report 7 2 3 1 0 DBackground false], Some (DIo UnexpectedEof)) /\
  check lzw_ref umax64 9 dx_src = Ok ([mk_report 7 2 3 1 0 DBackground false; mk_report 0 2 1 0 0 DKeep false], None) /\
  check lzw_ref umax64 9 (px_cut 10) = Panic.
Proof. vm_compute. repeat split; reflexivity. Qed.
