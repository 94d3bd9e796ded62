(** Property C70: writing when memory may run out. *)
From Verif Require Import Base Common Lzw Encoder Stream Converter Reader LzwRef LzwRefSpec DecoderSafe SpecGif SpecEnc SpecRound DocAll
  EncLin EncSession SpecEncOom EncOom Validate Refuted PropEnc.
Open Scope N_scope.

(** ** One call, on any writer: [mem_bytes] are written, with result [mem_result], or the writer reports a fault. *)
Theorem C70_call : forall L dbg ok o e w e' x, op_rng o -> e_w e = Some w -> run_op_o L dbg ok e o = (e', x) ->
  exists w', e_w e' = Some w' /\ wrote w w' (mem_bytes L dbg (e_global_palette e) ok o) (mem_result dbg (e_global_palette e) ok o) x.
Proof. exact oom_call. Qed.
Print Assumptions C70_call.
Theorem C70_spared : forall L dbg e o, run_op_o L dbg true e o = run_op L dbg e o.
Proof. exact run_op_spared. Qed.
Print Assumptions C70_spared.

(** ** A whole session of a caller who goes on after errors *)
Theorem C70_session : forall L dbg w width height pal ops e1 e2 rs e3 w3, u16_ok width -> u16_ok height -> Forall op_rng (map fst ops) ->
  Forall harmless (w_plan w) -> encoder_new w width height pal = (e1, Ok tt) ->
  run_each_o L dbg e1 ops = (e2, rs) -> into_inner e2 = (e3, Ok w3) ->
  rs = map (fun '(o, ok) => mem_result dbg (usable pal) ok o) ops /\
  w_out w3 = w_out w ++ ser_head (enc_gif L width height pal []) ++
    concat (map (fun '(o, ok) => mem_bytes L dbg (usable pal) ok o) ops) ++ [0x3B].
Proof. exact oom_session. Qed.
Print Assumptions C70_session.

(** ** The frames written before are not lost, whatever the caller does afterwards. *)
Theorem C70_round_trip : forall L (S : lzw_spec L) umax, 2 ^ 32 - 1 <= umax ->
  forall o dbg w sw sh pal ops f rest e1 e2 rs e3 w3 frames tl src,
  u16_ok sw -> u16_ok sh -> bytes_ok pal -> Forall op_rng ops -> frame_rng f -> Forall op_rng (map fst rest) ->
  Forall harmless (w_plan w) -> encoder_new w sw sh pal = (e1, Ok tt) -> w_out w = [] ->
  run_each_o L dbg e1 (map (fun o => (o, true)) ops ++ (OWriteFrame f, false) :: rest) = (e2, rs) ->
  Forall (fun r => r = Ok tt) (firstn (length ops) rs) -> into_inner e2 = (e3, Ok w3) -> delivers src (w_out w3 ++ tl) ->
  Forall (call_readable o) ops -> written S ops frames ->
  Forall (fun p => frame_readable o umax sw sh (fst p) (snd p)) frames -> frames <> [] ->
  o_skip_frame_decoding o = false -> o_check_for_end_code o = false ->
  exists d d', read_info L src o = Ok d /\
    read_all L umax (length frames) d = (d', map (fun p => wanted (o_color o) pal (fst p) (snd p)) frames, Ok true).
Proof. exact oom_round_trip. Qed.
Print Assumptions C70_round_trip.

(** ** The example session of PropEnc.v; then memory runs out for a third frame, and the caller writes the first one again. *)
Definition eo_ops : list (enc_op * bool) := map (fun o => (o, true)) ex_ops ++ (OWriteFrame ex_f2, false) :: [(OWriteFrame ex_f1, true)].
Definition eo_end : encoder * list (eres unit) := run_each_o lzw_ref true ex_e1 eo_ops.
Definition eo_file : list N := match snd (into_inner (fst eo_end)) with Ok w => w_out w | _ => [] end.
Lemma eo_results : snd eo_end = [Ok tt; Ok tt; Ok tt; Ok tt; Err (EIo OutOfMemory); Ok tt].
Proof. vm_compute. reflexivity. Qed.
Lemma eo_rng : Forall op_rng [OWriteFrame ex_f1] /\ frame_rng ex_f2.
Proof.
  split.
  - pose proof ex_rng as H. apply Forall_cons_iff in H. destruct H as [_ H]. apply Forall_cons_iff in H. destruct H as [_ H].
    apply Forall_cons_iff in H. destruct H as [H _]. constructor; [exact H|constructor].
  - unfold frame_rng, ex_f2. cbn [f_delay f_left f_top f_width f_height f_transparent f_palette f_buffer].
    split; [reflexivity|]. split; [reflexivity|]. split; [reflexivity|]. split; [reflexivity|]. split; [reflexivity|].
    split; [intros ? [=]|]. split; [intros ? [=]|]. crush_rng.
Qed.
Example C70_case : exists d d', read_info lzw_ref (bytewise eo_file) rgba_opts = Ok d /\
  read_all lzw_ref umax64 2 d = (d', map (fun p => wanted CRgba ex_pal (fst p) (snd p)) ex_frames, Ok true).
Proof.
  assert (H0 : into_inner (fst eo_end) = (fst (into_inner (fst eo_end)), Ok (mk_writer eo_file []))) by (vm_compute; reflexivity).
  assert (Hd : delivers (bytewise eo_file) (w_out (mk_writer eo_file []) ++ [])).
  { cbn [w_out]. rewrite app_nil_r. split; [|split; vm_compute; [repeat constructor; discriminate|reflexivity]].
    unfold src_ok. vm_compute. repeat constructor. }
  assert (Hu : 2 ^ 32 - 1 <= umax64) by (vm_compute; discriminate).
  assert (Hp : bytes_ok ex_pal) by crush_rng.
  assert (He : encoder_new ex_w 4 4 ex_pal = (ex_e1, Ok tt)) by (vm_compute; reflexivity).
  assert (Hr : Forall (fun r => r = Ok tt) (firstn (length ex_ops) (snd eo_end))) by (rewrite eo_results; repeat constructor).
  assert (Hh : Forall harmless (w_plan ex_w)) by (repeat constructor).
  assert (Hf : ex_frames <> []) by discriminate.
  exact (C70_round_trip lzw_ref lzw_ref_spec umax64 Hu rgba_opts true ex_w 4 4 ex_pal ex_ops ex_f2 [(OWriteFrame ex_f1, true)]
    ex_e1 (fst eo_end) (snd eo_end) _ _ ex_frames [] _ eq_refl eq_refl Hp ex_rng (proj2 eo_rng) (proj1 eo_rng) Hh He eq_refl
    (surjective_pairing _) Hr H0 Hd (proj1 ex_readable) ex_written (proj2 ex_readable) Hf eq_refl eq_refl).
Qed.

(** ** Refuted: that the call that fails can be repeated, or the frame left out. The rest of the file cannot be read; not even
    the trailer is found if nothing more is written. *)
Definition eo_read (file : list N) : option (list frame * dres bool) :=
  match read_info lzw_ref [RChunk file] options_new with
  | Ok d => let '(_, fs, r) := read_all lzw_ref umax64 9 d in Some (fs, r)
  | _ => None
  end.
Definition eo_finish (ops : list (enc_op * bool)) : list (eres unit) * list N :=
  let run := run_each_o lzw_ref true ex_e1 ops in
  (snd run, match snd (into_inner (fst run)) with Ok w => w_out w | _ => [] end).
Theorem C70_damage_refuted : exists f file1 file2,
  eo_finish [(OWriteFrame f, false); (OWriteFrame f, true)] = ([Err (EIo OutOfMemory); Ok tt], file1) /\
  eo_read file1 = Some ([], Err (DFormat InvalidMinimalCodeSize)) /\
  eo_finish [(OWriteFrame f, false)] = ([Err (EIo OutOfMemory)], file2) /\ eo_read file2 = Some ([], Err (DIo UnexpectedEof)).
Proof.
  exists ex_f2. eexists. eexists. split; [vm_compute; reflexivity|]. split; [vm_compute; reflexivity|]. split; [vm_compute; reflexivity|]. vm_compute. reflexivity.
Qed.
Print Assumptions C70_damage_refuted.
(** [make_lzw_pre_encoded] and [from_rgb_speed] panic instead, which the documentation of neither mentions. *)
Theorem C70_panic_refuted : forall L q, (exists f, make_lzw_pre_encoded_o L false f = None) /\
  (exists w h px s, N.of_nat (length px) = w * h * 3 /\ from_rgb_speed_o q false w h px s = None).
Proof. intros L q. split; [exists ex_f2; reflexivity|]. exists 1, 1, [1; 2; 3], 1%Z. split; reflexivity. Qed.
Print Assumptions C70_panic_refuted.
