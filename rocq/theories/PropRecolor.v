(** Property C61: RGBA output is the indexed output with the colours looked up, for every input. *)
From Verif Require Import Base Common Lzw Encoder Stream Converter Reader LzwRef LzwRefSpec StreamInv ConvInv DecoderSafe DocAll
  Relax SpecGif SpecPixels Validate Refuted PropEnc PropDec SpecRecolor Recolor.
Open Scope N_scope.

(** Opening: the same answer, and decoders that look the same. *)
Theorem C61_open : forall L umax, lzw_safe L -> 2 ^ 32 - 1 <= umax -> forall src o, o_color o = CRgba ->
  match read_info L src o with
  | Ok d4 => exists d1, read_info L src (indexed o) = Ok d1 /\ same_look L umax (o_skip_frame_decoding o) d4 d1
  | Err e => read_info L src (indexed o) = Err e
  | Panic => read_info L src (indexed o) = Panic
  | Hang => read_info L src (indexed o) = Hang
  end.
Proof. intros L umax _ Hu src o Ho. exact (same_open L umax Hu src o Ho). Qed.
Print Assumptions C61_open.

(** Any calls on any bytes, also damaged ones: the same answers, and the pixels are the colours of the indices. *)
Theorem C61_calls : forall L umax, lzw_safe L -> 2 ^ 32 - 1 <= umax ->
  forall src o d4 d1 os4 os1, src_ok src -> o_color o = CRgba -> limit_ok umax (o_limit o) ->
  read_info L src o = Ok d4 -> read_info L src (indexed o) = Ok d1 ->
  Forall2 same_call os4 os1 -> Forall (op_ok umax) os4 ->
  Forall (fun p => ~ rgba_only_out (snd (fst p))) (watch L umax d4 os4) ->
  Forall2 (same_step L umax (o_skip_frame_decoding o)) (watch L umax d4 os4) (watch L umax d1 os1).
Proof.
  intros L umax safe Hu src o d4 d1 os4 os1 Hs Ho Hl. exact (same_calls L safe umax Hu src Hs o Ho Hl d4 d1 os4 os1).
Qed.
Print Assumptions C61_calls.

(** The iterator. *)
Theorem C61_iter : forall L umax, lzw_safe L -> 2 ^ 32 - 1 <= umax ->
  forall src o d4 d1 n, src_ok src -> o_color o = CRgba -> limit_ok umax (o_limit o) ->
  read_info L src o = Ok d4 -> read_info L src (indexed o) = Ok d1 ->
  Forall (fun x => match x with IErr e => ~ rgba_only (@Err derr unit e) | _ => True end) (snd (iter_all L umax n (mk_iter L d4 false))) ->
  Forall2 (same_item (o_skip_frame_decoding o) (dec_global_palette L d1))
    (snd (iter_all L umax n (mk_iter L d4 false))) (snd (iter_all L umax n (mk_iter L d1 false))).
Proof.
  intros L umax safe Hu src o d4 d1 n Hs Ho Hl. exact (same_items L safe umax Hu src Hs o Ho Hl d4 d1 n).
Qed.
Print Assumptions C61_iter.

(** [FrameDecoder] with any frames, whatever their data. *)
Theorem C61_frame_decoder : forall L umax, lzw_safe L -> 2 ^ 32 - 1 <= umax -> forall o gp fs, o_color o = CRgba -> limit_ok umax (o_limit o) ->
  Forall (fun f => u16_ok (f_width f) /\ u16_ok (f_height f)) fs ->
  let fd p := match gp with Some g => fd_set_global_palette L (fd_new L p) g | None => fd_new L p end in
  Forall (fun y => ~ rgba_only (snd y)) (fd_frames L umax (fd o) fs) ->
  Forall2 (same_decoded gp) (fd_frames L umax (fd o) fs) (fd_frames L umax (fd (indexed o)) fs).
Proof. exact same_frame_decoder. Qed.
Print Assumptions C61_frame_decoder.

(** ** Cases *)
(** A file whose second frame is read with slices of the wrong size, after its end, and again: all hypotheses hold. *)
Definition rx_ops4 : list dop := [OpFrame; OpInfo; OpFill (repeat 7 24); OpInto (repeat 9 16); OpInfo; OpFrame].
Definition rx_ops1 : list dop := [OpFrame; OpInfo; OpFill (repeat 7 6); OpInto (repeat 9 4); OpInfo; OpFrame].
Lemma rx_safe : lzw_safe lzw_ref.
Proof. exact (lz_is_safe _ lzw_ref_spec). Qed.
Lemma rx_calls : Forall2 same_call rx_ops4 rx_ops1.
Proof. constructor; [|constructor; [|constructor; [|constructor; [|constructor; [|constructor; [|constructor]]]]]]; constructor; reflexivity. Qed.
Lemma rx_limit : limit_ok umax64 (o_limit rgba_opts).
Proof. left. vm_compute. discriminate. Qed.
Lemma rx_src : src_ok dx_src.
Proof. unfold src_ok. apply Forall_forall. intros e He. unfold dx_src, bytewise in He. apply in_map_iff in He as (b & <- & Hb).
  constructor; [|constructor]. revert b Hb. apply Forall_forall. apply bytes_by. vm_compute. reflexivity. Qed.
Example C61_calls_case : exists d4 d1, read_info lzw_ref dx_src rgba_opts = Ok d4 /\ read_info lzw_ref dx_src (indexed rgba_opts) = Ok d1 /\
  Forall2 (same_step lzw_ref umax64 false) (watch lzw_ref umax64 d4 rx_ops4) (watch lzw_ref umax64 d1 rx_ops1) /\
  map (fun p => snd (fst p)) (watch lzw_ref umax64 d4 rx_ops4) =
    [OutBool (Ok true); OutBool (Ok true); OutFill ([4; 5; 6; 255; 1; 2; 3; 255] ++ repeat 7 16) (Ok false);
     OutInto (repeat 9 16) (Err (DFormat UnexpectedDataMsg)); OutBool (Ok false); OutBool (Ok false)].
Proof.
  pose proof (C61_open lzw_ref umax64 rx_safe dx_umax dx_src rgba_opts eq_refl) as Ho.
  assert (H : match read_info lzw_ref dx_src rgba_opts with
    | Ok d => map (fun p => snd (fst p)) (watch lzw_ref umax64 d rx_ops4) =
      [OutBool (Ok true); OutBool (Ok true); OutFill ([4; 5; 6; 255; 1; 2; 3; 255] ++ repeat 7 16) (Ok false);
       OutInto (repeat 9 16) (Err (DFormat UnexpectedDataMsg)); OutBool (Ok false); OutBool (Ok false)]
    | _ => False end) by (vm_compute; reflexivity).
  destruct (read_info lzw_ref dx_src rgba_opts) as [d4|e| |] eqn:E4; try contradiction. destruct Ho as (d1 & E1 & _).
  exists d4, d1. split; [reflexivity|]. split; [exact E1|]. split; [|exact H].
  assert (Hops : Forall (op_ok umax64) rx_ops4).
  { constructor; [|constructor; [|constructor; [|constructor; [|constructor; [|constructor; [|constructor]]]]]]; vm_compute; try exact I; discriminate. }
  assert (Hcalm : Forall (fun p => ~ rgba_only_out (snd (fst p))) (watch lzw_ref umax64 d4 rx_ops4)).
  { apply (Forall_map (fun p => snd (fst p)) (fun y => ~ rgba_only_out y)). rewrite H. clear.
    constructor; [|constructor; [|constructor; [|constructor; [|constructor; [|constructor; [|constructor]]]]]]; intros [X|X]; discriminate X. }
  exact (C61_calls lzw_ref umax64 rx_safe dx_umax dx_src rgba_opts d4 d1 rx_ops4 rx_ops1 rx_src eq_refl rx_limit E4 E1 rx_calls Hops Hcalm).
Qed.
(** The same file cut off in the first image: both iterators report the same error. *)
Definition rx_cut : list revent := bytewise (firstn 60 (ser_gif dx_gif dx_tail)).
Example C61_iter_case : exists d4 d1, read_info lzw_ref rx_cut rgba_opts = Ok d4 /\ read_info lzw_ref rx_cut (indexed rgba_opts) = Ok d1 /\
  snd (iter_all lzw_ref umax64 2 (mk_iter lzw_ref d4 false)) = [IErr (DIo UnexpectedEof); INone] /\
  snd (iter_all lzw_ref umax64 2 (mk_iter lzw_ref d1 false)) = [IErr (DIo UnexpectedEof); INone].
Proof.
  pose proof (C61_open lzw_ref umax64 rx_safe dx_umax rx_cut rgba_opts eq_refl) as Ho.
  assert (H : match read_info lzw_ref rx_cut rgba_opts with
    | Ok d => snd (iter_all lzw_ref umax64 2 (mk_iter lzw_ref d false)) = [IErr (DIo UnexpectedEof); INone]
    | _ => False end) by (vm_compute; reflexivity).
  destruct (read_info lzw_ref rx_cut rgba_opts) as [d4|e| |] eqn:E4; try contradiction. destruct Ho as (d1 & E1 & _).
  exists d4, d1. split; [reflexivity|]. split; [exact E1|]. split; [exact H|].
  assert (Hs : src_ok rx_cut).
  { unfold src_ok. apply Forall_forall. intros x Hx. unfold rx_cut, bytewise in Hx. apply in_map_iff in Hx as (b & <- & Hb).
    constructor; [|constructor]. revert b Hb. apply Forall_forall. apply bytes_by. vm_compute. reflexivity. }
  pose proof (C61_iter lzw_ref umax64 rx_safe dx_umax rx_cut rgba_opts d4 d1 2 Hs eq_refl rx_limit E4 E1) as T.
  rewrite H in T. clear - T. specialize (T ltac:(constructor; [intros [X|X]; discriminate X|constructor; [exact I|constructor]])).
  revert T. generalize (snd (iter_all lzw_ref umax64 2 (mk_iter lzw_ref d1 false))) as xs. intros xs T.
  inversion T as [|? ? ? ? T1 T2]; subst. inversion T2 as [|? ? ? ? T3 T4]; subst. inversion T4; subst.
  inversion T1; subst. inversion T3; subst. reflexivity.
Qed.
(** The errors of [rgba_only] cannot be left out: a limit that is enough for the indices only. *)
Lemma rx_opened (x : dres (dcd lzw_ref)) (P : dcd lzw_ref -> Prop) : match x with Ok d => P d | _ => False end -> exists d, x = Ok d /\ P d.
Proof. destruct x; try contradiction. eauto. Qed.
Definition rx_tight : options := mk_opts (Some 20) CRgba false false false false.
Example C61_all_errors_refuted : exists d4 d1, read_info lzw_ref dx_src rx_tight = Ok d4 /\ read_info lzw_ref dx_src (indexed rx_tight) = Ok d1 /\
  snd (read_next_frame lzw_ref umax64 d4) = Err (DIo OutOfMemory) /\ snd (read_next_frame lzw_ref umax64 d1) = Ok true.
Proof.
  destruct (rx_opened (read_info lzw_ref dx_src rx_tight) (fun d => snd (read_next_frame lzw_ref umax64 d) = Err (DIo OutOfMemory)))
    as (d4 & E4 & K4); [vm_compute; reflexivity|].
  destruct (rx_opened (read_info lzw_ref dx_src (indexed rx_tight)) (fun d => snd (read_next_frame lzw_ref umax64 d) = Ok true))
    as (d1 & E1 & K1); [vm_compute; reflexivity|].
  exists d4, d1. split; [exact E4|]. split; [exact E1|]. split; [exact K4|exact K1].
Qed.
(** [FrameDecoder]: an interlaced frame, a frame without data, and a frame with the global palette. *)
Definition rx_frames : list frame :=
  [make_lzw_pre_encoded lzw_ref ex_f1; set_buffer ex_f1 []; make_lzw_pre_encoded lzw_ref ex_f2].
Example C61_frame_decoder_case :
  Forall2 (same_decoded (Some ex_pal)) (fd_frames lzw_ref umax64 (fd_set_global_palette lzw_ref (fd_new lzw_ref rgba_opts) ex_pal) rx_frames)
    (fd_frames lzw_ref umax64 (fd_set_global_palette lzw_ref (fd_new lzw_ref (indexed rgba_opts)) ex_pal) rx_frames) /\
  fd_frames lzw_ref umax64 (fd_set_global_palette lzw_ref (fd_new lzw_ref (indexed rgba_opts)) ex_pal) rx_frames =
    [(set_interlaced (set_buffer ex_f1 [0; 1; 1; 2; 2; 0]) false, Ok tt); (set_buffer ex_f1 [], Err (DFormat ImageTruncated)); (ex_f2, Ok tt)].
Proof.
  assert (Hw : Forall (fun f => u16_ok (f_width f) /\ u16_ok (f_height f)) rx_frames)
    by (constructor; [|constructor; [|constructor; [|constructor]]]; split; vm_compute; reflexivity).
  assert (H : map snd (fd_frames lzw_ref umax64 (fd_set_global_palette lzw_ref (fd_new lzw_ref rgba_opts) ex_pal) rx_frames) =
    [Ok tt; Err (DFormat ImageTruncated); Ok tt]) by (vm_compute; reflexivity).
  split; [|vm_compute; reflexivity].
  apply (C61_frame_decoder lzw_ref umax64 rx_safe dx_umax rgba_opts (Some ex_pal) rx_frames eq_refl rx_limit Hw).
  apply (Forall_map snd (fun y => ~ rgba_only y)). rewrite H. clear.
  constructor; [|constructor; [|constructor; [|constructor]]]; intros [X|X]; discriminate X.
Qed.
