(** Property C71: a decoder with a memory limit keeps a bounded amount of the file's data, whatever the file and the calls. *)
From Verif Require Import Base Common Lzw Encoder Stream Converter Reader LzwRef LzwRefSpec Validate ConvInv DecoderSafe DecInv
  SpecStream SpecMem MemHeld Refuted PropDec.
Open Scope N_scope.

Theorem C71_streaming : forall L, lzw_safe L -> forall o s rest evs n, driven L o s rest evs -> o_limit o = Some n ->
  held_stream L s <= 1544 + N.max n 1.
Proof. exact held_streaming. Qed.
Print Assumptions C71_streaming.

(** [B]: the size of the largest buffer ever passed to the decoder. *)
Theorem C71_decoder : forall L, lzw_safe L -> forall umax, 2 ^ 32 - 1 <= umax -> forall src o n B, src_ok src ->
  limit_ok umax (o_limit o) -> o_limit o = Some n ->
  forall d, used_with L umax B src o d -> held L d <= 3080 + 2 * N.max n 1 + N.max n B / 4.
Proof. exact held_bound. Qed.
Print Assumptions C71_decoder.

(** Every decoder a user can have is covered, with a suitable [B]. *)
Theorem C71_all : forall L umax src o d, opened L umax src o d -> exists B, used_with L umax B src o d.
Proof. exact opened_used. Qed.
Print Assumptions C71_all.

(** The limit does not cover what [read_next_frame] asks for ahead of copying compressed data: this file of 34 bytes makes it ask
    for a gigabyte although the limit is one byte. *)
Definition huge : list N := GIF89a ++ [1; 0; 1; 0; 0; 0; 0; 0x2C; 0; 0; 0; 0; 0xFF; 0xFF; 0xFF; 0xFF; 0x80; 1; 2; 3; 4; 5; 6; 2; 1; 5; 0; 0x3B].
Definition huge_opts : options := mk_opts (Some 1) CIndexed false true false false.
Definition ask (src : list revent) (o : options) : option (frame_data_type * N) :=
  match read_info lzw_ref src o with
  | Ok d => match next_frame_info lzw_ref d with
            | (d', Ok true) => Some (dc_ty lzw_ref d', copy_request lzw_ref d')
            | _ => None
            end
  | _ => None
  end.
Lemma ask_spec src o t n : ask src o = Some (t, n) -> exists d d',
  read_info lzw_ref src o = Ok d /\ next_frame_info lzw_ref d = (d', Ok true) /\ dc_ty lzw_ref d' = t /\ copy_request lzw_ref d' = n.
Proof.
  unfold ask. intros H. destruct (read_info lzw_ref src o) as [d|e| | ]; try discriminate H.
  destruct (next_frame_info lzw_ref d) as [d' [[|]|e| | ]] eqn:E; try discriminate H.
  exists d, d'. injection H as H1 H2. auto.
Qed.
Lemma huge_ask : ask [RChunk huge] huge_opts = Some (FLzw 2, 1073709056).
Proof. vm_compute. reflexivity. Qed.
Theorem C71_reserve_refuted : exists src o d d', len (concat (map ev_bytes src)) = 34 /\ o_limit o = Some 1 /\
  read_info lzw_ref src o = Ok d /\ next_frame_info lzw_ref d = (d', Ok true) /\ dc_ty lzw_ref d' = FLzw 2 /\
  copy_request lzw_ref d' = 1073709056.
Proof.
  exists [RChunk huge], huge_opts. destruct (ask_spec _ _ _ _ huge_ask) as (d & d' & H).
  exists d, d'. split; [reflexivity|]. split; [reflexivity|exact H].
Qed.
Print Assumptions C71_reserve_refuted.

(** Decoders reading [dx_gif] as RGBA with a limit of 24 bytes: having read the first frame (palettes of 4 and 2 colours, 6 pixels,
    as many bytes of scratch, an extension's data); having also passed a buffer of 400 bytes for the pixels of the second. *)
Definition mem_opts : options := mk_opts (Some 24) CRgba false false false false.
Fixpoint use (d : dcd lzw_ref) (ops : list dop) : dcd lzw_ref :=
  match ops with [] => d | op :: ops => use (fst (run_dop lzw_ref umax64 d op)) ops end.
Definition used_held (src : list revent) (o : options) (ops : list dop) : option N :=
  match read_info lzw_ref src o with Ok d => Some (held lzw_ref (use d ops)) | _ => None end.
Lemma use_used ops : forall B src o d, Forall (op_ok umax64) ops -> Forall (buf_within B) ops ->
  used_with lzw_ref umax64 B src o d -> used_with lzw_ref umax64 B src o (use d ops).
Proof.
  induction ops as [|op ops IH]; intros B src o d H1 H2 Hd; [exact Hd|]. inversion_clear H1. inversion_clear H2. cbn [use].
  apply IH; auto. destruct (run_dop lzw_ref umax64 d op) as [d' y] eqn:E. eapply us_call; eauto.
Qed.
Lemma used_held_spec B src o ops m : Forall (op_ok umax64) ops -> Forall (buf_within B) ops -> used_held src o ops = Some m ->
  exists d, used_with lzw_ref umax64 B src o d /\ held lzw_ref d = m.
Proof.
  intros H1 H2 H. unfold used_held in H. destruct (read_info lzw_ref src o) as [d|e| | ] eqn:E; try discriminate H.
  exists (use d ops). split; [|now injection H]. apply use_used; auto. now apply us_info.
Qed.
Definition reads1 : list dop := [OpFrame].
Definition reads2 : list dop := [OpFrame; OpInfo; OpFill (repeat 0 400)].
Example C71_case : src_ok dx_src /\ limit_ok umax64 (o_limit mem_opts) /\
  (exists d, used_with lzw_ref umax64 0 dx_src mem_opts d /\ held lzw_ref d = 49) /\
  (exists d, used_with lzw_ref umax64 400 dx_src mem_opts d /\ held lzw_ref d = 111).
Proof.
  split; [apply dx_delivers|]. split; [left; vm_compute; discriminate|]. split.
  - apply (used_held_spec 0 dx_src mem_opts reads1); [repeat constructor|repeat constructor|vm_compute; reflexivity].
  - apply (used_held_spec 400 dx_src mem_opts reads2).
    + repeat apply Forall_cons; try exact I; [vm_compute; discriminate|constructor].
    + repeat apply Forall_cons; try exact I; [vm_compute; discriminate|constructor].
    + vm_compute. reflexivity.
Qed.
Example C71_case_streaming : exists s rest evs, driven lzw_ref options_new s rest evs /\ held_stream lzw_ref s = 17.
Proof. do 3 eexists. split; [exact (dx_run_driven 60 75)|vm_compute; reflexivity]. Qed.
