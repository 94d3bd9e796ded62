(** Property C57: a file of n bytes gives at most n/13 frames, so that every loop over frames ends. *)
From Verif Require Import Base Common Lzw Encoder Stream Converter Reader LzwRef LzwRefSpec DecoderSafe ConvInv DocAll Programs SpecCount FrameCount
  Validate Refuted PropDec.
Open Scope N_scope.

(** Any calls on a decoder, in any order, as long as they go well: for any bytes, in any pieces. *)
Theorem C57_calls : forall L, lzw_safe L -> forall umax, 2 ^ 32 - 1 <= umax -> forall src o d os d' ys,
  src_ok src -> limit_ok umax (o_limit o) -> Forall (op_ok umax) os ->
  read_info L src o = Ok d -> run_dops L umax d os = (d', ys) -> Forall went_well ys ->
  frames_fit (new_frames ys) (bytes_of src).
Proof. exact calls_fit. Qed.
Print Assumptions C57_calls.

(** Reading, scanning and iterating: more than n/13 turns are enough to see the end of the file or an error. *)
Theorem C57_loops : forall L, lzw_safe L -> forall umax, 2 ^ 32 - 1 <= umax -> forall src o d n,
  src_ok src -> limit_ok umax (o_limit o) -> read_info L src o = Ok d ->
  (forall d' fs x, read_all L umax n d = (d', fs, x) ->
     frames_fit (length fs) (bytes_of src) /\ ((bytes_of src < 13 * n)%nat -> x = Ok false \/ exists e, x = Err e)) /\
  (forall d' fs x, scan_all L n d = (d', fs, x) ->
     frames_fit (length fs) (bytes_of src) /\ ((bytes_of src < 13 * n)%nat -> x = Ok false \/ exists e, x = Err e)) /\
  (forall it xs, iter_all L umax n (mk_iter L d false) = (it, xs) -> frames_fit (item_frames xs) (bytes_of src)).
Proof. exact loops_end. Qed.
Print Assumptions C57_loops.

(** The example programs: the number of turns allowed to their loops does not matter once it exceeds n/13. *)
Theorem C57_programs : forall L, lzw_safe L -> forall umax, 2 ^ 32 - 1 <= umax -> forall src n n2, src_ok src ->
  (bytes_of src < 13 * n)%nat -> (bytes_of src < 13 * n2)%nat ->
  (forall dbg create, explode L umax dbg create n src = explode L umax dbg create n2 src) /\
  (forall order w, parallel L umax order n src w = parallel L umax order n2 src w).
Proof. exact program_loops_end. Qed.
Print Assumptions C57_programs.

(** ** How tight the bound is *)
(** Three images of 13 bytes each (the last one without the end of its data) and the smallest colour table: the bound
    misses these 57 bytes by the 6 bytes of the table. *)
Definition tiny_image : list N := [0x2C; 0;0; 0;0; 1;0; 1;0; 0; 2; 0].
Definition tiny_gif : list N :=
  [0x47;0x49;0x46;0x38;0x37;0x61; 1;0; 1;0; 0x80; 0; 0] ++ [0;0;0; 1;1;1] ++ tiny_image ++ [0] ++ tiny_image ++ [0] ++ tiny_image.
Definition tiny_src : list revent := [RChunk (firstn 20 tiny_gif); RChunk (skipn 20 tiny_gif)].
Lemma tiny_ok : src_ok tiny_src.
Proof. repeat constructor; unfold byte_ok; lia. Qed.
Example C57_calls_case : exists d d' ys, read_info lzw_ref tiny_src options_new = Ok d /\
  run_dops lzw_ref umax64 d [OpInfo; OpInfo; OpInfo] = (d', ys) /\ Forall went_well ys /\ new_frames ys = 3%nat /\
  bytes_of tiny_src = 57%nat /\ frames_fit 3 57 /\ ~ frames_fit 3 50 /\ ~ frames_fit 4 57.
Proof.
  assert (V : match read_info lzw_ref tiny_src options_new with
     | Ok d => snd (run_dops lzw_ref umax64 d [OpInfo; OpInfo; OpInfo]) = [OutBool (Ok true); OutBool (Ok true); OutBool (Ok true)]
     | _ => False end) by (vm_compute; reflexivity).
  destruct (read_info lzw_ref tiny_src options_new) as [d|e| | ] eqn:Ei; [|destruct V..].
  destruct (run_dops lzw_ref umax64 d [OpInfo; OpInfo; OpInfo]) as [d' ys] eqn:Er. cbn [snd] in V.
  exists d, d', ys. split; [reflexivity|]. split; [exact Er|]. rewrite V.
  split; [repeat constructor; cbn; eauto|]. split; [reflexivity|]. split; [reflexivity|].
  unfold frames_fit. lia.
Qed.
(** Twenty turns for a file of two images, and one turn too few. *)
Example C57_loops_case : exists d, read_info lzw_ref dx_src options_new = Ok d /\
  (exists d' fs, read_all lzw_ref umax64 20 d = (d', fs, Ok false) /\ length fs = 2%nat) /\
  (exists d' fs, read_all lzw_ref umax64 1 d = (d', fs, Ok true)) /\ (bytes_of dx_src < 13 * 20)%nat.
Proof.
  assert (V : match read_info lzw_ref dx_src options_new with
     | Ok d => match read_all lzw_ref umax64 20 d with (_, fs, x) => length fs = 2%nat /\ x = Ok false end /\
               snd (read_all lzw_ref umax64 1 d) = Ok true
     | _ => False end) by (vm_compute; auto).
  destruct (read_info lzw_ref dx_src options_new) as [d|e| | ] eqn:Ei; [|destruct V..]. destruct V as [V1 V2].
  exists d. split; [reflexivity|]. split; [|split].
  - destruct (read_all lzw_ref umax64 20 d) as [[d' fs] x]. destruct V1 as [V1 ->]. eauto.
  - destruct (read_all lzw_ref umax64 1 d) as [[d' fs] x]. cbn [snd] in V2. subst x. eauto.
  - vm_compute. lia.
Qed.
Example C57_programs_case : src_ok tiny_src /\ (bytes_of tiny_src < 13 * 5)%nat /\
  explode lzw_ref umax64 false (fun _ => None) 5 tiny_src = explode lzw_ref umax64 false (fun _ => None) 9 tiny_src.
Proof. split; [exact tiny_ok|]. split; [vm_compute; lia|vm_compute; reflexivity]. Qed.
