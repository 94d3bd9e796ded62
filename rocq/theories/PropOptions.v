(** Property C54, and what C30 leaves true: stricter decoding options refuse, they never change what is read. *)
From Verif Require Import Base Common Lzw Encoder Stream Converter Reader LzwRef LzwRefSpec ConvInv SpecGif SpecPixels
  SpecEnc SpecOptions DocAll DecoderSafe CanonReader StreamInv DecInv DecProps Pixels DocTrace DocBlocks PixelRead DocRead
  Relax Validate Refuted PropEnc PropDec.
Open Scope N_scope.

(** ** C54 *)
(** Any calls on any source: unless a call ends in a refusal, the more permissive decoder gives the same results
    and looks the same before and after. *)
Theorem C54_reads : forall L umax o o', permits o o' ->
  forall src d os d' ys, read_info L src o = Ok d -> run_dops L umax d os = (d', ys) -> Forall (out_calm o o') ys ->
  exists e e', read_info L src o' = Ok e /\ run_dops L umax e os = (e', ys) /\ looks_like L umax d e /\ looks_like L umax d' e'.
Proof. exact relaxed_reads. Qed.
Theorem C54_iterates : forall L umax o o', permits o o' ->
  forall src d n it' xs, read_info L src o = Ok d -> iter_all L umax n (mk_iter L d false) = (it', xs) -> Forall (item_calm o o') xs ->
  exists e jt', read_info L src o' = Ok e /\ iter_all L umax n (mk_iter L e false) = (jt', xs) /\
    looks_like L umax d e /\ looks_like L umax (it_dec L it') (it_dec L jt').
Proof. exact relaxed_iterates. Qed.
(** Any other error of [read_info] is an error with the permissive options, too. *)
Theorem C54_refuses : forall L o o', permits o o' ->
  forall src e, read_info L src o = Err e -> ~ refusal o o' e -> read_info L src o' = Err e.
Proof. exact relaxed_refuses. Qed.
Theorem C54_frame_decoder : forall L umax o o', permits o o' ->
  forall pal fs, Forall (fun y => calm o o' (snd y)) (fd_frames L umax (fd_set_global_palette L (fd_new L o) pal) fs) ->
  fd_frames L umax (fd_set_global_palette L (fd_new L o') pal) fs = fd_frames L umax (fd_set_global_palette L (fd_new L o) pal) fs.
Proof. exact relaxed_frames. Qed.
(** A file that is well-formed for the permissive options gives, with the stricter ones, a beginning of its frames:
    either all of them and the end, or some and then a refusal. *)
Theorem C54_file_frames : forall L umax o o', permits o o' -> forall (S : lzw_spec L), 2 ^ 32 - 1 <= umax ->
  forall g tl src outs n, gif_ok o' g -> delivers src (ser_gif g tl) ->
  o_skip_frame_decoding o' = false -> o_check_for_end_code o' = false ->
  Forall2 (holds L S umax o') (gif_images g) outs -> (length outs < n)%nat ->
  (exists k, refusal o o' k /\ read_info L src o = Err k) \/
  exists d d' fs rest x, read_info L src o = Ok d /\ read_all L umax n d = (d', fs, x) /\
    all_seen o' g (gif_images g) outs = fs ++ rest /\
    (x = Ok false /\ rest = [] \/ exists k, x = Err k /\ refusal o o' k).
Proof. exact strict_file_frames. Qed.
Theorem C54_file_scan : forall L umax o o', permits o o' -> forall (S : lzw_spec L), 2 ^ 32 - 1 <= umax ->
  forall g tl src n, gif_ok o' g -> delivers src (ser_gif g tl) ->
  scannable o' -> (length (gif_images g) < n)%nat ->
  (exists k, refusal o o' k /\ read_info L src o = Err k) \/
  exists d d' fs rest x, read_info L src o = Ok d /\ scan_all L n d = (d', fs, x) /\
    map meta_seen (gif_images g) = fs ++ rest /\
    (x = Ok false /\ rest = [] \/ exists k, x = Err k /\ refusal o o' k).
Proof. exact strict_file_scan. Qed.
Print Assumptions C54_reads.
Print Assumptions C54_iterates.
Print Assumptions C54_refuses.
Print Assumptions C54_frame_decoder.
Print Assumptions C54_file_frames.
Print Assumptions C54_file_scan.

(** All checks on and little memory. *)
Definition wary_opts : options := mk_opts (Some 30) CRgba true false true false.
Lemma wary_permits : permits wary_opts rgba_opts.
Proof. do 2 (split; [reflexivity|]). split; [exists 30; split; [reflexivity|vm_compute; discriminate]|]. repeat split; discriminate. Qed.
(** The example file comes byte by byte: the first frame is read, the second refused for its end code. *)
Example C54_case : exists d d', read_info lzw_ref dx_src wary_opts = Ok d /\
  read_all lzw_ref umax64 3 d = (d', [dx_frame1], Err (DIo InvalidData)) /\ refusal wary_opts rgba_opts (DIo InvalidData).
Proof.
  assert (E : match read_info lzw_ref dx_src wary_opts with
              | Ok d => let '(_, fs, x) := read_all lzw_ref umax64 3 d in fs = [dx_frame1] /\ x = Err (DIo InvalidData)
              | _ => False end) by (vm_compute; split; reflexivity).
  destruct (read_info lzw_ref dx_src wary_opts) as [d| | |]; try contradiction.
  destruct (read_all lzw_ref umax64 3 d) as [[d' fs] x] eqn:F. destruct E as [-> ->]. exists d, d'.
  split; [reflexivity|]. split; [exact F|]. apply rf_end_code. discriminate.
Qed.
(** A file read in one piece: no call of this session is refused, so [C54_reads] applies. *)
Example C54_reads_case : exists d d' ys,
  read_info lzw_ref [RChunk sample_2x2] wary_opts = Ok d /\
  run_dops lzw_ref umax64 d [OpInfo; OpInto (repeat 0 16); OpInfo] = (d', ys) /\ Forall (out_calm wary_opts rgba_opts) ys /\
  map (fun y => match y with OutBool (Ok b) => Some b | OutInto _ (Ok _) => Some true | _ => None end) ys = [Some true; Some true; Some false].
Proof.
  assert (E : match read_info lzw_ref [RChunk sample_2x2] wary_opts with
              | Ok d => map (fun y => match y with OutBool (Ok b) => Some b | OutInto _ (Ok _) => Some true | _ => None end)
                   (snd (run_dops lzw_ref umax64 d [OpInfo; OpInto (repeat 0 16); OpInfo])) = [Some true; Some true; Some false]
              | _ => False end) by (vm_compute; reflexivity).
  destruct (read_info lzw_ref [RChunk sample_2x2] wary_opts) as [d| | |]; try contradiction.
  exists d. destruct (run_dops lzw_ref umax64 d [OpInfo; OpInto (repeat 0 16); OpInfo]) as [d' ys] eqn:F. cbn [snd] in E.
  exists d', ys. split; [reflexivity|]. split; [reflexivity|]. split; [|exact E].
  destruct ys as [|y1 [|y2 [|y3 [|]]]]; try discriminate E. cbn [map] in E. injection E as E1 E2 E3.
  assert (H : forall y b, match y with OutBool (Ok b) => Some b | OutInto _ (Ok _) => Some true | _ => None end = Some b -> out_calm wary_opts rgba_opts y).
  { intros y b Hy. destruct y as [[]|? []|? []]; try discriminate Hy; exact I. }
  repeat constructor; eapply H; eassumption.
Qed.
(** A smaller limit refuses a frame, an even smaller one the file. *)
Example C54_memory_case :
  match read_info lzw_ref dx_src (mk_opts (Some 20) CRgba false false false false) with
  | Ok d => snd (read_all lzw_ref umax64 3 d) = Err (DIo OutOfMemory)
  | _ => False end /\
  match read_info lzw_ref dx_src (mk_opts (Some 10) CRgba false false false false) with Err e => e = DFormat MemoryLimitReached | _ => False end.
Proof. vm_compute. split; reflexivity. Qed.

(** ** C30: what the end-code check does to well-formed files *)
Theorem C30_end_check_frames : forall L umax o, o_check_for_end_code o = true -> forall (S : lzw_spec L), 2 ^ 32 - 1 <= umax ->
  forall g tl src outs n, gif_ok o g -> delivers src (ser_gif g tl) -> o_skip_frame_decoding o = false ->
  Forall2 (holds L S umax o) (gif_images g) outs -> (length outs < n)%nat ->
  exists d d' fs rest x, read_info L src o = Ok d /\ read_all L umax n d = (d', fs, x) /\
    all_seen o g (gif_images g) outs = fs ++ rest /\ (x = Ok false /\ rest = [] \/ x = Err (DIo InvalidData)).
Proof. exact end_check_frames. Qed.
Theorem C30_end_check_scan : forall L umax o, o_check_for_end_code o = true -> forall (S : lzw_spec L), 2 ^ 32 - 1 <= umax ->
  forall g tl src n, gif_ok o g -> delivers src (ser_gif g tl) -> (length (gif_images g) < n)%nat ->
  exists d d' fs rest x, read_info L src o = Ok d /\ scan_all L n d = (d', fs, x) /\
    map meta_seen (gif_images g) = fs ++ rest /\ (x = Ok false /\ rest = [] \/ x = Err (DIo InvalidData)).
Proof. exact end_check_scan. Qed.
Print Assumptions C30_end_check_frames.
Print Assumptions C30_end_check_scan.
Definition checked_opts : options := mk_opts (Some 50000000) CRgba false false true false.
Example C30_case : exists d d', read_info lzw_ref dx_src checked_opts = Ok d /\
  read_all lzw_ref umax64 3 d = (d', [dx_frame1], Err (DIo InvalidData)).
Proof.
  assert (E : match read_info lzw_ref dx_src checked_opts with
              | Ok d => let '(_, fs, x) := read_all lzw_ref umax64 3 d in fs = [dx_frame1] /\ x = Err (DIo InvalidData)
              | _ => False end) by (vm_compute; split; reflexivity).
  destruct (read_info lzw_ref dx_src checked_opts) as [d| | |]; try contradiction.
  destruct (read_all lzw_ref umax64 3 d) as [[d' fs] x] eqn:F. destruct E as [-> ->]. exists d, d'. split; [reflexivity|exact F].
Qed.
