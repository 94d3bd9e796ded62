(** Property C87: the iterator gives what a loop over [read_next_frame] gets, on every input. *)
From Verif Require Import Base Common Lzw LzwErrs LzwEnds Encoder Stream Converter Reader LzwRef LzwRefSpec StreamInv ConvInv DecoderSafe CanonReader DocRead DocAll
  SpecGif SpecPixels SpecAccept SpecSound Sound SoundAcc DecInv SpecIter Iterate IterSound Validate Refuted PropEnc PropDec PropMore PropChecked.
Open Scope N_scope.

(** Any decoder, also one on which calls were made, whether they went well or not; any bytes, in any pieces, with any faults. *)
Theorem C87_items : forall L umax, lzw_safe L -> 2 ^ 32 - 1 <= umax -> forall src o, src_ok src -> limit_ok umax (o_limit o) ->
  forall d n, opened L umax src o d ->
  exists d' fs x, read_all L umax n d = (d', fs, x) /\ snd (iter_all L umax n (mk_iter L d false)) = items n fs x.
Proof. exact iter_is_loop. Qed.
Print Assumptions C87_items.
(** A [for] loop ends after the frames [fs]: all was read, or there is an image of height 0. *)
Theorem C87_ends : forall L umax, lzw_safe L -> 2 ^ 32 - 1 <= umax -> forall src o, src_ok src -> limit_ok umax (o_limit o) ->
  forall d fs it, opened L umax src o d ->
  iter_all L umax (S (length fs)) (mk_iter L d false) = (it, map IFrame fs ++ [INone]) ->
  exists d', read_all L umax (S (length fs)) d = (d', fs, Ok false) \/
    exists f, read_all L umax (S (length fs)) d = (d', fs ++ [f], Ok true) /\ f_buffer f = [] /\ f_height f = 0.
Proof. exact loop_ends. Qed.
Print Assumptions C87_ends.
(** It meets an error: so does the other loop, after the same frames. *)
Theorem C87_fails : forall L umax, lzw_safe L -> 2 ^ 32 - 1 <= umax -> forall src o, src_ok src -> limit_ok umax (o_limit o) ->
  forall d fs e it, opened L umax src o d ->
  iter_all L umax (S (length fs)) (mk_iter L d false) = (it, map IFrame fs ++ [IErr e]) ->
  exists d', read_all L umax (S (length fs)) d = (d', fs, Err e).
Proof. exact loop_fails. Qed.
Print Assumptions C87_fails.

(** A [for] loop over any input that meets no error: the input is a file and the frames are its images, or the loop stopped
    at an image of height 0. *)
Theorem C87_sound : forall L (S : lzw_spec L) umax, 2 ^ 32 - 1 <= umax -> forall src o, src_ok src -> limit_ok umax (o_limit o) ->
  o_skip_frame_decoding o = false -> forall (Z : lzw_errs S) d fs it, good_src src -> o_check_for_end_code o = false -> read_info L src o = Ok d ->
  iter_all L umax (Datatypes.S (length fs)) (mk_iter L d false) = (it, map IFrame fs ++ [INone]) ->
  (exists d' f, read_all L umax (Datatypes.S (length fs)) d = (d', fs ++ [f], Ok true) /\ f_buffer f = [] /\ f_height f = 0) \/
  exists g tl obs, concat (map ev_bytes src) = ser_gif g tl /\ file_acc true o g tl /\
    Forall2 (data_for Z) (acc_images g) obs /\ Forall2 (fun ci ob => shows umax o (snd ci) (fst ob)) (acc_images g) obs /\
    fs = all_seen o g (acc_images g) (map fst obs).
Proof. exact iter_sound. Qed.
Print Assumptions C87_sound.
(** With the check for end codes, the data of its images have end codes. *)
Theorem C87_end_codes : forall L (S : lzw_spec L) umax, 2 ^ 32 - 1 <= umax -> forall src o, src_ok src -> limit_ok umax (o_limit o) ->
  o_skip_frame_decoding o = false -> forall (Y : lzw_ends S) d fs it, o_check_for_end_code o = true -> read_info L src o = Ok d ->
  iter_all L umax (Datatypes.S (length fs)) (mk_iter L d false) = (it, map IFrame fs ++ [INone]) ->
  (exists d' f, read_all L umax (Datatypes.S (length fs)) d = (d', fs ++ [f], Ok true) /\ f_buffer f = [] /\ f_height f = 0) \/
  exists g tl, concat (map ev_bytes src) = ser_gif g tl /\ file_acc true o g tl /\
    Forall (fun b => match b with BImg i => lz_ends Y (lz_new L (im_mcs i)) (payload (im_subs i)) | _ => True end) (g_blocks g).
Proof. exact iter_ends. Qed.
Print Assumptions C87_end_codes.

(** ** Cases *)
(** A frame, an image of height 0, a frame, an image with too few pixels: the items of six calls, and what the other loop gets. *)
Definition ix_file : list N :=
  head44 ++ img_desc 0 0 1 1 0 ++ data_of 2 [1] ++ img_desc 0 0 2 0 0x40 ++ data_of 2 [0] ++ img_desc 0 0 1 1 0 ++ data_of 2 [0] ++
  img_desc 0 0 3 1 0 ++ data_of 2 [1] ++ [0x3B].
Definition ix_look (x : item) : list N * N := match x with INone => ([], 0) | IFrame f => (f_buffer f, 1) | IErr _ => ([], 2) | _ => ([], 3) end.
Example C87_case : match read_info lzw_ref [RChunk ix_file] options_new with
  | Ok d => map ix_look (snd (iter_all lzw_ref umax64 6 (mk_iter lzw_ref d false))) = [([1], 1); ([], 0); ([0], 1); ([], 2); ([], 0); ([], 0)] /\
      (map f_buffer (snd (fst (read_all lzw_ref umax64 6 d))), snd (read_all lzw_ref umax64 6 d)) = ([[1]; []; [0]], Err (DFormat ImageTruncated))
  | _ => False
  end.
Proof. vm_compute. split; reflexivity. Qed.
(** The hypotheses of the other theorems: a [for] loop over a file with one frame, without and with the check for end codes; over
    a file with an image of height 0; over one with too few pixels. *)
Definition ix_one : list N := head44 ++ img_desc 0 0 1 1 0 ++ data_of 2 [1] ++ [0x3B].
Definition ix_loop (l : list N) (o : options) (n : nat) : list (list N * N) :=
  match read_info lzw_ref [RChunk l] o with Ok d => map ix_look (snd (iter_all lzw_ref umax64 n (mk_iter lzw_ref d false))) | _ => [] end.
Lemma ix_src l : forallb (fun b => b <? 256) l = true -> l <> [] -> src_ok [RChunk l] /\ good_src [RChunk l].
Proof.
  intros H Hn. split; (constructor; [|constructor]).
  - apply Forall_forall. intros b Hb. rewrite forallb_forall in H. apply N.ltb_lt. auto.
  - destruct l; [congruence|exact I].
Qed.
Example C87_sources : (src_ok [RChunk ix_one] /\ good_src [RChunk ix_one]) /\ (src_ok [RChunk ix_file] /\ good_src [RChunk ix_file]).
Proof. split; apply ix_src; vm_compute; [reflexivity|discriminate|reflexivity|discriminate]. Qed.
Example C87_loops : ix_loop ix_one options_new 2 = [([1], 1); ([], 0)] /\ ix_loop ix_one (checked CIndexed) 2 = [([1], 1); ([], 0)] /\
  ix_loop ix_file options_new 2 = [([1], 1); ([], 0)] /\ ix_loop (head44 ++ img_desc 0 0 3 1 0 ++ data_of 2 [1] ++ [0x3B]) options_new 1 = [([], 2)].
Proof. vm_compute. repeat split; reflexivity. Qed.
