(** Property C64: the readers accept exactly the files of [SpecAccept], and report what these files say. *)
From Verif Require Import Base Common Lzw Encoder Stream Converter Reader LzwRef LzwRefSpec StreamInv ConvInv DecoderSafe CanonReader DocAll
  SpecGif SpecPixels SpecCount Validate Refuted PropEnc PropDec PropRecolor Programs SpecAccept AcceptFwd AcceptStream AcceptUnique PropAccept.
Open Scope N_scope.

(** Opening and scanning a file, delivered in any pieces: the header is reported as it stands in the file, and one frame for each
    image. *)
Theorem C64_scan : forall L (S : lzw_spec L) umax, 2 ^ 32 - 1 <= umax -> forall o g tl src n,
  scannable o -> file_acc true o g tl -> delivers src (ser_gif g tl) -> (length (acc_images g) < n)%nat ->
  exists d d', read_info L src o = Ok d /\ dec_width L d = g_w g /\ dec_height L d = g_h g /\
    dec_global_palette L d = gif_palette g /\ dec_bg_color L d = gif_bg g /\ dec_repeat L d = gif_repeat g /\
    scan_all L n d = (d', map meta_seen (acc_images g), Ok false).
Proof. exact scan_file. Qed.
Print Assumptions C64_scan.

(** Together with the other direction (C62): these are exactly the byte strings that are accepted. *)
Theorem C64_exact : forall L (S : lzw_spec L) umax, 2 ^ 32 - 1 <= umax -> forall src o,
  src_ok src -> good_src src -> scannable o ->
  ((exists d n d' fs, read_info L src o = Ok d /\ scan_all L n d = (d', fs, Ok false)) <->
   exists g tl, concat (map ev_bytes src) = ser_gif g tl /\ file_acc true o g tl).
Proof. exact scan_exact. Qed.
Print Assumptions C64_exact.
Theorem C64_refused : forall L (S : lzw_spec L) umax, 2 ^ 32 - 1 <= umax -> forall src o n,
  src_ok src -> scannable o -> limit_ok umax (o_limit o) -> (bytes_of src < 13 * n)%nat ->
  ~ (exists g tl, concat (map ev_bytes src) = ser_gif g tl /\ file_acc true o g tl) ->
  (exists e, read_info L src o = Err e) \/
  exists d d' fs e, read_info L src o = Ok d /\ scan_all L n d = (d', fs, Err e).
Proof. exact scan_refuses. Qed.
Print Assumptions C64_refused.

(** The streaming decoder without a destination for pixels, fed in any pieces: it never refuses such a file, is never satisfied
    before the trailer, and its frames are those of the file. *)
Theorem C64_stream : forall L (S : lzw_spec L) o g tl, scannable o -> file_acc false o g tl -> forall s rest evs fs,
  skimmed L o (ser_gif g tl) s rest evs fs ->
  (exists later, map meta_seen (acc_images g) = fs ++ later) /\
  (In (DBlockStart BkTrailer) evs -> fs = map meta_seen (acc_images g)) /\
  (~ In (DBlockStart BkTrailer) evs -> rest <> [] /\
     forall buf more, rest = buf ++ more -> exists s' n d, update L s buf ONone = (s', ONone, Ok (n, d))).
Proof. exact skimmed_file. Qed.
Print Assumptions C64_stream.

(** The grammar is unambiguous: what a byte string means does not depend on the options either. *)
Theorem C64_unique : forall tables tables' o o' g g' tl tl', file_acc tables o g tl -> file_acc tables' o' g' tl' ->
  ser_gif g tl = ser_gif g' tl' -> g = g' /\ tl = tl'.
Proof. exact file_unique. Qed.
Print Assumptions C64_unique.

(** Without unknown blocks and empty first data blocks the images carry the control data that GIF89a gives them. *)
Theorem C64_regular : forall g, regular g -> acc_images g = gif_images g.
Proof. exact acc_images_regular. Qed.
Print Assumptions C64_regular.

(** ** Cases *)
(** Two images; the control extension before the first one is applied to the second one as well, because an empty unknown block
    precedes it. The second one starts with an empty data block. *)
Definition ex_gif : gif :=
  mk_gif true 4 4 0x80 1 0 [1; 2; 3; 4; 5; 6]
    [BExt 0xF9 [[9; 7; 0; 1]]; BImg (mk_img 0 0 1 1 0 [] 2 [[12; 10]]); BUnk 0x99 [[]]; BImg (mk_img 1 1 2 2 0x40 [] 2 [[]; [12; 10]])].
Lemma ex_acc tables : file_acc tables check_opts ex_gif [].
Proof.
  split; [|discriminate]. split; [|split].
  - repeat split; try reflexivity. crush_rng.
  - constructor; [|constructor; [|constructor; [|constructor; [|constructor]]]].
    + split; [right; left; reflexivity|]. split; [|split; [reflexivity|intros _; vm_compute; discriminate]].
      split; [discriminate|]. split; [constructor; [split; [cbn; lia|crush_rng]|constructor]|constructor].
    + split; [split; [repeat split; try reflexivity; discriminate|]; split; [repeat split; constructor|]; split; [split; discriminate|intros _; right; reflexivity]|].
      split; [discriminate|]. split; [constructor; [split; [cbn; lia|crush_rng]|constructor]|constructor].
    + split; [reflexivity|]. split; [discriminate|]. split; [discriminate|]. split; [discriminate|]. split; [|reflexivity].
      split; [discriminate|]. split; [constructor; [split; [cbn; lia|constructor]|constructor]|constructor].
    + split; [split; [repeat split; try reflexivity; discriminate|]; split; [repeat split; constructor|]; split; [split; discriminate|intros _; right; reflexivity]|].
      split; [discriminate|]. split; [|constructor; [discriminate|constructor]].
      constructor; [split; [cbn; lia|constructor]|constructor; [split; [cbn; lia|crush_rng]|constructor]].
  - split; [reflexivity|]. split; [intros Q; now contradiction Q|exact I].
Qed.
Lemma ex_delivers : delivers (bytewise (ser_gif ex_gif [])) (ser_gif ex_gif []).
Proof. apply bytewise_delivers. crush_rng. Qed.
Example C64_scan_case : exists d d', read_info lzw_ref (bytewise (ser_gif ex_gif [])) check_opts = Ok d /\
  scan_all lzw_ref 3 d = (d', map meta_seen (acc_images ex_gif), Ok false) /\
  map f_delay (map meta_seen (acc_images ex_gif)) = [7; 7] /\ map f_transparent (map meta_seen (acc_images ex_gif)) = [Some 1; Some 1].
Proof.
  assert (Hn : (length (acc_images ex_gif) < 3)%nat) by (vm_compute; lia).
  destruct (C64_scan lzw_ref lzw_ref_spec umax64 dx_umax check_opts ex_gif [] _ 3 (or_intror eq_refl) (ex_acc true) ex_delivers Hn)
    as (d & d' & E & _ & _ & _ & _ & _ & F).
  exists d, d'. split; [exact E|]. split; [exact F|]. vm_compute. auto.
Qed.
(** The same file without its last byte is refused. *)
Example C64_refused_case : let src := bytewise (removelast (ser_gif ex_gif [])) in
  exists d, read_info lzw_ref src check_opts = Ok d /\ snd (scan_all lzw_ref 9 d) = Err (DIo UnexpectedEof).
Proof.
  cbv zeta. destruct (rx_opened (read_info lzw_ref (bytewise (removelast (ser_gif ex_gif []))) check_opts)
    (fun d => snd (scan_all lzw_ref 9 d) = Err (DIo UnexpectedEof))) as (d & E & K); [vm_compute; reflexivity|].
  exists d. split; [exact E|exact K].
Qed.
(** The streaming decoder, fed in pieces of three bytes. *)
Fixpoint skim (fuel : nat) (o : options) (s : sd lzw_ref) (rest : list N) (evs : list decoded) (fs : list frame)
  : sd lzw_ref * list N * list decoded * list frame :=
  match fuel with
  | O => (s, rest, evs, fs)
  | S fuel' =>
    match update lzw_ref s (firstn 3 rest) ONone with
    | (s', _, Ok (n, d)) => skim fuel' o s' (skipn n (firstn 3 rest) ++ skipn 3 rest) (evs ++ [d])
        (fs ++ match d, sd_current lzw_ref s' with DFrameMetadata _, Some f => [f] | _, _ => [] end)
    | _ => (s, rest, evs, fs)
    end
  end.
Lemma skim_skimmed file o fuel : forall s rest evs fs, skimmed lzw_ref o file s rest evs fs ->
  let '(s', rest', evs', fs') := skim fuel o s rest evs fs in skimmed lzw_ref o file s' rest' evs' fs'.
Proof.
  induction fuel as [|fuel IH]; intros s rest evs fs H; [exact H|]. cbn [skim].
  destruct (update lzw_ref s (firstn 3 rest) ONone) as [[s' ob'] r] eqn:E. destruct r as [[n d]|e| | ]; [|exact H..].
  apply IH. rewrite <- (firstn_skipn 3 rest) in H. exact (sk_ok lzw_ref o file s _ _ s' ob' n d evs fs H E).
Qed.
Definition ex_skim (fuel : nat) := skim fuel check_opts (sd_new lzw_ref check_opts) (ser_gif ex_gif []) [] [].
Lemma ex_skimmed fuel : skimmed lzw_ref check_opts (ser_gif ex_gif []) (fst (fst (fst (ex_skim fuel)))) (snd (fst (fst (ex_skim fuel))))
  (snd (fst (ex_skim fuel))) (snd (ex_skim fuel)).
Proof.
  unfold ex_skim. pose proof (skim_skimmed (ser_gif ex_gif []) check_opts fuel _ _ _ _ (sk_new lzw_ref check_opts (ser_gif ex_gif []))) as T.
  destruct (skim fuel check_opts (sd_new lzw_ref check_opts) (ser_gif ex_gif []) [] []) as [[[s rest] evs] fs]. exact T.
Qed.
Example C64_stream_case : existsb is_trailer (snd (fst (ex_skim 60))) = true /\ snd (ex_skim 60) = map meta_seen (acc_images ex_gif) /\
  snd (ex_skim 20) = firstn 1 (map meta_seen (acc_images ex_gif)).
Proof. split; [vm_compute; reflexivity|]. split; vm_compute; reflexivity. Qed.
