(** Property C55: the sizes and palettes that the decoder announces are the ones that reading needs and uses. *)
From Verif Require Import Base Common Lzw Encoder Stream Converter Reader LzwRef LzwRefSpec ConvInv SpecGif SpecPixels
  SpecEnc SpecSizes DocAll DecoderSafe DecInv Rewrite Sizes Validate Refuted PropEnc PropDec.
Open Scope N_scope.

(** ** On any bytes, after any calls *)
Theorem C55_accessors : forall L umax, lzw_safe L -> 2 ^ 32 - 1 <= umax ->
  forall src o, src_ok src -> limit_ok umax (o_limit o) -> forall d, opened L umax src o d ->
  dec_line_length L d = f_width (dc_cur L d) * bpp (o_color o) /\
  dec_buffer_size L umax d = in_usize umax (f_width (dc_cur L d) * bpp (o_color o) * f_height (dc_cur L d)).
Proof. exact announced_sizes. Qed.
(** The frame that [read_next_frame] makes has the announced size. *)
Theorem C55_frame : forall L umax, lzw_safe L -> 2 ^ 32 - 1 <= umax ->
  forall src o, src_ok src -> limit_ok umax (o_limit o) -> forall d d', opened L umax src o d ->
  o_skip_frame_decoding o = false -> read_next_frame L umax d = (d', Ok true) ->
  dec_buffer_size L umax d' = Some (len (f_buffer (dc_cur L d'))).
Proof. exact frame_has_size. Qed.
(** A buffer of that size or more is not refused for its size ... *)
Theorem C55_enough : forall L umax, lzw_safe L -> 2 ^ 32 - 1 <= umax ->
  forall src o, src_ok src -> limit_ok umax (o_limit o) -> forall d n buf d' b x, opened L umax src o d ->
  dec_buffer_size L umax d = Some n -> n <= len buf -> len buf <= umax / 2 -> 0 < n ->
  read_into_buffer L umax d buf = (d', b, x) -> ~ buffer_fault x /\ length b = length buf.
Proof. exact enough_buffer. Qed.
(** ... and what it has too much is left alone and makes no difference. *)
Theorem C55_exact : forall L umax, lzw_safe L -> 2 ^ 32 - 1 <= umax ->
  forall src o, src_ok src -> limit_ok umax (o_limit o) -> forall d buf extra, opened L umax src o d ->
  dec_buffer_size L umax d = Some (len buf) ->
  read_into_buffer L umax d (buf ++ extra) = let '(d', b, x) := read_into_buffer L umax d buf in (d', b ++ extra, x).
Proof. exact exact_buffer. Qed.
(** A shorter one is not accepted; unless the frame is interlaced, it is refused before anything is read. *)
Theorem C55_short : forall L umax, lzw_safe L -> 2 ^ 32 - 1 <= umax ->
  forall src o, src_ok src -> limit_ok umax (o_limit o) -> forall d n buf d' b x, opened L umax src o d ->
  dec_buffer_size L umax d = Some n -> len buf < n -> read_into_buffer L umax d buf = (d', b, x) ->
  x <> Ok tt /\ (f_interlaced (dc_cur L d) = false -> d' = d /\ b = buf /\ x = Err (DFormat BufferTooSmall)).
Proof. exact short_buffer. Qed.
Print Assumptions C55_accessors.
Print Assumptions C55_frame.
Print Assumptions C55_enough.
Print Assumptions C55_exact.
Print Assumptions C55_short.

(** ** [FrameDecoder] *)
Theorem C55_fd_accessor : forall L umax o p f,
  fd_buffer_size L umax (fd_for_file L o p) f = in_usize umax (f_width f * bpp (o_color o) * f_height f).
Proof. intros L umax o [p|] f; exact (buffer_size_bpp umax _ f). Qed.
Theorem C55_fd_frame : forall L umax, lzw_safe L -> 2 ^ 32 - 1 <= umax ->
  forall fd f fd' f', u16_ok (f_width f) -> u16_ok (f_height f) -> limit_ok umax (cv_limit (fd_conv L fd)) ->
  decode_lzw_encoded_frame L umax fd f = (fd', f', Ok tt) -> fd_buffer_size L umax fd f = Some (len (f_buffer f')).
Proof. exact fd_frame_size. Qed.
Theorem C55_fd_enough : forall L umax, lzw_safe L -> 2 ^ 32 - 1 <= umax ->
  forall fd f n buf fd' b x, u16_ok (f_width f) -> fd_buffer_size L umax fd f = Some n -> n <= len buf -> len buf <= umax / 2 -> 0 < n ->
  decode_lzw_encoded_frame_into_buffer L umax fd f buf = (fd', b, x) -> ~ buffer_fault x /\ length b = length buf.
Proof. exact fd_enough_buffer. Qed.
Theorem C55_fd_exact : forall L umax, lzw_safe L -> 2 ^ 32 - 1 <= umax ->
  forall fd f buf extra, fd_buffer_size L umax fd f = Some (len buf) ->
  decode_lzw_encoded_frame_into_buffer L umax fd f (buf ++ extra) =
  let '(fd', b, x) := decode_lzw_encoded_frame_into_buffer L umax fd f buf in (fd', b ++ extra, x).
Proof. exact fd_exact_buffer. Qed.
Theorem C55_fd_short : forall L umax, lzw_safe L -> 2 ^ 32 - 1 <= umax ->
  forall fd f n buf fd' b x, fd_buffer_size L umax fd f = Some n -> len buf < n ->
  decode_lzw_encoded_frame_into_buffer L umax fd f buf = (fd', b, x) ->
  x <> Ok tt /\ (f_interlaced f = false -> b = buf).
Proof. exact fd_short_buffer. Qed.
Print Assumptions C55_fd_accessor.
Print Assumptions C55_fd_frame.
Print Assumptions C55_fd_enough.
Print Assumptions C55_fd_exact.
Print Assumptions C55_fd_short.

(** ** On a well-formed file: the announcements for all images, palettes included *)
Theorem C55_file : forall L (S : lzw_spec L) umax, 2 ^ 32 - 1 <= umax ->
  forall o g tl src n, gif_ok o g -> delivers src (ser_gif g tl) ->
  scannable o -> (length (gif_images g) < n)%nat ->
  exists d, read_info L src o = Ok d /\
    announce_all L umax n d = (map (fun ci => announced umax o g (snd ci)) (gif_images g), Ok false).
Proof. exact file_announces. Qed.
Print Assumptions C55_file.
Example C55_file_case : exists d, read_info lzw_ref dx_src rgba_opts = Ok d /\
  announce_all lzw_ref umax64 3 d =
    ([(8, Some 24, Ok [10; 11; 12; 13; 14; 15; 16; 17; 18; 19; 20; 21]); (8, Some 8, Ok [1; 2; 3; 4; 5; 6])], Ok false).
Proof.
  assert (G : gif_ok rgba_opts dx_gif) by (apply dx_ok; now left).
  assert (Hn : (length (gif_images dx_gif) < 3)%nat) by (vm_compute; lia).
  exact (C55_file lzw_ref lzw_ref_spec umax64 dx_umax rgba_opts dx_gif dx_tail dx_src 3 G dx_delivers dx_scannable Hn).
Qed.

(** The first image (interlaced) read into buffers of size 24, of 26 and of 20: the last two bytes of the second are
    kept, the third is refused when the row that does not fit comes up. The second image (not interlaced) into 8 and
    into 7 bytes. *)
Definition dx_first : list N := [10; 11; 12; 255; 13; 14; 15; 255; 13; 14; 15; 255; 16; 17; 18; 0; 16; 17; 18; 0; 10; 11; 12; 255].
Definition dx_after (k : nat) (buf : list N) : option (option N * list N * dres unit) :=
  match read_info lzw_ref dx_src rgba_opts with
  | Ok d =>
    let d1 := fst (run_dops lzw_ref umax64 d (repeat OpInfo k)) in
    let '(_, b, x) := read_into_buffer lzw_ref umax64 d1 buf in Some (dec_buffer_size lzw_ref umax64 d1, b, x)
  | _ => None
  end.
Example C55_exact_case : dx_after 1 (repeat 7 24) = Some (Some 24, dx_first, Ok tt).
Proof. vm_compute. reflexivity. Qed.
Example C55_enough_case : dx_after 1 (repeat 7 26) = Some (Some 24, dx_first ++ [7; 7], Ok tt).
Proof. vm_compute. reflexivity. Qed.
Example C55_short_case : dx_after 2 (repeat 7 8) = Some (Some 8, [4; 5; 6; 255; 1; 2; 3; 255], Ok tt) /\
  dx_after 2 (repeat 7 7) = Some (Some 8, repeat 7 7, Err (DFormat BufferTooSmall)).
Proof. split; vm_compute; reflexivity. Qed.
Lemma interlaced_short_refuted :
  exists src d n buf d' b, read_info lzw_ref src rgba_opts = Ok d /\ dec_buffer_size lzw_ref umax64 (fst (next_frame_info lzw_ref d)) = Some n /\
    len buf < n /\ read_into_buffer lzw_ref umax64 (fst (next_frame_info lzw_ref d)) buf = (d', b, Err (DFormat BufferTooSmall)) /\
    b <> buf /\ snd (read_next_frame lzw_ref umax64 d') = Ok true.
Proof.
  assert (H : match read_info lzw_ref dx_src rgba_opts with
    | Ok d => match read_into_buffer lzw_ref umax64 (fst (next_frame_info lzw_ref d)) (repeat 7 20) with
              | (d', b, Err (DFormat BufferTooSmall)) =>
                dec_buffer_size lzw_ref umax64 (fst (next_frame_info lzw_ref d)) = Some 24 /\ firstn 1 b = [10] /\
                snd (read_next_frame lzw_ref umax64 d') = Ok true
              | _ => False end
    | _ => False end) by (vm_compute; auto).
  destruct (read_info lzw_ref dx_src rgba_opts) as [d| | |] eqn:E; try contradiction.
  destruct (read_into_buffer lzw_ref umax64 (fst (next_frame_info lzw_ref d)) (repeat 7 20)) as [[d' b] x] eqn:E1.
  destruct x as [|[m|]| |]; try contradiction. destruct m; try contradiction. destruct H as (H1 & H2 & H3).
  exists dx_src, d, 24, (repeat 7 20), d', b. split; [exact E|]. split; [exact H1|]. split; [vm_compute; reflexivity|].
  split; [exact E1|]. split; [|exact H3]. intros ->. discriminate H2.
Qed.
(** For interlaced frames the stronger statement is false: rows are read before the refusal. *)
Theorem C55_interlaced_refuted :
  exists src d n buf d' b, read_info lzw_ref src rgba_opts = Ok d /\ dec_buffer_size lzw_ref umax64 (fst (next_frame_info lzw_ref d)) = Some n /\
    len buf < n /\ read_into_buffer lzw_ref umax64 (fst (next_frame_info lzw_ref d)) buf = (d', b, Err (DFormat BufferTooSmall)) /\
    b <> buf /\ snd (read_next_frame lzw_ref umax64 d') = Ok true.
Proof. exact interlaced_short_refuted. Qed.
Print Assumptions C55_interlaced_refuted.
(** All bytes there are: the hypotheses of the general theorems hold for the decoder of the examples. *)
Example C55_opened_case : exists d d', read_info lzw_ref dx_src rgba_opts = Ok d /\ next_frame_info lzw_ref d = (d', Ok true) /\
  opened lzw_ref umax64 dx_src rgba_opts d' /\ dec_buffer_size lzw_ref umax64 d' = Some 24 /\ dec_line_length lzw_ref d' = 8 /\
  dec_palette lzw_ref d' = Ok [10; 11; 12; 13; 14; 15; 16; 17; 18; 19; 20; 21].
Proof.
  assert (H : match read_info lzw_ref dx_src rgba_opts with
    | Ok d => match next_frame_info lzw_ref d with
              | (d', Ok true) => dec_buffer_size lzw_ref umax64 d' = Some 24 /\ dec_line_length lzw_ref d' = 8 /\
                  dec_palette lzw_ref d' = Ok [10; 11; 12; 13; 14; 15; 16; 17; 18; 19; 20; 21]
              | _ => False end
    | _ => False end) by (vm_compute; auto).
  destruct (read_info lzw_ref dx_src rgba_opts) as [d| | |] eqn:E; try contradiction.
  destruct (next_frame_info lzw_ref d) as [d' [[|]| | |]] eqn:E1; try contradiction.
  exists d, d'. split; [reflexivity|]. split; [exact E1|]. split; [|exact H].
  apply (op_call lzw_ref umax64 dx_src rgba_opts d OpInfo d' (OutBool (Ok true))); [now constructor|exact I|].
  cbn [run_dop]. now rewrite E1.
Qed.
(** [FrameDecoder]. *)
Example C55_fd_case :
  let f := raw_seen (mk_ctl 0 DAny None false, dx_img1) in
  let fd := fd_for_file lzw_ref rgba_opts (Some [1; 2; 3; 4; 5; 6]) in
  fd_buffer_size lzw_ref umax64 fd f = Some 24 /\
  snd (fst (decode_lzw_encoded_frame_into_buffer lzw_ref umax64 fd f (repeat 7 25))) = [10; 11; 12; 255; 13; 14; 15; 255; 13; 14; 15; 255; 16; 17; 18; 255; 16; 17; 18; 255; 10; 11; 12; 255; 7] /\
  snd (decode_lzw_encoded_frame_into_buffer lzw_ref umax64 fd f (repeat 7 23)) = Err (DFormat BufferTooSmall).
Proof. vm_compute. repeat split. Qed.
