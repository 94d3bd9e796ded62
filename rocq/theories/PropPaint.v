(** Property C83: a slice provided by the caller is only written to. *)
From Verif Require Import Base Common Lzw LzwErrs Encoder Stream Converter Reader LzwRef LzwRefSpec StreamInv ConvInv DecoderSafe CanonReader DocRead DocAll
  EncSession SpecGif SpecPixels SpecDamage Validate Refuted PropEnc PropDec SpecPaint Paint.
Open Scope N_scope.

(** In every state of a decoder, also on damaged files: what the slice held before influences neither the result nor the state afterwards nor what
    is written; nothing is written beyond the size of the frame; with indices every byte of a completed frame is written. *)
Theorem C83_into : forall L, lzw_safe L -> forall umax, 2 ^ 32 - 1 <= umax -> forall (d : dcd L) buf1 buf2, length buf1 = length buf2 ->
  exists d' x ov, length ov = length buf1 /\
  read_into_buffer L umax d buf1 = (d', over ov buf1, x) /\ read_into_buffer L umax d buf2 = (d', over ov buf2, x) /\
  forall n, dec_buffer_size L umax d = Some n -> left_alone (skipn (N.to_nat n) ov) /\
    (x = Ok tt -> cv_color (dc_conv L d) = CIndexed -> set_bytes (firstn (N.to_nat n) ov)).
Proof. exact into_same. Qed.
Print Assumptions C83_into.
Theorem C83_fill : forall L, lzw_safe L -> forall umax, 2 ^ 32 - 1 <= umax -> forall (d : dcd L) buf1 buf2, length buf1 = length buf2 ->
  exists d' x ov, length ov = length buf1 /\
  fill_buffer L d buf1 = (d', over ov buf1, x) /\ fill_buffer L d buf2 = (d', over ov buf2, x) /\
  (x = Ok true -> cv_color (dc_conv L d) = CIndexed -> set_bytes ov).
Proof. exact fill_same. Qed.
Print Assumptions C83_fill.
(** Space beyond the frame is as good as not there. *)
Theorem C83_surplus : forall L, lzw_safe L -> forall umax, 2 ^ 32 - 1 <= umax -> forall (d : dcd L) buf more n,
  dec_buffer_size L umax d = Some n -> n <= len buf ->
  read_into_buffer L umax d (buf ++ more) = let '(d', b, x) := read_into_buffer L umax d buf in (d', b ++ more, x).
Proof. exact into_surplus. Qed.
Print Assumptions C83_surplus.
(** Reading any source with [next_frame_info] and [read_into_buffer] is reading it with [read_next_frame], frame by frame and to the same end. *)
Theorem C83_file : forall L, lzw_safe L -> forall umax, 2 ^ 32 - 1 <= umax -> forall mk n src o d d' fs r,
  (forall i k, k <= len (mk i k)) -> src_ok src -> limit_ok umax (o_limit o) ->
  o_skip_frame_decoding o = false -> read_info L src o = Ok d -> read_all L umax n d = (d', fs, r) -> r <> Err (DIo OutOfMemory) ->
  exists d2 l, into_all L umax mk n d = (d2, l, r) /\ same_pictures (o_color o) mk n fs l /\ rd_rest L (dc_rd L d2) = rd_rest L (dc_rd L d').
Proof. exact into_file. Qed.
Print Assumptions C83_file.
Theorem C83_frame_decoder : forall L, lzw_safe L -> forall umax, 2 ^ 32 - 1 <= umax -> forall (fd : fdec L) f buf1 buf2, length buf1 = length buf2 ->
  exists fd' x ov, length ov = length buf1 /\
  decode_lzw_encoded_frame_into_buffer L umax fd f buf1 = (fd', over ov buf1, x) /\
  decode_lzw_encoded_frame_into_buffer L umax fd f buf2 = (fd', over ov buf2, x) /\
  forall n, fd_buffer_size L umax fd f = Some n -> left_alone (skipn (N.to_nat n) ov) /\
    (x = Ok tt -> cv_color (fd_conv L fd) = CIndexed -> set_bytes (firstn (N.to_nat n) ov)).
Proof. exact fd_same. Qed.
Print Assumptions C83_frame_decoder.
(** [StreamingDecoder::update] stores exactly as many bytes as it reports, at the beginning of the slice. *)
Theorem C83_update : forall L, lzw_safe L -> forall umax, 2 ^ 32 - 1 <= umax -> forall (s : sd L) data buf1 buf2, length buf1 = length buf2 ->
  exists s' x ov, length ov = length buf1 /\
  update L s data (OSlice buf1) = (s', OSlice (over ov buf1), x) /\ update L s data (OSlice buf2) = (s', OSlice (over ov buf2), x) /\
  match x with Ok (_, d) => set_bytes (firstn (told d) ov) /\ left_alone (skipn (told d) ov) | _ => True end.
Proof. exact update_same. Qed.
Print Assumptions C83_update.

(** Frames of a source as read by [read_next_frame] and as read into slices. *)
Definition both (src : list revent) (o : options) (mk : nat -> N -> list N) : option (list (list N) * dres bool * (list (list N) * dres bool)) :=
  match read_info lzw_ref src o with
  | Ok d =>
    let '(_, fs, r) := read_all lzw_ref umax64 3 d in let '(_, l, r') := into_all lzw_ref umax64 mk 3 d in
    Some (map f_buffer fs, r, (map snd l, r'))
  | _ => None
  end.
(** With RGBA output the old contents may remain in the picture: cells of indices outside the palette are not written. *)
Definition px_gif : gif := mk_gif true 4 4 0x80 0 0 [1; 2; 3; 4; 5; 6] [BImg (mk_img 0 0 2 1 0 [] 2 [[204; 10]])].
Theorem C83_rgba_refuted : exists src, both src rgba_opts (fun _ k => repeat 9 (N.to_nat k)) =
  Some ([[4; 5; 6; 255; 0; 0; 0; 0]], Ok false, ([[4; 5; 6; 255; 9; 9; 9; 9]], Ok false)).
Proof. exists [RChunk (ser_gif px_gif [])]. vm_compute. reflexivity. Qed.
Print Assumptions C83_rgba_refuted.

(** ** Cases *)
Example C83_file_case : exists p q, both dx_src options_new (fun i k => repeat (N.of_nat i) (N.to_nat k + i)) = Some ([p; q], Ok false, ([p ++ [2; 2]; q ++ [1]], Ok false)) /\
  forall i k, k <= len (repeat (N.of_nat i) (N.to_nat k + i)).
Proof.
  eexists [0; 1; 1; 2; 2; 0], [1; 0]. split; [vm_compute; reflexivity|]. intros i k. unfold len. rewrite repeat_length. lia.
Qed.
