(** Model of src/reader/mod.rs ([ReadDecoder], [Decoder], [DecoderIter]) and of
    [FrameDecoder] (src/reader/decoder.rs). *)
From Verif Require Import Base Common Lzw Encoder Stream Converter.
Open Scope N_scope.

(** What the underlying [io::Read] answers to successive calls: some bytes or an error. An empty
    chunk is [Ok(0)]; after the list it answers [Ok(0)] for ever. *)
Inductive revent := RChunk (bs : list N) | RErr (k : iokind).

Section Reader.
Variable L : lzw_codec.
Variable umax : N.
Notation sd := (sd L).

(** src/reader/mod.rs 197-201 [ReadDecoder] with [io::BufReader]: [rd_buf] are its unread bytes. *)
Record rd := mk_rd {
  rd_buf : list N;
  rd_src : list revent;
  rd_dec : sd;
  rd_eof : bool
}.

(** [io::BufReader::fill_buf] (standard library): asks the source only if nothing is buffered.
    Chunks larger than the real 8 KiB capacity are allowed, which only adds behaviours. *)
Definition fill_buf (r : rd) : rd * res iokind (list N) :=
  match rd_buf r with
  | [] =>
    match rd_src r with
    | [] => (r, Ok [])
    | RErr k :: src => (mk_rd [] src (rd_dec r) (rd_eof r), Err k)
    | RChunk bs :: src => (mk_rd bs src (rd_dec r) (rd_eof r), Ok bs)
    end
  | b => (r, Ok b)
  end.

(** src/reader/mod.rs 205-225 [decode_next]: the [while] loop on fuel. When [update] fails, the
    decoder keeps its state but nothing is consumed from the reader. *)
Fixpoint decode_next_loop (fuel : nat) (r : rd) (ob : obuf)
  : rd * obuf * dres (option decoded) :=
  if rd_eof r then (r, ob, Ok None)
  else
    match fuel with
    | O => (r, ob, Hang)
    | S fuel' =>
      let '(r1, e) := fill_buf r in
      match e with
      | Err k => (r1, ob, Err (DIo k))
      | Panic => (r1, ob, Panic)
      | Hang => (r1, ob, Hang)
      | Ok [] => (r1, ob, Err (DIo UnexpectedEof))
      | Ok buf =>
        let '(d, ob1, x) := update L (rd_dec r1) buf ob in
        match x with
        | Err e => (mk_rd buf (rd_src r1) d false, ob1, Err e)
        | Panic => (mk_rd buf (rd_src r1) d false, ob1, Panic)
        | Hang => (mk_rd buf (rd_src r1) d false, ob1, Hang)
        | Ok (n, ev) =>
          let rest := skipn n buf in
          match ev with
          | DNothing => decode_next_loop fuel' (mk_rd rest (rd_src r1) d false) ob1
          | DBlockStart BkTrailer => decode_next_loop fuel' (mk_rd rest (rd_src r1) d true) ob1
          | _ => (mk_rd rest (rd_src r1) d false, ob1, Ok (Some ev))
          end
        end
      end
    end.
Definition decode_next (r : rd) (ob : obuf) : rd * obuf * dres (option decoded) :=
  decode_next_loop (length (rd_src r) + 2)%nat r ob.

(** src/reader/mod.rs 231-237 [decode_next_bytes]. *)
Definition decode_next_bytes (r : rd) (ob : obuf) : rd * obuf * dres nat :=
  let '(r1, ob1, x) := decode_next r ob in
  match x with
  | Ok (Some (DBytesDecoded n)) => (r1, ob1, Ok n)
  | Ok (Some DDataEnd) => (r1, ob1, Ok O)
  | Ok _ => (r1, ob1, Err (DFormat UnexpectedDataMsg))
  | Err e => (r1, ob1, Err e)
  | Panic => (r1, ob1, Panic)
  | Hang => (r1, ob1, Hang)
  end.

(** src/reader/mod.rs 242-249 [Decoder]. *)
Record dcd := mk_dcd {
  dc_rd : rd;
  dc_conv : conv;
  dc_bg : option N;
  dc_repeat : repeat_t;
  dc_cur : frame;
  dc_ty : frame_data_type
}.

(** src/reader/mod.rs 265-278 [with_no_init]. *)
Definition with_no_init (src : list revent) (o : options) : dcd :=
  mk_dcd (mk_rd [] src (sd_new L o) false) (conv_new (o_color o) (o_limit o)) None (RFinite 0)
    frame_default FPixels.

Definition set_rd (d : dcd) (r : rd) : dcd :=
  mk_dcd r (dc_conv d) (dc_bg d) (dc_repeat d) (dc_cur d) (dc_ty d).
Definition set_conv (d : dcd) (c : conv) : dcd :=
  mk_dcd (dc_rd d) c (dc_bg d) (dc_repeat d) (dc_cur d) (dc_ty d).
Definition set_bg (d : dcd) (b : option N) : dcd :=
  mk_dcd (dc_rd d) (dc_conv d) b (dc_repeat d) (dc_cur d) (dc_ty d).
Definition set_rep (d : dcd) (x : repeat_t) : dcd :=
  mk_dcd (dc_rd d) (dc_conv d) (dc_bg d) x (dc_cur d) (dc_ty d).
Definition set_cur (d : dcd) (f : frame) (t : frame_data_type) : dcd :=
  mk_dcd (dc_rd d) (dc_conv d) (dc_bg d) (dc_repeat d) f t.

(** Bytes that the reader may still deliver. *)
Definition ev_bytes (e : revent) : list N := match e with RChunk b => b | RErr _ => [] end.
Definition rd_rest (r : rd) : list N := rd_buf r ++ concat (map ev_bytes (rd_src r)).

(** Fuel for the loops over events below; see [..._no_hang] in the proofs. *)
Definition ev_fuel (r : rd) : nat := (4 * length (rd_rest r) + 8)%nat.

(** src/reader/mod.rs 302-307, end of [init]. *)
Definition fix_bg (d : dcd) : dcd :=
  match cv_gpal (dc_conv d) with
  | Some p =>
    if len p / 3 <=? match dc_bg d with Some b => b | None => 0 end
    then set_bg d None else d
  | None => d
  end.

(** src/reader/mod.rs 280-309 [init]; on failure the [Decoder] is dropped. *)
Fixpoint init_loop (fuel : nat) (d : dcd) : dres dcd :=
  match fuel with
  | O => Hang
  | S fuel' =>
    let '(r, _, x) := decode_next (dc_rd d) ONone in
    let d := set_rd d r in
    match x with
    | Err e => Err e
    | Panic => Panic
    | Hang => Hang
    | Ok (Some (DBackgroundColor c)) => init_loop fuel' (set_bg d (Some c))
    | Ok (Some (DGlobalPalette p)) => init_loop fuel' (set_conv d (set_global_palette (dc_conv d) p))
    | Ok (Some (DRepetitions n)) => init_loop fuel' (set_rep d n)
    | Ok (Some DHeaderEnd) => Ok (fix_bg d)
    | Ok (Some _) => init_loop fuel' d
    | Ok None => Err (DFormat NoImageData)
    end
  end.

(** src/reader/mod.rs 192-194 [DecodeOptions::read_info]. *)
Definition read_info (src : list revent) (o : options) : dres dcd :=
  let d := with_no_init src o in init_loop (ev_fuel (dc_rd d)) d.

(** src/reader/mod.rs 312-330 [next_frame_info]; [Ok true] is [Ok(Some(&self.current_frame))].
    [current_frame_mut().take()] panics without a current frame. *)
Fixpoint next_frame_info_loop (fuel : nat) (d : dcd) : dcd * dres bool :=
  match fuel with
  | O => (d, Hang)
  | S fuel' =>
    let '(r, _, x) := decode_next (dc_rd d) ONone in
    let d := set_rd d r in
    match x with
    | Err e => (d, Err e)
    | Panic => (d, Panic)
    | Hang => (d, Hang)
    | Ok (Some (DFrameMetadata t)) =>
      match sd_current L (rd_dec r) with
      | None => (d, Panic)
      | Some f =>
        let '(taken, leftover) := frame_take f in
        let r' := mk_rd (rd_buf r) (rd_src r) (set_current L (rd_dec r) (Some leftover) 0) (rd_eof r) in
        let d' := set_cur (set_rd d r') taken t in
        match f_palette taken, cv_gpal (dc_conv d') with
        | None, None => (d', Err (DFormat NoColorTable))
        | _, _ => (d', Ok true)
        end
      end
    | Ok (Some _) => next_frame_info_loop fuel' d
    | Ok None => (d, Ok false)
    end
  end.
Definition next_frame_info (d : dcd) : dcd * dres bool :=
  next_frame_info_loop (ev_fuel (dc_rd d)) d.

(** src/reader/mod.rs 382-392 [copy_lzw_into_buffer] (after the [push]). *)
Fixpoint copy_lzw_loop (fuel : nat) (r : rd) (v : list N) : rd * list N * dres unit :=
  match fuel with
  | O => (r, v, Hang)
  | S fuel' =>
    let '(r1, ob, x) := decode_next r (OVec v) in
    let v1 := obuf_bytes ob in
    match x with
    | Ok (Some (DLzwDataCopied _)) => copy_lzw_loop fuel' r1 v1
    | Ok (Some DDataEnd) => (r1, v1, Ok tt)
    | Ok _ => (r1, v1, Err (DFormat UnexpectedDataMsg))
    | Err e => (r1, v1, Err e)
    | Panic => (r1, v1, Panic)
    | Hang => (r1, v1, Hang)
    end
  end.
Definition copy_lzw_into_buffer (r : rd) (m : N) (v : list N) : rd * list N * dres unit :=
  copy_lzw_loop (ev_fuel r) r (v ++ [m]).

(** src/reader/mod.rs 338-363 [read_next_frame]. *)
Definition read_next_frame (d : dcd) : dcd * dres bool :=
  let '(d1, x) := next_frame_info d in
  match x with
  | Ok true =>
    match dc_ty d1 with
    | FPixels =>
      let '(r, c, f, y) :=
        conv_read_frame umax rd decode_next_bytes (dc_rd d1) (dc_conv d1) (dc_cur d1) in
      let d2 := set_cur (set_conv (set_rd d1 r) c) f (dc_ty d1) in
      match y with
      | Ok _ => (d2, Ok true)
      | Err e => (d2, Err e)
      | Panic => (d2, Panic)
      | Hang => (d2, Hang)
      end
    | FLzw m =>
      let f0 := set_buffer (dc_cur d1) [] in
      let '(r, v, y) := copy_lzw_into_buffer (dc_rd d1) m [] in
      match y with
      | Ok _ => (set_cur (set_rd d1 r) (set_buffer f0 v) (dc_ty d1), Ok true)
      | Err e => (set_cur (set_rd d1 r) f0 (dc_ty d1), Err e)
      | Panic => (set_cur (set_rd d1 r) f0 (dc_ty d1), Panic)
      | Hang => (set_cur (set_rd d1 r) f0 (dc_ty d1), Hang)
      end
    end
  | Ok false => (d1, Ok false)
  | Err e => (d1, Err e)
  | Panic => (d1, Panic)
  | Hang => (d1, Hang)
  end.

(** src/reader/mod.rs 378-380 [read_into_buffer]: also returns the caller's buffer. *)
Definition read_into_buffer (d : dcd) (buf : list N) : dcd * list N * dres unit :=
  let '(r, c, b, y) :=
    conv_read_into_buffer umax rd decode_next_bytes (dc_rd d) (dc_conv d) (dc_cur d) buf in
  (set_conv (set_rd d r) c, b, y).

(** src/reader/mod.rs 401-403 [fill_buffer]. *)
Definition fill_buffer (d : dcd) (buf : list N) : dcd * list N * dres bool :=
  let '(r, c, b, y) :=
    conv_fill_buffer rd decode_next_bytes (dc_rd d) (dc_conv d) (dc_cur d) buf in
  (set_conv (set_rd d r) c, b, y).

(** src/reader/mod.rs 406-413 [buffer_size] ([None]: the [unwrap] panics) and [line_length]. *)
Definition dec_buffer_size (d : dcd) : option N := buffer_size umax (dc_conv d) (dc_cur d).
Definition dec_line_length (d : dcd) : N := line_length (dc_conv d) (dc_cur d).

(** src/reader/mod.rs 417-424 [palette] and 427-429 [global_palette]. *)
Definition dec_palette (d : dcd) : dres (list N) :=
  match f_palette (dc_cur d) with
  | Some p => Ok p
  | None => match cv_gpal (dc_conv d) with Some p => Ok p | None => Err (DFormat NoColorTable) end
  end.
Definition dec_global_palette (d : dcd) : option (list N) := cv_gpal (dc_conv d).

(** src/reader/mod.rs 433-441 [width], [height]; 452-460 [bg_color], [repeat]. *)
Definition dec_width (d : dcd) : N := sd_width L (rd_dec (dc_rd d)).
Definition dec_height (d : dcd) : N := sd_height L (rd_dec (dc_rd d)).
Definition dec_bg_color (d : dcd) : option N := dc_bg d.
Definition dec_repeat (d : dcd) : repeat_t := dc_repeat d.

(** src/reader/mod.rs 444-446 [into_inner]: unread bytes of the [BufReader] and its source. *)
Definition dec_into_inner (d : dcd) : list N * list revent := (rd_buf (dc_rd d), rd_src (dc_rd d)).

(** src/reader/mod.rs 477-513 [DecoderIter] and [next]; 366-371 [take_current_frame]. *)
Record iter := mk_iter { it_dec : dcd; it_ended : bool }.
Inductive item := INone | IFrame (f : frame) | IErr (e : derr) | IPanic | IHang.
Definition iter_next (it : iter) : iter * item :=
  if it_ended it then (it, INone)
  else
    let '(d, x) := read_next_frame (it_dec it) in
    match x with
    | Ok true =>
      if is_nil (f_buffer (dc_cur d)) then (mk_iter d false, INone)
      else
        let '(taken, leftover) := frame_take (dc_cur d) in
        (mk_iter (set_cur d leftover (dc_ty d)) false, IFrame taken)
    | Ok false => (mk_iter d true, INone)
    | Err e => (mk_iter d true, IErr e)
    | Panic => (mk_iter d false, IPanic)
    | Hang => (mk_iter d false, IHang)
    end.

(** A caller's sequence of operations on a [Decoder]; buffers are chosen by the caller. *)
Inductive dop := OpInfo | OpFrame | OpInto (buf : list N) | OpFill (buf : list N).
Inductive dout :=
| OutBool (x : dres bool)
| OutInto (b : list N) (x : dres unit)
| OutFill (b : list N) (x : dres bool).
Definition run_dop (d : dcd) (o : dop) : dcd * dout :=
  match o with
  | OpInfo => let '(d', x) := next_frame_info d in (d', OutBool x)
  | OpFrame => let '(d', x) := read_next_frame d in (d', OutBool x)
  | OpInto buf => let '(d', b, x) := read_into_buffer d buf in (d', OutInto b x)
  | OpFill buf => let '(d', b, x) := fill_buffer d buf in (d', OutFill b x)
  end.
Fixpoint run_dops (d : dcd) (os : list dop) : dcd * list dout :=
  match os with
  | [] => (d, [])
  | o :: os' =>
    let '(d1, y) := run_dop d o in
    let '(d2, ys) := run_dops d1 os' in (d2, y :: ys)
  end.

(** src/reader/decoder.rs 184-204 [FrameDecoder], [new], [set_global_palette]. *)
Record fdec := mk_fd { fd_lzw : lzw_reader L; fd_conv : conv }.
Definition fd_new (o : options) : fdec :=
  mk_fd (lr_new L (o_check_for_end_code o)) (conv_new (o_color o) (o_limit o)).
Definition fd_set_global_palette (fd : fdec) (p : list N) : fdec :=
  mk_fd (fd_lzw fd) (set_global_palette (fd_conv fd) p).

(** src/reader/decoder.rs 226-234, the closure; captured state: the LZW reader and [data]. *)
Fixpoint fd_loop (fuel : nat) (x : lzw_reader L * list N) (ob : obuf)
  : (lzw_reader L * list N) * obuf * dres nat :=
  match fuel with
  | O => (x, ob, Hang)
  | S fuel' =>
    let '(r, ob1, y) := lr_decode_bytes L (fst x) (snd x) ob in
    match y with
    | Ok (bytes_read, bytes_written) =>
      let data := skipn bytes_read (snd x) in
      if (0 <? bytes_written)%nat || (bytes_read =? 0)%nat || is_nil data
      then ((r, data), ob1, Ok bytes_written)
      else fd_loop fuel' (r, data) ob1
    | Err e => ((r, snd x), ob1, Err e)
    | Panic => ((r, snd x), ob1, Panic)
    | Hang => ((r, snd x), ob1, Hang)
    end
  end.
Definition fd_callback (x : lzw_reader L * list N) (ob : obuf)
  : (lzw_reader L * list N) * obuf * dres nat := fd_loop (S (length (snd x))) x ob.

(** src/reader/decoder.rs 222-236 [decode_lzw_encoded_frame_into_buffer]. *)
Definition decode_lzw_encoded_frame_into_buffer (fd : fdec) (f : frame) (buf : list N)
  : fdec * list N * dres unit :=
  let '(m, data) := match f_buffer f with [] => (2, []) | m :: data => (m, data) end in
  let '(r, x) := lr_reset L (fd_lzw fd) m in
  match x with
  | Ok _ =>
    let '((r1, _), c, b, y) :=
      conv_read_into_buffer umax _ fd_callback (r, data) (fd_conv fd) f buf in
    (mk_fd r1 c, b, y)
  | Err e => (mk_fd r (fd_conv fd), buf, Err e)
  | Panic => (mk_fd r (fd_conv fd), buf, Panic)
  | Hang => (mk_fd r (fd_conv fd), buf, Hang)
  end.

(** src/reader/decoder.rs 210-217 [decode_lzw_encoded_frame]. *)
Definition decode_lzw_encoded_frame (fd : fdec) (f : frame) : fdec * frame * dres unit :=
  match check_buffer_size umax (fd_conv fd) f with
  | Ok n =>
    if umax / 2 <? n then (fd, f, Panic)                      (* vec!: capacity overflow *)
    else
    let '(fd1, b, y) := decode_lzw_encoded_frame_into_buffer fd f (repeat 0 (N.to_nat n)) in
    match y with
    | Ok _ => (fd1, set_interlaced (set_buffer f b) false, Ok tt)
    | Err e => (fd1, f, Err e)
    | Panic => (fd1, f, Panic)
    | Hang => (fd1, f, Hang)
    end
  | Err e => (fd, f, Err e)
  | Panic => (fd, f, Panic)
  | Hang => (fd, f, Hang)
  end.

(** src/reader/decoder.rs 241-243 [buffer_size] ([None]: the [unwrap] panics). *)
Definition fd_buffer_size (fd : fdec) (f : frame) : option N := buffer_size umax (fd_conv fd) f.

End Reader.
