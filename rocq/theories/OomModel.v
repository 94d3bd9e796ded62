(** Model of the decoder with memory that may run out: the places where src/reader uses [try_reserve] or
    [try_reserve_exact]. [mem] says which of the coming reservations succeed; a reservation after the end of the list
    succeeds. (Other allocations abort the program when they fail and are not modelled.) The rest of the code is as in
    Stream.v, Converter.v and Reader.v. *)
From Verif Require Import Base Common Lzw Encoder Stream Converter Reader.
Open Scope N_scope.

Definition reserve (mem : list bool) : bool * list bool :=
  match mem with [] => (true, []) | b :: mem' => (b, mem') end.

Section Oom.
Variable L : lzw_codec.
Variable umax : N.
Notation sd := (sd L).

(** [next_state] with one of its four reservations: [Some s'] if one is reached, where [s'] is the decoder at that point. *)
Definition reserving (s : sd) (buf : list N) (ob : obuf) : option sd :=
  match sd_state L s with
  (* src/reader/decoder.rs 552-563: global colour table *)
  | ScreenDescriptor =>
    match ensure_min L s buf 7 with
    | GotAll _ s1 _ desc =>
      if negb (N.land (at_ desc 4) 0x80 =? 0)
      then Some (set_screen L s1 (rd16 (at_ desc 0) (at_ desc 1)) (rd16 (at_ desc 2) (at_ desc 3)))
      else None
    | _ => None
    end
  (* src/reader/decoder.rs 575-601: local colour table *)
  | ImageBlockStart =>
    match ensure_min L s buf 9 with
    | GotAll _ s1 _ h =>
      match sd_current L s1 with
      | Some f =>
        let lft := rd16 (at_ h 0) (at_ h 1) in
        let top := rd16 (at_ h 2) (at_ h 3) in
        let w := rd16 (at_ h 4) (at_ h 5) in
        let hh := rd16 (at_ h 6) (at_ h 7) in
        let f1 := set_geometry f lft top w hh (negb (N.land (at_ h 8) 0x40 =? 0)) in
        if o_check_frame_consistency (sd_opts L s) &&
           (out_of_bounds (sd_width L s) w lft || out_of_bounds (sd_height L s) hh top)
        then None
        else if negb (N.land (at_ h 8) 0x80 =? 0) then
          let '(pal, cap) := match f_palette f1 with Some p => (p, sd_pal_cap L s) | None => ([], O) end in
          Some (set_current L s1 (Some (set_palette f1 (Some pal))) cap)
        else None
      | None => None
      end
    | _ => None
    end
  (* src/reader/decoder.rs 666-670: extension data *)
  | ExtensionDataBlock lft =>
    if (0 <? lft)%nat && check_size (o_limit (sd_opts L s)) (len (sd_ext_data L s) + N.of_nat (Nat.min lft (length buf)))
    then Some s else None
  (* src/reader/decoder.rs 728-733 and 372-376, [OutputBuffer::append] on a vector *)
  | CopySubBlock lft =>
    match ob with
    | OVec v =>
      if o_skip_frame_decoding (sd_opts L s) && (0 <? lft)%nat &&
         check_size (o_limit (sd_opts L s)) (len v + len (firstn (Nat.min lft (length buf)) buf))
      then Some s else None
    | _ => None
    end
  | _ => None
  end.
Definition next_state_o (mem : list bool) (s : sd) (buf : list N) (ob : obuf)
  : list bool * (sd * obuf * dres (nat * decoded)) :=
  match reserving s buf ob with
  | None => (mem, next_state L s buf ob)
  | Some s' =>
    let '(ok, mem') := reserve mem in
    if ok then (mem', next_state L s buf ob) else (mem', (s', ob, Err (DIo OutOfMemory)))
  end.

(** src/reader/decoder.rs 426-443 [update]. *)
Fixpoint update_loop_o (fuel : nat) (mem : list bool) (s : sd) (buf : list N) (ob : obuf) (total : nat)
  : list bool * (sd * obuf * dres (nat * decoded)) :=
  match buf with
  | [] => (mem, (s, ob, Ok ((total - length buf)%nat, DNothing)))
  | _ =>
    match fuel with
    | O => (mem, (s, ob, Hang))
    | S fuel' =>
      let '(mem1, (s1, ob1, r)) := next_state_o mem s buf ob in
      match r with
      | Ok (n, d) =>
        let buf' := skipn n buf in
        match d with
        | DNothing => update_loop_o fuel' mem1 s1 buf' ob1 total
        | _ => (mem1, (s1, ob1, Ok ((total - length buf')%nat, d)))
        end
      | Err e => (mem1, (s1, ob1, Err e))
      | Panic => (mem1, (s1, ob1, Panic))
      | Hang => (mem1, (s1, ob1, Hang))
      end
    end
  end.
Definition update_o (mem : list bool) (s : sd) (buf : list N) (ob : obuf) : list bool * (sd * obuf * dres (nat * decoded)) :=
  update_loop_o (update_fuel buf) mem s buf ob (length buf).

(** src/reader/mod.rs 205-225 [decode_next]; a reader together with the memory. *)
Notation rdo := (list bool * rd L)%type.
Fixpoint decode_next_loop_o (fuel : nat) (x : rdo) (ob : obuf) : rdo * obuf * dres (option decoded) :=
  let '(mem, r) := x in
  if rd_eof L r then (x, ob, Ok None)
  else
    match fuel with
    | O => (x, ob, Hang)
    | S fuel' =>
      let '(r1, e) := fill_buf L r in
      match e with
      | Err k => ((mem, r1), ob, Err (DIo k))
      | Panic => ((mem, r1), ob, Panic)
      | Hang => ((mem, r1), ob, Hang)
      | Ok [] => ((mem, r1), ob, Err (DIo UnexpectedEof))
      | Ok buf =>
        let '(mem1, (d, ob1, x)) := update_o mem (rd_dec L r1) buf ob in
        match x with
        | Err e => ((mem1, mk_rd L buf (rd_src L r1) d false), ob1, Err e)
        | Panic => ((mem1, mk_rd L buf (rd_src L r1) d false), ob1, Panic)
        | Hang => ((mem1, mk_rd L buf (rd_src L r1) d false), ob1, Hang)
        | Ok (n, ev) =>
          let rest := skipn n buf in
          match ev with
          | DNothing => decode_next_loop_o fuel' (mem1, mk_rd L rest (rd_src L r1) d false) ob1
          | DBlockStart BkTrailer => decode_next_loop_o fuel' (mem1, mk_rd L rest (rd_src L r1) d true) ob1
          | _ => ((mem1, mk_rd L rest (rd_src L r1) d false), ob1, Ok (Some ev))
          end
        end
      end
    end.
Definition decode_next_o (x : rdo) (ob : obuf) : rdo * obuf * dres (option decoded) :=
  decode_next_loop_o (length (rd_src L (snd x)) + 2)%nat x ob.

(** src/reader/mod.rs 231-237 [decode_next_bytes]. *)
Definition decode_next_bytes_o (x : rdo) (ob : obuf) : rdo * obuf * dres nat :=
  let '(x1, ob1, y) := decode_next_o x ob in
  match y with
  | Ok (Some (DBytesDecoded n)) => (x1, ob1, Ok n)
  | Ok (Some DDataEnd) => (x1, ob1, Ok O)
  | Ok _ => (x1, ob1, Err (DFormat UnexpectedDataMsg))
  | Err e => (x1, ob1, Err e)
  | Panic => (x1, ob1, Panic)
  | Hang => (x1, ob1, Hang)
  end.

(** src/reader/mod.rs 280-309 [init], 192-194 [read_info]. *)
Fixpoint init_loop_o (fuel : nat) (mem : list bool) (d : dcd L) : list bool * dres (dcd L) :=
  match fuel with
  | O => (mem, Hang)
  | S fuel' =>
    let '((mem1, r), _, x) := decode_next_o (mem, dc_rd L d) ONone in
    let d := set_rd L d r in
    match x with
    | Err e => (mem1, Err e)
    | Panic => (mem1, Panic)
    | Hang => (mem1, Hang)
    | Ok (Some (DBackgroundColor c)) => init_loop_o fuel' mem1 (set_bg L d (Some c))
    | Ok (Some (DGlobalPalette p)) => init_loop_o fuel' mem1 (set_conv L d (set_global_palette (dc_conv L d) p))
    | Ok (Some (DRepetitions n)) => init_loop_o fuel' mem1 (set_rep L d n)
    | Ok (Some DHeaderEnd) => (mem1, Ok (fix_bg L d))
    | Ok (Some _) => init_loop_o fuel' mem1 d
    | Ok None => (mem1, Err (DFormat NoImageData))
    end
  end.
Definition read_info_o (mem : list bool) (src : list revent) (o : options) : list bool * dres (dcd L) :=
  let d := with_no_init L src o in init_loop_o (ev_fuel L (dc_rd L d)) mem d.

(** src/reader/mod.rs 312-330 [next_frame_info]. *)
Fixpoint next_frame_info_loop_o (fuel : nat) (mem : list bool) (d : dcd L) : list bool * (dcd L * dres bool) :=
  match fuel with
  | O => (mem, (d, Hang))
  | S fuel' =>
    let '((mem1, r), _, x) := decode_next_o (mem, dc_rd L d) ONone in
    let d := set_rd L d r in
    match x with
    | Err e => (mem1, (d, Err e))
    | Panic => (mem1, (d, Panic))
    | Hang => (mem1, (d, Hang))
    | Ok (Some (DFrameMetadata t)) =>
      match sd_current L (rd_dec L r) with
      | None => (mem1, (d, Panic))
      | Some f =>
        let '(taken, leftover) := frame_take f in
        let r' := mk_rd L (rd_buf L r) (rd_src L r) (set_current L (rd_dec L r) (Some leftover) 0) (rd_eof L r) in
        let d' := set_cur L (set_rd L d r') taken t in
        match f_palette taken, cv_gpal (dc_conv L d') with
        | None, None => (mem1, (d', Err (DFormat NoColorTable)))
        | _, _ => (mem1, (d', Ok true))
        end
      end
    | Ok (Some _) => next_frame_info_loop_o fuel' mem1 d
    | Ok None => (mem1, (d, Ok false))
    end
  end.
Definition next_frame_info_o (mem : list bool) (d : dcd L) : list bool * (dcd L * dres bool) :=
  next_frame_info_loop_o (ev_fuel L (dc_rd L d)) mem d.

(** src/reader/mod.rs 382-392 [copy_lzw_into_buffer]. *)
Fixpoint copy_lzw_loop_o (fuel : nat) (x : rdo) (v : list N) : rdo * list N * dres unit :=
  match fuel with
  | O => (x, v, Hang)
  | S fuel' =>
    let '(x1, ob, y) := decode_next_o x (OVec v) in
    let v1 := obuf_bytes ob in
    match y with
    | Ok (Some (DLzwDataCopied _)) => copy_lzw_loop_o fuel' x1 v1
    | Ok (Some DDataEnd) => (x1, v1, Ok tt)
    | Ok _ => (x1, v1, Err (DFormat UnexpectedDataMsg))
    | Err e => (x1, v1, Err e)
    | Panic => (x1, v1, Panic)
    | Hang => (x1, v1, Hang)
    end
  end.

(** src/reader/mod.rs 338-363 [read_next_frame]; 353: the reservation for compressed data, after which the frame's buffer
    is empty if it fails. *)
Definition read_next_frame_o (mem : list bool) (d : dcd L) : list bool * (dcd L * dres bool) :=
  let '(mem1, (d1, x)) := next_frame_info_o mem d in
  match x with
  | Ok true =>
    match dc_ty L d1 with
    | FPixels =>
      let '((mem2, r), c, f, y) :=
        conv_read_frame umax rdo decode_next_bytes_o (mem1, dc_rd L d1) (dc_conv L d1) (dc_cur L d1) in
      let d2 := set_cur L (set_conv L (set_rd L d1 r) c) f (dc_ty L d1) in
      match y with
      | Ok _ => (mem2, (d2, Ok true))
      | Err e => (mem2, (d2, Err e))
      | Panic => (mem2, (d2, Panic))
      | Hang => (mem2, (d2, Hang))
      end
    | FLzw m =>
      let f0 := set_buffer (dc_cur L d1) [] in
      let '(ok, mem2) := reserve mem1 in
      if negb ok then (mem2, (set_cur L d1 f0 (dc_ty L d1), Err (DIo OutOfMemory)))
      else
      let '((mem3, r), v, y) := copy_lzw_loop_o (ev_fuel L (dc_rd L d1)) (mem2, dc_rd L d1) ([] ++ [m]) in
      match y with
      | Ok _ => (mem3, (set_cur L (set_rd L d1 r) (set_buffer f0 v) (dc_ty L d1), Ok true))
      | Err e => (mem3, (set_cur L (set_rd L d1 r) f0 (dc_ty L d1), Err e))
      | Panic => (mem3, (set_cur L (set_rd L d1 r) f0 (dc_ty L d1), Panic))
      | Hang => (mem3, (set_cur L (set_rd L d1 r) f0 (dc_ty L d1), Hang))
      end
    end
  | Ok false => (mem1, (d1, Ok false))
  | Err e => (mem1, (d1, Err e))
  | Panic => (mem1, (d1, Panic))
  | Hang => (mem1, (d1, Hang))
  end.

(** src/reader/mod.rs 378-380 [read_into_buffer], 401-403 [fill_buffer]. *)
Definition read_into_buffer_o (mem : list bool) (d : dcd L) (buf : list N) : list bool * (dcd L * list N * dres unit) :=
  let '((mem1, r), c, b, y) :=
    conv_read_into_buffer umax rdo decode_next_bytes_o (mem, dc_rd L d) (dc_conv L d) (dc_cur L d) buf in
  (mem1, (set_conv L (set_rd L d r) c, b, y)).
Definition fill_buffer_o (mem : list bool) (d : dcd L) (buf : list N) : list bool * (dcd L * list N * dres bool) :=
  let '((mem1, r), c, b, y) := conv_fill_buffer rdo decode_next_bytes_o (mem, dc_rd L d) (dc_conv L d) (dc_cur L d) buf in
  (mem1, (set_conv L (set_rd L d r) c, b, y)).

(** src/reader/mod.rs 477-513 [DecoderIter::next]. *)
Definition iter_next_o (mem : list bool) (it : iter L) : list bool * (iter L * item) :=
  if it_ended L it then (mem, (it, INone))
  else
    let '(mem1, (d, x)) := read_next_frame_o mem (it_dec L it) in
    match x with
    | Ok true =>
      if is_nil (f_buffer (dc_cur L d)) then (mem1, (mk_iter L d false, INone))
      else
        let '(taken, leftover) := frame_take (dc_cur L d) in
        (mem1, (mk_iter L (set_cur L d leftover (dc_ty L d)) false, IFrame taken))
    | Ok false => (mem1, (mk_iter L d true, INone))
    | Err e => (mem1, (mk_iter L d true, IErr e))
    | Panic => (mem1, (mk_iter L d false, IPanic))
    | Hang => (mem1, (mk_iter L d false, IHang))
    end.

(** A caller's operations, as [run_dop] in Reader.v. *)
Definition run_dop_o (mem : list bool) (d : dcd L) (o : dop) : list bool * (dcd L * dout) :=
  match o with
  | OpInfo => let '(mem', (d', x)) := next_frame_info_o mem d in (mem', (d', OutBool x))
  | OpFrame => let '(mem', (d', x)) := read_next_frame_o mem d in (mem', (d', OutBool x))
  | OpInto buf => let '(mem', (d', b, x)) := read_into_buffer_o mem d buf in (mem', (d', OutInto b x))
  | OpFill buf => let '(mem', (d', b, x)) := fill_buffer_o mem d buf in (mem', (d', OutFill b x))
  end.
Fixpoint run_dops_o (mem : list bool) (d : dcd L) (os : list dop) : list bool * (dcd L * list dout) :=
  match os with
  | [] => (mem, (d, []))
  | o :: os' =>
    let '(mem1, (d1, y)) := run_dop_o mem d o in
    let '(mem2, (d2, ys)) := run_dops_o mem1 d1 os' in (mem2, (d2, y :: ys))
  end.
End Oom.
