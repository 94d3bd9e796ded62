(** Model of src/encoder.rs and src/traits.rs. *)
From Verif Require Import Base Common Lzw.
Open Scope N_scope.

(** *** The writer

    [wact] is the outcome of one call of the user's [Write::write]. [WAccept n] takes at most
    [n] bytes; [WIntr] is [ErrorKind::Interrupted]; [WFail k] any other error. A writer is the
    bytes received so far and the outcomes still to come; when these are used up it accepts
    everything. *)
Inductive wact := WAccept (n : nat) | WIntr | WFail (k : N).
Record writer := mk_writer { w_out : list N; w_plan : list wact }.

(** [std::io::Write::write_all] (std's default loop): retry on Interrupted, [WriteZero] when
    nothing was accepted, stop at any other error. A writer that reports more bytes than it was
    offered (which makes std panic) is not modelled: the count is cut to the offer. *)
Fixpoint write_all_plan (plan : list wact) (out buf : list N) : writer * eres unit :=
  match buf with
  | [] => (mk_writer out plan, Ok tt)
  | _ =>
    match plan with
    | [] => (mk_writer (out ++ buf) [], Ok tt)
    | WIntr :: p => write_all_plan p out buf
    | WFail k :: p => (mk_writer out p, Err (EIo (OtherIo k)))
    | WAccept O :: p => (mk_writer out p, Err (EIo WriteZero))
    | WAccept n :: p => write_all_plan p (out ++ firstn n buf) (skipn n buf)
    end
  end.

(** Computations on a writer that may fail; [?] is [wbind]. *)
Definition W (A : Type) := writer -> writer * eres A.
Definition wret {A} (a : A) : W A := fun w => (w, Ok a).
Definition werr {A} (e : eerr) : W A := fun w => (w, Err e).
Definition wbind {A B} (m : W A) (f : A -> W B) : W B := fun w =>
  let '(w1, r) := m w in
  match r with
  | Ok a => f a w1
  | Err e => (w1, Err e)
  | Panic => (w1, Panic)
  | Hang => (w1, Hang)
  end.
Notation "x <- m ;; k" := (wbind m (fun x => k)) (at level 61, m at next level, right associativity).
Notation "m ;;; k" := (wbind m (fun _ : unit => k)) (at level 61, right associativity).

Definition write_all (buf : list N) : W unit := fun w => write_all_plan (w_plan w) (w_out w) buf.

(** src/traits.rs 17-22 and 24-29: [write_le] for u8 and u16. (The u32 and u64 instances,
    31-45, are unused.) *)
Definition write_u8 (n : N) : W unit := write_all [n].
Definition write_u16 (n : N) : W unit := write_all (le16 n).

(** *** The fixed-size scratch buffer, src/encoder.rs 472-502 [Buf<N>]

    [tb_data] is [buf[..pos]]. *)
Record tmpbuf := mk_tmp { tb_n : nat; tb_data : list N }.
Definition tmp_buf (n : nat) : tmpbuf := mk_tmp n [].

(** src/encoder.rs 479-487 [Write for Buf]: refuses (WriteZero) what does not fit. *)
Definition tb_write (t : tmpbuf) (b : list N) : eres tmpbuf :=
  if (length (tb_data t) + length b <=? tb_n t)%nat
  then Ok (mk_tmp (tb_n t) (tb_data t ++ b)) else Err (EIo WriteZero).
Fixpoint tb_writes (t : tmpbuf) (bs : list (list N)) : eres tmpbuf :=
  match bs with
  | [] => Ok t
  | b :: bs' => match tb_write t b with Ok t' => tb_writes t' bs' | r => r end
  end.

(** src/encoder.rs 498-501 [Buf::finish]: the [debug_assert_eq!] is a panic; all [N] bytes are
    written (unwritten ones are 0). *)
Definition tb_finish (t : tmpbuf) : W unit := fun w =>
  if (length (tb_data t) =? tb_n t)%nat
  then write_all (tb_data t ++ repeat 0 (tb_n t - length (tb_data t))%nat) w
  else (w, Panic).

(** A [tmp_buf::<n>()], the listed writes with [?], then [finish]. *)
Definition tmp_then_finish (n : nat) (bs : list (list N)) : W unit := fun w =>
  match tb_writes (tmp_buf n) bs with
  | Ok t => tb_finish t w
  | Err e => (w, Err e)
  | Panic => (w, Panic)
  | Hang => (w, Hang)
  end.

(** *** Small pure functions *)

(** Rust's integer [next_power_of_two] and [trailing_zeros] (the latter on non-zero values). *)
Definition next_power_of_two (n : N) : N := 2 ^ N.log2_up n.
Fixpoint tz_pos (p : positive) : N :=
  match p with xO p' => N.succ (tz_pos p') | _ => 0 end.
Definition trailing_zeros (n : N) : N := match n with N0 => 0 | Npos p => tz_pos p end.

(** src/encoder.rs 439-441 [flag_size]. *)
Definition flag_size (size : N) : N :=
  trailing_zeros (next_power_of_two (N.min (N.max size 2) 255)) - 1.

(** src/encoder.rs 253-261 [check_color_table]: the table cut to whole colours, the number of
    missing colours, the size flag. *)
Definition check_color_table (table : list N) : eres (list N * N * N) :=
  let num_colors := len table / 3 in
  if 256 <? num_colors then Err (EFormat TooManyColors)
  else
    let table_size := flag_size num_colors in
    let padding := N.shiftl 2 table_size - num_colors in
    Ok (firstn (N.to_nat (num_colors * 3)) table, padding, table_size).

(** src/encoder.rs 80-93 [Repeat], default [Finite(0)]. *)
Inductive repeat_t := RFinite (n : N) | RInfinite.

(** src/encoder.rs 95-109 [ExtensionData]. *)
Inductive extension_data :=
| EControl (flags delay trns : N)
| ERepetitions (r : repeat_t).

(** src/encoder.rs 116-128 [ExtensionData::new_control_ext]. *)
Definition new_control_ext (delay : N) (dispose : disposal) (needs_user_input : bool)
  (trns : option N) : extension_data :=
  let '(flags, t) := match trns with Some t => (1, t) | None => (0, 0) end in
  let flags := N.lor flags (N.shiftl (if needs_user_input then 1 else 0) 1) in
  let flags := N.lor flags (N.shiftl (disposal_u8 dispose) 2) in
  EControl flags delay t.

(** src/encoder.rs 381-399 [lzw_encode], first part: the scan for the largest byte, which stops
    at the first byte above 127. *)
Fixpoint scan_max (m : N) (data : list N) : N :=
  match data with
  | [] => m
  | b :: data' => if m <? b then (if 127 <? b then b else scan_max b data') else scan_max m data'
  end.
(** src/encoder.rs 392-394. *)
Definition min_code_size (data : list N) : N :=
  trailing_zeros (next_power_of_two (N.max (scan_max 0 data + 1) 4)).
(** src/encoder.rs 395-398: push the code size, append the compressed data, truncate. *)
Definition lzw_encode (L : lzw_codec) (data buffer : list N) : list N :=
  let m := min_code_size data in
  let out := lz_encode L m data in
  firstn (length out + 1)%nat (buffer ++ [m] ++ out).

(** src/encoder.rs 405-410 [Frame::make_lzw_pre_encoded]. *)
Definition make_lzw_pre_encoded (L : lzw_codec) (f : frame) : frame :=
  set_buffer f (lzw_encode L (f_buffer f) []).

(** [slice.chunks_exact(n)] with its remainder; the fuel is the length. *)
Fixpoint chunks_exact_f (fuel n : nat) (l : list N) : list (list N) * list N :=
  match fuel with
  | O => ([], l)
  | S fu => if (n <=? length l)%nat
            then let '(cs, r) := chunks_exact_f fu n (skipn n l) in (firstn n l :: cs, r)
            else ([], l)
  end.
Definition chunks_exact (n : nat) (l : list N) := chunks_exact_f (length l) n l.
(** [slice.chunks(n)]. *)
Definition chunks (n : nat) (l : list N) : list (list N) :=
  let '(cs, r) := chunks_exact n l in cs ++ (if is_nil r then [] else [r]).

(** Running a writer computation for each element, with [?]. *)
Fixpoint wfor {A} (f : A -> W unit) (l : list A) : W unit :=
  match l with
  | [] => wret tt
  | x :: l' => f x ;;; wfor f l'
  end.

(** src/encoder.rs 224-241 [write_encoded_image_block]; 2 is the code size used for an empty
    buffer. *)
Definition write_encoded_image_block (data_with_min_code_size : list N) : W unit :=
  let '(mcs, data) := match data_with_min_code_size with [] => (2, []) | m :: d => (m, d) end in
  write_u8 mcs ;;;
  (let '(full, last) := chunks_exact 255 data in
   wfor (fun b => write_u8 0xFF ;;; write_all b) full ;;;
   (if is_nil last then wret tt
    else write_u8 (len last mod 256) ;;; write_all last) ;;;
   write_u8 0).

(** src/encoder.rs 243-250 [write_color_table]. *)
Definition write_color_table (table : list N) (padding : N) : W unit :=
  write_all table ;;; wfor (fun _ : unit => write_all [0; 0; 0]) (repeat tt (N.to_nat padding)).

(** *** The encoder, src/encoder.rs 414-420 *)
Record encoder := mk_enc {
  e_w : option writer;
  e_global_palette : bool;
  e_width : N;
  e_height : N;
  e_buffer : list N
}.

(** [self.writer()?] (src/encoder.rs 373-375) followed by a computation on the writer. *)
Definition with_writer {A} (e : encoder) (m : W A) : encoder * eres A :=
  match e_w e with
  | None => (e, Err (EIo Unsupported))
  | Some w => let '(w', r) := m w in
              (mk_enc (Some w') (e_global_palette e) (e_width e) (e_height e) (e_buffer e), r)
  end.

(** ASCII constants. *)
Definition GIF89a : list N := [0x47; 0x49; 0x46; 0x38; 0x39; 0x61].
Definition GIF87a : list N := [0x47; 0x49; 0x46; 0x38; 0x37; 0x61].
Definition NETSCAPE2_0 : list N := [0x4E; 0x45; 0x54; 0x53; 0x43; 0x41; 0x50; 0x45; 0x32; 0x2E; 0x30].

(** src/encoder.rs 338-347 [write_screen_desc]. *)
Definition write_screen_desc (e : encoder) (flags : N) : encoder * eres unit :=
  with_writer e (tmp_then_finish 13
    [GIF89a; le16 (e_width e); le16 (e_height e); [flags]; [0]; [0]]).

(** src/encoder.rs 266-300 [write_extension]. *)
Definition write_extension (e : encoder) (x : extension_data) : encoder * eres unit :=
  match x with
  | ERepetitions (RFinite 0) => (e, Ok tt)
  | _ =>
    with_writer e
      (write_u8 (block_u8 BkExtension) ;;;
       (match x with
        | EControl flags delay trns =>
            tmp_then_finish 6 [[extension_u8 XControl]; [4]; [flags]; le16 delay; [trns]]
        | ERepetitions r =>
            tmp_then_finish 17 [[extension_u8 XApplication]; [11]; NETSCAPE2_0; [3]; [1];
                                le16 (match r with RFinite n => n | RInfinite => 0 end)]
        end) ;;;
       write_u8 0)
  end.

(** src/encoder.rs 146-148 [set_repeat]. *)
Definition set_repeat (e : encoder) (r : repeat_t) : encoder * eres unit :=
  write_extension e (ERepetitions r).

(** src/encoder.rs 367-370 [write_trailer]. *)
Definition write_trailer (e : encoder) : encoder * eres unit :=
  with_writer e (write_u8 (block_u8 BkTrailer)).

(** src/encoder.rs 422-428 [Drop for Encoder] with the default feature [raii_no_panic]: a write
    error is ignored. (Without the feature, lines 430-435, it would panic.) *)
Definition encoder_drop (e : encoder) : encoder :=
  match e_w e with None => e | Some _ => fst (write_trailer e) end.

(** src/encoder.rs 151-164 [write_global_palette]; [self] is returned also on the error path,
    where Rust drops it. *)
Definition write_global_palette (e : encoder) (palette : list N) : encoder * eres unit :=
  match check_color_table palette with
  | Ok (pal, padding, table_size) =>
    let e1 := mk_enc (e_w e) (negb (is_nil pal)) (e_width e) (e_height e) (e_buffer e) in
    let flags := N.lor (N.lor 0x80 table_size) (N.shiftl table_size 4) in
    let '(e2, r) := write_screen_desc e1 flags in
    match r with
    | Ok _ => with_writer e2 (write_color_table pal padding)
    | _ => (e2, r)
    end
  | Err er => (e, Err er)
  | Panic => (e, Panic)
  | Hang => (e, Hang)
  end.

(** src/encoder.rs 136-143 [Encoder::new]. On error [self] is dropped, which runs [Drop]. The
    encoder is returned also in the error case, to show what became of the writer. *)
Definition encoder_new (w : writer) (width height : N) (global_palette : list N)
  : encoder * eres unit :=
  let e := mk_enc (Some w) false width height [] in
  let '(e', r) := write_global_palette e global_palette in
  match r with
  | Ok _ => (e', Ok tt)
  | _ => (encoder_drop e', r)
  end.

(** src/encoder.rs 178-212 [write_frame_header]. *)
Definition write_frame_header (e : encoder) (f : frame) : encoder * eres unit :=
  let '(e1, r) := write_extension e
      (new_control_ext (f_delay f) (f_dispose f) (f_needs_user_input f) (f_transparent f)) in
  match r with
  | Ok _ =>
    let flags0 := if f_interlaced f then 0x40 else 0 in
    let checked :=
      match f_palette f with
      | Some p =>
        match check_color_table p with
        | Ok (pal, padding, table_size) =>
            Ok (N.lor (N.lor flags0 0x80) table_size, Some (pal, padding))
        | Err er => Err er | Panic => Panic | Hang => Hang
        end
      | None => if e_global_palette e1 then Ok (flags0, None)
                else Err (EFormat MissingColorPalette)
      end in
    match checked with
    | Ok (flags, palette) =>
      with_writer e1
        (tmp_then_finish 10 [[block_u8 BkImage]; le16 (f_left f); le16 (f_top f);
                             le16 (f_width f); le16 (f_height f); [flags]] ;;;
         match palette with
         | Some (pal, padding) => write_color_table pal padding
         | None => wret tt
         end)
    | Err er => (e1, Err er)
    | Panic => (e1, Panic)
    | Hang => (e1, Hang)
    end
  | _ => (e1, r)
  end.

(** src/encoder.rs 214-222 [write_image_block]. *)
Definition write_image_block (L : lzw_codec) (e : encoder) (data : list N) : encoder * eres unit :=
  let e1 := mk_enc (e_w e) (e_global_palette e) (e_width e) (e_height e) (lzw_encode L data []) in
  with_writer e1 (write_encoded_image_block (e_buffer e1)).

(** src/encoder.rs 169-176 [write_frame]. [dbg] says whether debug assertions are compiled in.
    The product of two u16 never overflows usize (32 bits or more), so [checked_mul] succeeds. *)
Definition write_frame (L : lzw_codec) (dbg : bool) (e : encoder) (f : frame) : encoder * eres unit :=
  if len (f_buffer f) <? f_width f * f_height f then (e, Err (EIo InvalidInput))
  else if dbg && negb (((0 <? f_width f) && (0 <? f_height f)) || is_nil (f_buffer f)) then (e, Panic)
  else
    let '(e1, r) := write_frame_header e f in
    match r with
    | Ok _ => write_image_block L e1 (f_buffer f)
    | _ => (e1, r)
    end.

(** src/encoder.rs 324-335 [write_lzw_pre_encoded_frame]. *)
Definition write_lzw_pre_encoded_frame (e : encoder) (f : frame) : encoder * eres unit :=
  let bad := match f_buffer f with [] => false | m :: _ => (11 <? m) || (m <? 2) end in
  if bad then (e, Err (EFormat InvalidMinCodeSize))
  else
    let '(e1, r) := write_frame_header e f in
    match r with
    | Ok _ => with_writer e1 (write_encoded_image_block (f_buffer f))
    | _ => (e1, r)
    end.

(** src/encoder.rs 307-318 [write_raw_extension]. *)
Definition write_raw_extension (e : encoder) (func : N) (data : list (list N)) : encoder * eres unit :=
  with_writer e
    (write_u8 (block_u8 BkExtension) ;;;
     write_u8 func ;;;
     wfor (fun block => wfor (fun chunk => write_u8 (len chunk mod 256) ;;; write_all chunk)
                             (chunks 255 block)) data ;;;
     write_u8 0).

(** src/encoder.rs 362-365 [into_inner], including the implicit drop of [self]: the encoder that
    remains shows the final state of the writer. On success the writer is handed out, so [Drop]
    finds [w = None] and writes nothing. *)
Definition into_inner (e : encoder) : encoder * eres writer :=
  let '(e1, r) := write_trailer e in
  match r with
  | Ok _ =>
    match e_w e1 with
    | Some w => (encoder_drop (mk_enc None (e_global_palette e1) (e_width e1) (e_height e1) (e_buffer e1)), Ok w)
    | None => (encoder_drop e1, Err (EIo Unsupported))
    end
  | Err er => (encoder_drop e1, Err er)
  | Panic => (encoder_drop e1, Panic)
  | Hang => (encoder_drop e1, Hang)
  end.

(** *** Sessions: a user of the encoder (not in /repo)

    The public calls on an encoder. *)
Inductive enc_op :=
| OSetRepeat (r : repeat_t)
| OWriteFrame (f : frame)
| OWritePre (f : frame)
| ORawExt (func : N) (data : list (list N))
| OExt (x : extension_data).

Definition run_op (L : lzw_codec) (dbg : bool) (e : encoder) (o : enc_op) : encoder * eres unit :=
  match o with
  | OSetRepeat r => set_repeat e r
  | OWriteFrame f => write_frame L dbg e f
  | OWritePre f => write_lzw_pre_encoded_frame e f
  | ORawExt func data => write_raw_extension e func data
  | OExt x => write_extension e x
  end.

(** Calls one after the other, stopping at the first failure ([?] in the caller). *)
Fixpoint run_ops (L : lzw_codec) (dbg : bool) (e : encoder) (ops : list enc_op) : encoder * eres unit :=
  match ops with
  | [] => (e, Ok tt)
  | o :: ops' =>
    let '(e1, r) := run_op L dbg e o in
    match r with Ok _ => run_ops L dbg e1 ops' | _ => (e1, r) end
  end.
