(** Model of src/reader/decoder.rs ([StreamingDecoder], [LzwReader], [OutputBuffer]) and of the
    options and memory limit of src/reader/mod.rs. *)
From Verif Require Import Base Common Lzw Encoder.
Open Scope N_scope.

(** src/reader/converter.rs 15-24 [ColorOutput]. *)
Inductive color_output := CRgba | CIndexed.

(** src/reader/mod.rs 26-47 [MemoryLimit]: [None] is [Unlimited]; [Some n] has [n > 0]
    ([NonZeroU64]). *)
Definition memory_limit := option N.

(** src/reader/mod.rs 50-61 [MemoryLimit::check_size]. *)
Definition check_size (l : memory_limit) (size : N) : bool :=
  match l with None => true | Some n => size <=? n end.

(** src/reader/mod.rs 92-99 [DecodeOptions]. *)
Record options := mk_opts {
  o_limit : memory_limit;
  o_color : color_output;
  o_check_frame_consistency : bool;
  o_skip_frame_decoding : bool;
  o_check_for_end_code : bool;
  o_allow_unknown_blocks : bool
}.

(** src/reader/mod.rs 111-120 [DecodeOptions::new]. *)
Definition options_new : options := mk_opts (Some 50000000) CIndexed false false false false.

(** src/reader/decoder.rs 341-346 [Version]. *)
Inductive version := V87a | V89a.

(** src/reader/decoder.rs 101-109 [FrameDataType]. *)
Inductive frame_data_type := FPixels | FLzw (min_code_size : N).

(** src/reader/decoder.rs 114-155 [Decoded]. *)
Inductive decoded :=
| DNothing
| DGlobalPalette (p : list N)
| DBackgroundColor (c : N)
| DRepetitions (r : repeat_t)
| DHeaderEnd
| DBlockStart (b : block)
| DSubBlockFinished (ext : N)
| DBlockFinished (ext : N)
| DFrameMetadata (t : frame_data_type)
| DBytesDecoded (n : nat)
| DLzwDataCopied (n : nat)
| DDataEnd.

(** src/reader/decoder.rs 159-178 [State]. *)
Inductive state :=
| Magic
| ScreenDescriptor
| ImageBlockStart
| GlobalPalette (lft : nat)
| BlockStart (t : N)
| BlockEnd
| ExtensionBlockStart
| ExtensionDataBlock (lft : nat)
| ApplicationExtension
| LocalPalette (lft : nat)
| LzwInit (min_code_size : N)
| DecodeSubBlock (lft : nat)
| CopySubBlock (lft : nat)
| FrameDecoded
| Trailer.

(** src/reader/decoder.rs 355-362 [OutputBuffer]: the destination with its current contents. *)
Inductive obuf := OSlice (s : list N) | OVec (v : list N) | ONone.

(** src/reader/decoder.rs 365-387 [OutputBuffer::append]: new destination and
    [(consumed, copied)]. [try_reserve] succeeds, after which the capacity test holds. *)
Definition obuf_append (ob : obuf) (buf : list N) (lim : memory_limit)
  : obuf * dres (nat * nat) :=
  match ob with
  | OSlice s =>
    let n := Nat.min (length buf) (length s) in
    (OSlice (firstn n buf ++ skipn n s), Ok (n, n))
  | OVec v =>
    let n := length buf in
    if check_size lim (len v + len buf) then (OVec (v ++ buf), Ok (n, n))
    else (OVec v, Err (DFormat MemoryLimitReached))
  | ONone => (ONone, Ok (length buf, O))
  end.

Section Decoder.
Variable L : lzw_codec.

(** src/reader/decoder.rs 246-250 [LzwReader]. *)
Record lzw_reader := mk_lr {
  lr_decoder : option (lz_st L);
  lr_min_code_size : N;
  lr_check : bool
}.

(** src/reader/decoder.rs 253-259 [LzwReader::new]. *)
Definition lr_new (check_for_end_code : bool) : lzw_reader := mk_lr None 0 check_for_end_code.

(** src/reader/decoder.rs 261-268 [check_code_size]. *)
Definition check_code_size (m : N) : bool := negb ((11 <? m) || (m <? 1)).

(** src/reader/decoder.rs 270-282 [LzwReader::reset]. *)
Definition lr_reset (r : lzw_reader) (m : N) : lzw_reader * dres unit :=
  if check_code_size m then
    match lr_decoder r with
    | Some d =>
      if negb (lr_min_code_size r =? m)
      then (mk_lr (Some (lz_new L m)) m (lr_check r), Ok tt)
      else (mk_lr (Some (lz_reset L d)) (lr_min_code_size r) (lr_check r), Ok tt)
    | None => (mk_lr (Some (lz_new L m)) m (lr_check r), Ok tt)
    end
  else (r, Err (DFormat InvalidMinimalCodeSize)).

(** src/reader/decoder.rs 284-286 [has_ended]. *)
Definition lr_has_ended (r : lzw_reader) : bool :=
  match lr_decoder r with None => true | Some d => lz_ended L d end.

(** src/reader/decoder.rs 288-311 [LzwReader::decode_bytes]. The library stores its output at the
    start of the slice, also when it then reports an error. *)
Definition lr_decode_bytes (r : lzw_reader) (data : list N) (ob : obuf)
  : lzw_reader * obuf * dres (nat * nat) :=
  match lr_decoder r with
  | None => (r, ob, Err (DIo Unsupported))
  | Some d =>
    match ob with
    | OVec _ => (r, ob, Err (DIo Unsupported))
    | _ =>
      let s := match ob with OSlice s => s | _ => [] end in
      let '(d', (n, w, st)) := lz_decode L d data (length s) in
      let r' := mk_lr (Some d') (lr_min_code_size r) (lr_check r) in
      let ob' := match ob with OSlice _ => OSlice (w ++ skipn (length w) s) | _ => ob end in
      match st with
      | LzInvalid => (r', ob', Err (DIo InvalidData))
      | LzNoProgress =>
        if lr_check r then (r', ob', Err (DIo InvalidData)) else (r', ob', Ok (n, length w))
      | _ => (r', ob', Ok (n, length w))
      end
    end
  end.

(** src/reader/decoder.rs 317-337 [StreamingDecoder] and 348-352 [ExtensionData].
    - [sd_opts] holds the copied options and the memory limit;
    - [sd_ibuf] is [internal_buffer[..unused_internal_buffer_len]];
    - [sd_gct_cap], [sd_pal_cap] are the capacities of [global_color_table] and of the palette
      of [current], as guaranteed by [try_reserve_exact] (the least an allocator may give). *)
Record sd := mk_sd {
  sd_state : state;
  sd_ibuf : list N;
  sd_lzw : lzw_reader;
  sd_opts : options;
  sd_version : version;
  sd_width : N;
  sd_height : N;
  sd_gct : list N;
  sd_gct_cap : nat;
  sd_ext_id : N;
  sd_ext_data : list N;
  sd_ext_end : bool;
  sd_current : option frame;
  sd_pal_cap : nat;
  sd_header_end : bool
}.

(** Assignments to single fields. *)
Definition set_state (s : sd) (x : state) : sd :=
  mk_sd x (sd_ibuf s) (sd_lzw s) (sd_opts s) (sd_version s) (sd_width s) (sd_height s)
    (sd_gct s) (sd_gct_cap s) (sd_ext_id s) (sd_ext_data s) (sd_ext_end s)
    (sd_current s) (sd_pal_cap s) (sd_header_end s).
Definition set_ibuf (s : sd) (x : list N) : sd :=
  mk_sd (sd_state s) x (sd_lzw s) (sd_opts s) (sd_version s) (sd_width s) (sd_height s)
    (sd_gct s) (sd_gct_cap s) (sd_ext_id s) (sd_ext_data s) (sd_ext_end s)
    (sd_current s) (sd_pal_cap s) (sd_header_end s).
Definition set_lzw (s : sd) (x : lzw_reader) : sd :=
  mk_sd (sd_state s) (sd_ibuf s) x (sd_opts s) (sd_version s) (sd_width s) (sd_height s)
    (sd_gct s) (sd_gct_cap s) (sd_ext_id s) (sd_ext_data s) (sd_ext_end s)
    (sd_current s) (sd_pal_cap s) (sd_header_end s).
Definition set_version (s : sd) (x : version) : sd :=
  mk_sd (sd_state s) (sd_ibuf s) (sd_lzw s) (sd_opts s) x (sd_width s) (sd_height s)
    (sd_gct s) (sd_gct_cap s) (sd_ext_id s) (sd_ext_data s) (sd_ext_end s)
    (sd_current s) (sd_pal_cap s) (sd_header_end s).
Definition set_screen (s : sd) (w h : N) : sd :=
  mk_sd (sd_state s) (sd_ibuf s) (sd_lzw s) (sd_opts s) (sd_version s) w h
    (sd_gct s) (sd_gct_cap s) (sd_ext_id s) (sd_ext_data s) (sd_ext_end s)
    (sd_current s) (sd_pal_cap s) (sd_header_end s).
Definition set_gct (s : sd) (t : list N) (cap : nat) : sd :=
  mk_sd (sd_state s) (sd_ibuf s) (sd_lzw s) (sd_opts s) (sd_version s) (sd_width s) (sd_height s)
    t cap (sd_ext_id s) (sd_ext_data s) (sd_ext_end s)
    (sd_current s) (sd_pal_cap s) (sd_header_end s).
Definition set_ext (s : sd) (id : N) (data : list N) (e : bool) : sd :=
  mk_sd (sd_state s) (sd_ibuf s) (sd_lzw s) (sd_opts s) (sd_version s) (sd_width s) (sd_height s)
    (sd_gct s) (sd_gct_cap s) id data e
    (sd_current s) (sd_pal_cap s) (sd_header_end s).
Definition set_current (s : sd) (f : option frame) (cap : nat) : sd :=
  mk_sd (sd_state s) (sd_ibuf s) (sd_lzw s) (sd_opts s) (sd_version s) (sd_width s) (sd_height s)
    (sd_gct s) (sd_gct_cap s) (sd_ext_id s) (sd_ext_data s) (sd_ext_end s)
    f cap (sd_header_end s).
Definition set_header_end (s : sd) (x : bool) : sd :=
  mk_sd (sd_state s) (sd_ibuf s) (sd_lzw s) (sd_opts s) (sd_version s) (sd_width s) (sd_height s)
    (sd_gct s) (sd_gct_cap s) (sd_ext_id s) (sd_ext_data s) (sd_ext_end s)
    (sd_current s) (sd_pal_cap s) x.

(** src/reader/decoder.rs 398-420 [StreamingDecoder::with_options]. *)
Definition sd_new (o : options) : sd :=
  mk_sd Magic [] (lr_new (o_check_for_end_code o)) o V87a 0 0 [] 0 0 [] true None 0 false.

(** src/reader/decoder.rs 513-536, macro [ensure_min_length_buffer]. [GotMore s n] is the early
    [return Ok((consumed, Nothing))]; [GotAll s n d] yields the bytes [d]. The slice expression
    [internal_buffer[has..new_len]] panics beyond the array's 9 bytes. In the branch
    [has >= required] nothing is consumed and the fill level is lft as it is. *)
Inductive ensured := GotPanic | GotMore (s : sd) (consumed : nat) | GotAll (s : sd) (consumed : nat) (d : list N).
Definition ensure_min (s : sd) (buf : list N) (required : nat) : ensured :=
  if ((required <=? length buf)%nat && is_nil (sd_ibuf s))%bool
  then GotAll s required (firstn required buf)
  else
    let has := length (sd_ibuf s) in
    if (has <? required)%nat then
      let to_copy := Nat.min (length buf) (required - has) in
      let new_len := (has + to_copy)%nat in
      if (9 <? new_len)%nat then GotPanic
      else
        let data := sd_ibuf s ++ firstn to_copy buf in
        if (new_len <? required)%nat then GotMore (set_ibuf s data) to_copy
        else GotAll (set_ibuf s []) to_copy (firstn required data)
    else GotAll s 0 (firstn required (sd_ibuf s)).

(** [n]-th byte of a slice known to be long enough (the indices below are all within slices whose
    length is fixed by [ensure_min] or tested). *)
Definition at_ (l : list N) (n : nat) : N := nth n l 0.

(** src/reader/decoder.rs 562 and 599: [PLTE_CHANNELS * (1 << ((flags & 7) + 1))]. *)
Definition table_bytes (flags : N) : nat := (3 * N.to_nat (N.shiftl 1 (N.land flags 7 + 1)))%nat.

(** src/reader/decoder.rs 784-800 [read_control_extension]. *)
Definition read_control_extension (s : sd) : sd * dres unit :=
  if negb (length (sd_ext_data s) =? 5)%nat then (s, Err (DFormat ControlWrongLength))
  else
    let c := skipn 1 (sd_ext_data s) in
    let f := match sd_current s with Some f => f | None => frame_default end in
    let flags := at_ c 0 in
    let f' := set_control f
                (negb (N.land flags 2 =? 0))
                (match disposal_from_u8 (N.shiftr (N.land flags 28) 2) with
                 | Some m => m | None => DAny end)
                (rd16 (at_ c 1) (at_ c 2))
                (if N.land flags 1 =? 0 then None else Some (at_ c 3)) in
    (set_current s (Some f') (match sd_current s with Some _ => sd_pal_cap s | None => O end), Ok tt).

(** src/reader/decoder.rs 802-806 [add_frame]. *)
Definition add_frame (s : sd) : sd :=
  match sd_current s with None => set_current s (Some frame_default) 0 | Some _ => s end.

(** src/reader/decoder.rs 589-593: [width.checked_sub(frame.width) < Some(frame.lft)] with Rust's
    order on options ([None] is least). *)
Definition out_of_bounds (screen size offset : N) : bool :=
  if screen <? size then true else (screen - size) <? offset.

(** src/reader/decoder.rs 695: [data.len() >= 15 && data[1..13] == b"NETSCAPE2.0\x01"]. *)
Definition is_netscape (data : list N) : bool :=
  (15 <=? length data)%nat && list_eqb (firstn 12 (skipn 1 data)) (NETSCAPE2_0 ++ [1]).

(** src/reader/decoder.rs 494-511, macro [goto!]. *)
Definition goto (ob : obuf) (s : sd) (n : nat) (st : state) (d : decoded)
  : sd * obuf * dres (nat * decoded) := (set_state s st, ob, Ok (n, d)).

(** src/reader/decoder.rs 493-782 [next_state]. Returns the new decoder, the new contents of the
    destination and the result; see [goto]. *)
Definition next_state (s : sd) (buf : list N) (ob : obuf) : sd * obuf * dres (nat * decoded) :=
  match buf with
  | [] => (s, ob, Err (DIo UnexpectedEof))                                  (* 538 *)
  | b :: _ =>
    match sd_state s with
    | Magic =>                                                              (* 541-551 *)
      match ensure_min s buf 6 with
      | GotPanic => (s, ob, Panic)
      | GotMore s1 n => (s1, ob, Ok (n, DNothing))
      | GotAll s1 n v =>
        if list_eqb v GIF87a then goto ob (set_version s1 V87a) n ScreenDescriptor DNothing
        else if list_eqb v GIF89a then goto ob (set_version s1 V89a) n ScreenDescriptor DNothing
        else (s1, ob, Err (DFormat MalformedHeader))
      end
    | ScreenDescriptor =>                                                   (* 552-574 *)
      match ensure_min s buf 7 with
      | GotPanic => (s, ob, Panic)
      | GotMore s1 n => (s1, ob, Ok (n, DNothing))
      | GotAll s1 n desc =>
        let s2 := set_screen s1 (rd16 (at_ desc 0) (at_ desc 1)) (rd16 (at_ desc 2) (at_ desc 3)) in
        let flags := at_ desc 4 in
        if negb (N.land flags 0x80 =? 0) then
          let ts := table_bytes flags in
          let s3 := set_gct s2 (sd_gct s2) (Nat.max (sd_gct_cap s2) (length (sd_gct s2) + ts)) in
          goto ob s3 n (GlobalPalette ts) (DBackgroundColor (at_ desc 5))
        else goto ob s2 n (GlobalPalette 0) (DBackgroundColor (at_ desc 5))
      end
    | ImageBlockStart =>                                                    (* 575-606 *)
      match ensure_min s buf 9 with
      | GotPanic => (s, ob, Panic)
      | GotMore s1 n => (s1, ob, Ok (n, DNothing))
      | GotAll s1 n h =>
        match sd_current s1 with
        | None => (s1, ob, Err (DFormat BadState))
        | Some f =>
          let lft := rd16 (at_ h 0) (at_ h 1) in
          let top := rd16 (at_ h 2) (at_ h 3) in
          let w := rd16 (at_ h 4) (at_ h 5) in
          let hh := rd16 (at_ h 6) (at_ h 7) in
          let flags := at_ h 8 in
          let f1 := set_geometry f lft top w hh (negb (N.land flags 0x40 =? 0)) in
          let s2 := set_current s1 (Some f1) (sd_pal_cap s1) in
          if o_check_frame_consistency (sd_opts s2) &&
             (out_of_bounds (sd_width s2) w lft || out_of_bounds (sd_height s2) hh top)
          then (s2, ob, Err (DFormat FrameOutOfBounds))
          else if negb (N.land flags 0x80 =? 0) then
            let pal_len := table_bytes flags in
            let '(pal, cap) := match f_palette f1 with
                               | Some p => (p, sd_pal_cap s2) | None => ([], O) end in
            let s3 := set_current s2 (Some (set_palette f1 (Some pal)))
                        (Nat.max cap (length pal + pal_len)) in
            goto ob s3 n (LocalPalette pal_len) DNothing
          else goto ob s2 n (LocalPalette 0) DNothing
        end
      end
    | GlobalPalette lft =>                                                 (* 607-620 *)
      if (0 <? lft)%nat then
        let n := Nat.min lft (length buf) in
        let s1 := if (n <=? sd_gct_cap s - length (sd_gct s))%nat
                  then set_gct s (sd_gct s ++ firstn n buf) (sd_gct_cap s) else s in
        goto ob s1 n (GlobalPalette (lft - n)) DNothing
      else goto ob (set_gct s [] 0) 1 (BlockStart b) (DGlobalPalette (sd_gct s))
    | BlockStart t =>                                                       (* 621-652 *)
      if negb (sd_header_end s) && negb (t =? block_u8 BkExtension)
      then goto ob (set_header_end s true) 0 (BlockStart t) DHeaderEnd
      else
        match block_from_u8 t with
        | Some BkImage => goto ob (add_frame s) 0 ImageBlockStart (DBlockStart BkImage)
        | Some BkExtension =>
          let s1 := set_ext s b [] (sd_ext_end s) in
          match extension_from_u8 b with
          | None => (s1, ob, Err (DFormat UnknownBlockType))
          | Some _ => goto ob s1 1 ExtensionBlockStart (DBlockStart BkExtension)
          end
        | Some BkTrailer => goto ob s 1 Trailer (DBlockStart BkTrailer)
        | None =>
          if o_allow_unknown_blocks (sd_opts s)
          then goto ob s 1 (ExtensionDataBlock (N.to_nat b)) DNothing
          else (s, ob, Err (DFormat UnknownBlockType))
        end
    | BlockEnd =>                                                           (* 653-661 *)
      if b =? block_u8 BkTrailer then goto ob s 0 (BlockStart b) DNothing
      else goto ob s 1 (BlockStart b) DNothing
    | ExtensionBlockStart =>                                                (* 662-665 *)
      goto ob (set_ext s (sd_ext_id s) (sd_ext_data s ++ [b]) (sd_ext_end s)) 1
         (ExtensionDataBlock (N.to_nat b)) DNothing
    | ExtensionDataBlock lft =>                                            (* 666-691 *)
      if (0 <? lft)%nat then
        let n := Nat.min lft (length buf) in
        if check_size (o_limit (sd_opts s)) (len (sd_ext_data s) + N.of_nat n) then
          goto ob (set_ext s (sd_ext_id s) (sd_ext_data s ++ firstn n buf) (sd_ext_end s)) n
             (ExtensionDataBlock (lft - n)) DNothing
        else (s, ob, Err (DFormat MemoryLimitReached))
      else if b =? 0 then
        let s1 := set_ext s (sd_ext_id s) (sd_ext_data s) true in
        match extension_from_u8 (sd_ext_id s1) with
        | Some XApplication => goto ob s1 0 ApplicationExtension (DBlockFinished (sd_ext_id s1))
        | Some XControl =>
          let '(s2, r) := read_control_extension s1 in
          match r with
          | Ok _ => goto ob s2 1 BlockEnd (DBlockFinished (sd_ext_id s2))
          | Err e => (s2, ob, Err e)
          | Panic => (s2, ob, Panic)
          | Hang => (s2, ob, Hang)
          end
        | _ => goto ob s1 1 BlockEnd (DBlockFinished (sd_ext_id s1))
        end
      else
        goto ob (set_ext s (sd_ext_id s) (sd_ext_data s) false) 1 (ExtensionDataBlock (N.to_nat b))
           (DSubBlockFinished (sd_ext_id s))
    | ApplicationExtension =>                                               (* 692-702 *)
      if negb (b =? 0) then (s, ob, Panic)                                  (* debug_assert_eq! *)
      else if is_netscape (sd_ext_data s) then
        let r := rd16 (at_ (sd_ext_data s) 13) (at_ (sd_ext_data s) 14) in
        goto ob s 1 BlockEnd (DRepetitions (if r =? 0 then RInfinite else RFinite r))
      else goto ob s 1 BlockEnd DNothing
    | LocalPalette lft =>                                                  (* 703-717 *)
      if (0 <? lft)%nat then
        let n := Nat.min lft (length buf) in
        match sd_current s with
        | None => (s, ob, Err (DFormat BadState))
        | Some f =>
          let s1 := match f_palette f with
                    | Some p =>
                      if (n <=? sd_pal_cap s - length p)%nat
                      then set_current s (Some (set_palette f (Some (p ++ firstn n buf)))) (sd_pal_cap s)
                      else s
                    | None => s
                    end in
          goto ob s1 n (LocalPalette (lft - n)) DNothing
        end
      else goto ob s 1 (LzwInit b) DNothing
    | LzwInit m =>                                                          (* 718-727 *)
      if negb (o_skip_frame_decoding (sd_opts s)) then
        let '(r, res) := lr_reset (sd_lzw s) m in
        let s1 := set_lzw s r in
        match res with
        | Ok _ => goto ob s1 1 (DecodeSubBlock (N.to_nat b)) (DFrameMetadata FPixels)
        | Err e => (s1, ob, Err e)
        | Panic => (s1, ob, Panic)
        | Hang => (s1, ob, Hang)
        end
      else if check_code_size m
      then goto ob s 1 (CopySubBlock (N.to_nat b)) (DFrameMetadata (FLzw m))
      else (s, ob, Err (DFormat InvalidMinimalCodeSize))
    | CopySubBlock lft =>                                                  (* 728-739 *)
      if negb (o_skip_frame_decoding (sd_opts s)) then (s, ob, Panic)       (* debug_assert! *)
      else if (0 <? lft)%nat then
        let n := Nat.min lft (length buf) in
        let '(ob1, r) := obuf_append ob (firstn n buf) (o_limit (sd_opts s)) in
        match r with
        | Ok (consumed, copied) =>
          if (lft <? consumed)%nat then (s, ob1, Panic)
          else (set_state s (CopySubBlock (lft - consumed)), ob1, Ok (consumed, DLzwDataCopied copied))
        | Err e => (s, ob1, Err e)
        | Panic => (s, ob1, Panic)
        | Hang => (s, ob1, Hang)
        end
      else if negb (b =? 0) then goto ob s 1 (CopySubBlock (N.to_nat b)) DNothing
      else goto ob s 0 FrameDecoded DNothing
    | DecodeSubBlock lft =>                                                (* 740-773 *)
      if o_skip_frame_decoding (sd_opts s) then (s, ob, Panic)              (* debug_assert! *)
      else if (0 <? lft)%nat then
        let n := Nat.min lft (length buf) in
        if lr_has_ended (sd_lzw s) || match ob with ONone => true | _ => false end
        then goto ob s n (DecodeSubBlock (lft - n)) DNothing
        else
          let '(r1, ob1, r) := lr_decode_bytes (sd_lzw s) (firstn n buf) ob in
          let s1 := set_lzw s r1 in
          match r with
          | Ok (consumed0, bytes_len) =>
            let consumed := if (consumed0 =? 0)%nat && (bytes_len =? 0)%nat then n else consumed0 in
            if (lft <? consumed)%nat then (s1, ob1, Panic)
            else (set_state s1 (DecodeSubBlock (lft - consumed)), ob1,
                  Ok (consumed, if (bytes_len =? 0)%nat then DNothing else DBytesDecoded bytes_len))
          | Err e => (s1, ob1, Err e)
          | Panic => (s1, ob1, Panic)
          | Hang => (s1, ob1, Hang)
          end
      else if negb (b =? 0) then goto ob s 1 (DecodeSubBlock (N.to_nat b)) DNothing
      else
        let '(r1, ob1, r) := lr_decode_bytes (sd_lzw s) [] ob in
        let s1 := set_lzw s r1 in
        match r with
        | Ok (_, bytes_len) =>
          if (bytes_len =? 0)%nat
          then (set_state s1 FrameDecoded, ob1, Ok (O, DNothing))
          else (set_state s1 (DecodeSubBlock 0), ob1, Ok (O, DBytesDecoded bytes_len))
        | Err e => (s1, ob1, Err e)
        | Panic => (s1, ob1, Panic)
        | Hang => (s1, ob1, Hang)
        end
    | FrameDecoded =>                                                       (* 774-779 *)
      if negb (b =? 0) then (set_current s None 0, ob, Panic)               (* debug_assert_eq! *)
      else goto ob (set_current s None 0) 1 BlockEnd DDataEnd
    | Trailer => goto ob s 0 Trailer DNothing                                    (* 780 *)
    end
  end.

(** src/reader/decoder.rs 426-443 [StreamingDecoder::update]: the [while] loop on fuel. *)
Fixpoint update_loop (fuel : nat) (s : sd) (buf : list N) (ob : obuf) (total : nat)
  : sd * obuf * dres (nat * decoded) :=
  match buf with
  | [] => (s, ob, Ok ((total - length buf)%nat, DNothing))
  | _ =>
    match fuel with
    | O => (s, ob, Hang)
    | S fuel' =>
      let '(s1, ob1, r) := next_state s buf ob in
      match r with
      | Ok (n, d) =>
        let buf' := skipn n buf in
        match d with
        | DNothing => update_loop fuel' s1 buf' ob1 total
        | _ => (s1, ob1, Ok ((total - length buf')%nat, d))
        end
      | Err e => (s1, ob1, Err e)
      | Panic => (s1, ob1, Panic)
      | Hang => (s1, ob1, Hang)
      end
    end
  end.

(** The fuel given to a call of [update]; enough by lemma [update_flat] (ReaderInv.v). *)
Definition update_fuel (buf : list N) : nat := (4 * length buf + 4)%nat.
Definition update (s : sd) (buf : list N) (ob : obuf) : sd * obuf * dres (nat * decoded) :=
  update_loop (update_fuel buf) s buf ob (length buf).

(** src/reader/decoder.rs 447-449 [last_ext]. [current_frame] and [current_frame_mut] (454-463) are the field
    [sd_current] ([None]: the [unwrap] panics), [width], [height] and [version] (473-490) the fields of that
    name. *)
Definition last_ext (s : sd) : N * list N * bool := (sd_ext_id s, sd_ext_data s, sd_ext_end s).

End Decoder.
