(** What [FrameDecoder] says about a frame that holds compressed data, stated from the frame, the settings and the pixels in
    the data alone. *)
From Verif Require Import Base Common Lzw LzwErrs Encoder Stream Converter Reader SpecGif SpecPixels SpecVerdict.
Open Scope N_scope.

(** The first byte is the minimum code size; nothing stands for no data. *)
Definition code_size (f : frame) : N := match f_buffer f with [] => 2 | m :: _ => m end.
Definition code_data (f : frame) : list N := match f_buffer f with [] => [] | _ :: data => data end.
Definition frame_px (f : frame) : N := f_width f * f_height f.

Section V.
Variable umax : N.

(** [decode_lzw_encoded_frame]; [have] is the number of pixels in the data. *)
Definition unpack_verdict (color : color_output) (limit : memory_limit) (f : frame) (have : nat) : dres unit :=
  let size := N.of_nat (px_bytes color) * frame_px f in
  if (umax <? size) || match limit with Some l => l <? size | None => false end then Err (DIo OutOfMemory)
  else if umax / 2 <? size then Panic
  else if (code_size f <? 1) || (11 <? code_size f) then Err (DFormat InvalidMinimalCodeSize)
  else if f_interlaced f && (f_height f =? 0) then Ok tt
  else if frame_px f =? 0 then Err (DFormat match color with CRgba => OddSizedBuffer | CIndexed => ImageTruncated end)
  else if N.of_nat have <? frame_px f then Err (DFormat ImageTruncated)
  else Ok tt.

(** The frame with its picture. *)
Definition unpacked (color : color_output) (pal : list N) (f : frame) (out : list N) : frame :=
  set_interlaced (set_buffer f (shown color pal (f_transparent f)
    (picture (N.to_nat (f_width f)) (N.to_nat (f_height f)) (f_interlaced f) out))) false.

(** [decode_lzw_encoded_frame_into_buffer] with a buffer of [n] bytes, for a frame with pixels. *)
Definition unpack_into_verdict (color : color_output) (f : frame) (have n : nat) : dres unit :=
  let w := N.to_nat (f_width f) in
  let h := N.to_nat (f_height f) in
  let rows := gif_row_order h in
  let k := rows_fit (px_bytes color * w) n rows in
  if (code_size f <? 1) || (11 <? code_size f) then Err (DFormat InvalidMinimalCodeSize)
  else if f_interlaced f then
    if (have <? k * w)%nat then Err (DFormat ImageTruncated)
    else if (k =? h)%nat then Ok tt else Err (DFormat BufferTooSmall)
  else if (n <? px_bytes color * (w * h))%nat then Err (DFormat BufferTooSmall)
  else if (have <? w * h)%nat then Err (DFormat ImageTruncated)
  else Ok tt.
End V.

(** The number of pixels that are asked for before such a call ends: those of the rows that fit; without interlacing, all or
    none. *)
Definition into_wants (color : color_output) (f : frame) (n : nat) : nat :=
  let w := N.to_nat (f_width f) in
  let h := N.to_nat (f_height f) in
  if f_interlaced f then rows_fit (px_bytes color * w) n (gif_row_order h) * w
  else if (n <? px_bytes color * (w * h))%nat then 0 else w * h.

(** The data of [f] stand for the pixels [out]; with [bad], an invalid code comes after them. *)
Definition stands_for {L} {S : lzw_spec L} (Z : lzw_errs S) (f : frame) (out : list N) (bad : bool) : Prop :=
  if bad then lz_fails Z (lz_new L (code_size f)) (code_data f) out
  else lz_pending S (lz_new L (code_size f)) (code_data f) out.

(** A user that decodes frames one after the other and goes on after errors. *)
Fixpoint unpack_each (L : lzw_codec) (umax : N) (fd : fdec L) (fs : list frame) : fdec L * list (frame * dres unit) :=
  match fs with
  | [] => (fd, [])
  | f :: fs' =>
    let '(fd1, f1, x) := decode_lzw_encoded_frame L umax fd f in
    let '(fd2, l) := unpack_each L umax fd1 fs' in (fd2, (f1, x) :: l)
  end.

(** The answer for one frame: as above; or, if there is an invalid code, InvalidData where its pixels would just have
    sufficed or been too few. *)
Definition unpack_told (umax : N) (color : color_output) (limit : memory_limit) (gpal : option (list N)) (f : frame)
  (out : list N) (bad : bool) (r : frame * dres unit) : Prop :=
  let v := unpack_verdict umax color limit f (length out) in
  let pal := match f_palette f with Some p => p | None => match gpal with Some p => p | None => [] end end in
  (bad = true /\ r = (f, Err (DIo InvalidData)) /\ (v = Ok tt \/ v = Err (DFormat ImageTruncated)) /\
     N.of_nat (length out) <= frame_px f /\ f_interlaced f && (f_height f =? 0) = false) \/
  ((bad = true -> v <> Err (DFormat ImageTruncated) \/ frame_px f = 0) /\
   r = match v with Ok _ => (unpacked color pal f out, Ok tt) | _ => (f, v) end).
