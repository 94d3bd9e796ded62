(** Model of src/reader/converter.rs ([PixelConverter], [InterlaceIterator]) and of
    [MemoryLimit::buffer_size] (src/reader/mod.rs). *)
From Verif Require Import Base Common Lzw Encoder Stream.
Open Scope N_scope.

Section Conv.
(** [usize::MAX]; theorems that need it assume at least 2^32 - 1. *)
Variable umax : N.

(** src/reader/mod.rs 63-87 [MemoryLimit::buffer_size]. *)
Definition limit_buffer_size (l : memory_limit) (c : color_output) (w h : N) : option N :=
  let total := w * h * match c with CIndexed => 1 | CRgba => 4 end in
  if total <=? umax then
    match l with
    | None => Some total
    | Some n => if n <? total then None else Some total
    end
  else None.

(** src/reader/converter.rs 29-34 [PixelConverter]. *)
Record conv := mk_conv {
  cv_limit : memory_limit;
  cv_color : color_output;
  cv_buffer : list N;
  cv_gpal : option (list N)
}.

(** src/reader/converter.rs 37-44 [PixelConverter::new]. *)
Definition conv_new (c : color_output) (l : memory_limit) : conv := mk_conv l c [] None.

Definition with_cbuf (c : conv) (b : list N) : conv :=
  mk_conv (cv_limit c) (cv_color c) b (cv_gpal c).

(** src/reader/converter.rs 153-159 [set_global_palette]. *)
Definition set_global_palette (c : conv) (p : list N) : conv :=
  mk_conv (cv_limit c) (cv_color c) (cv_buffer c) (if is_nil p then None else Some p).

(** src/reader/converter.rs 82-88 [line_length]. At most 4*65535, so it fits in [usize]. *)
Definition line_length (c : conv) (f : frame) : N :=
  match cv_color c with CRgba => f_width f * 4 | CIndexed => f_width f end.

(** src/reader/converter.rs 77-79 [buffer_size]. *)
Definition buffer_size (c : conv) (f : frame) : option N :=
  let n := line_length c f * f_height f in if n <=? umax then Some n else None.

(** src/reader/converter.rs 46-56 [check_buffer_size]. *)
Definition check_buffer_size (c : conv) (f : frame) : dres N :=
  match limit_buffer_size (cv_limit c) (cv_color c) (f_width f) (f_height f) with
  | None => Err (DIo OutOfMemory)
  | Some n =>
    match buffer_size c f with
    | None => Panic                                           (* unwrap in debug_assert_eq! *)
    | Some m => if n =? m then Ok n else Panic
    end
  end.

(** src/reader/converter.rs 123-135: one RGBA cell for one index; a cell whose index is outside
    the palette keeps its contents. [old] is the cell's previous contents. *)
Definition expand_cell (pal : list N) (transparent : option N) (idx : N) (old : list N) : list N :=
  let off := (3 * N.to_nat idx)%nat in
  if (off + 3 <=? length pal)%nat then
    [nth off pal 0; nth (off + 1) pal 0; nth (off + 2) pal 0;
     match transparent with
     | Some t => if t =? idx then 0 else 255
     | None => 255
     end]
  else old.

(** The loop over cells ([chunks_exact_mut(4).zip(..)]). *)
Fixpoint expand (pal : list N) (transparent : option N) (idxs : list N) (cells : list N) : list N :=
  match idxs with
  | [] => cells
  | i :: is =>
    expand_cell pal transparent i (firstn 4 cells)
    ++ expand pal transparent is (skipn 4 cells)
  end.

(** src/reader/converter.rs 116-118: palette used by [fill_buffer]. *)
Definition effective_palette (c : conv) (f : frame) : list N :=
  match f_palette f with
  | Some p => p
  | None => match cv_gpal c with Some p => p | None => [] end
  end.

(** [Vec::resize] to a larger size, filling with zeroes. *)
Definition grow (l : list N) (n : nat) : list N := l ++ repeat 0 (n - length l).

Section Callback.
Variable St : Type.
(** The [FillBufferCallback] (src/reader/converter.rs 26) with the state it captures. *)
Variable cb : St -> obuf -> St * obuf * dres nat.

Definition obuf_bytes (ob : obuf) : list N :=
  match ob with OSlice s => s | OVec v => v | ONone => [] end.

(** src/reader/converter.rs 92-147 [fill_buffer]; [done] is the part of the caller's buffer
    already behind the moving slice [buf]. Fuel [S (length buf)] suffices since every round
    shortens [buf]. *)
Fixpoint fill_loop (fuel : nat) (x : St) (c : conv) (f : frame) (done buf : list N)
  : St * conv * list N * dres bool :=
  match fuel with
  | O => (x, c, done ++ buf, Hang)
  | S fuel' =>
    match cv_color c with
    | CIndexed =>
      let '(x1, ob, r) := cb x (OSlice buf) in
      let buf1 := obuf_bytes ob in
      match r with
      | Err e => (x1, c, done ++ buf1, Err e)
      | Panic => (x1, c, done ++ buf1, Panic)
      | Hang => (x1, c, done ++ buf1, Hang)
      | Ok O => (x1, c, done ++ buf1, Ok false)
      | Ok n =>
        if (length buf1 <? n)%nat then (x1, c, done ++ buf1, Panic)
        else
          let done' := done ++ firstn n buf1 in
          let buf' := skipn n buf1 in
          if is_nil buf' then (x1, c, done' ++ buf', Ok true)
          else fill_loop fuel' x1 c f done' buf'
      end
    | CRgba =>
      let size := (length buf / 4)%nat in
      if (size =? 0)%nat then (x, c, done ++ buf, Err (DFormat OddSizedBuffer))
      else
        let scratch := if (length (cv_buffer c) <? size)%nat then grow (cv_buffer c) size
                       else cv_buffer c in
        let '(x1, ob, r) := cb x (OSlice (firstn size scratch)) in
        let scratch1 := obuf_bytes ob ++ skipn size scratch in
        let c1 := with_cbuf c scratch1 in
        match r with
        | Err e => (x1, c1, done ++ buf, Err e)
        | Panic => (x1, c1, done ++ buf, Panic)
        | Hang => (x1, c1, done ++ buf, Hang)
        | Ok O => (x1, c1, done ++ buf, Ok false)
        | Ok n =>
          if (length buf <? n * 4)%nat then (x1, c1, done ++ buf, Panic)
          else
            let pixels := expand (effective_palette c1 f) (f_transparent f)
                            (firstn n scratch1) (firstn (n * 4) buf) in
            let done' := done ++ pixels in
            let buf' := skipn (n * 4) buf in
            if is_nil buf' then (x1, c1, done' ++ buf', Ok true)
            else fill_loop fuel' x1 c1 f done' buf'
        end
    end
  end.

Definition conv_fill_buffer (x : St) (c : conv) (f : frame) (buf : list N)
  : St * conv * list N * dres bool := fill_loop (S (length buf)) x c f [] buf.

(** src/reader/converter.rs 188-213 [InterlaceIterator]: one call of [next]. The [while] loop runs
    at most 4 times because [pass] grows; [get(..)?] returns [None] beyond the tables, where the [debug_assert!] of line
    206 would panic first ([C23_total]: that does not happen). *)
Record iliter := mk_il { il_len : nat; il_next : nat; il_pass : nat }.
Fixpoint il_while (fuel : nat) (len next pass : nat) : option (nat * nat) :=
  if (len <=? next)%nat then
    match fuel with
    | O => None
    | S fuel' =>
      match nth_error [4; 2; 1; 0]%nat pass with
      | None => None
      | Some n => il_while fuel' len n (S pass)
      end
    end
  else Some (next, pass).
Definition il_step (it : iliter) : option (nat * iliter) :=
  if (il_len it =? 0)%nat then None
  else
    match nth_error [8; 8; 4; 2]%nat (il_pass it) with
    | None => None
    | Some inc =>
      match il_while 5 (il_len it) (il_next it + inc) (il_pass it) with
      | None => None
      | Some (n, p) => Some (il_next it, mk_il (il_len it) n p)
      end
    end.
(** The rows visited by the [for] loop, in order (the iterator depends on nothing else). One turn more than there are
    rows is allowed for; [C23_order] shows that more turns change nothing. *)
Fixpoint il_collect (fuel : nat) (it : iliter) : list nat :=
  match fuel with
  | O => []
  | S fuel' =>
    match il_step it with
    | None => []
    | Some (r, it') => r :: il_collect fuel' it'
    end
  end.
Definition interlace_rows (h : N) : list nat :=
  il_collect (S (N.to_nat h)) (mk_il (N.to_nat h) 0 0).

(** src/reader/converter.rs 167-176: the loop over the rows of an interlaced frame. *)
Fixpoint read_rows (rows : list nat) (x : St) (c : conv) (f : frame) (buf : list N)
  : St * conv * list N * dres unit :=
  match rows with
  | [] => (x, c, buf, Ok tt)
  | row :: rows' =>
    let width := line_length c f in
    let start := N.of_nat row * width in
    if umax <? start then (x, c, buf, Panic)                  (* checked arithmetic *)
    else if (start <=? len buf) && (start + width <=? len buf) then
      let st := N.to_nat start in
      let w := N.to_nat width in
      let '(x1, c1, line, r) := conv_fill_buffer x c f (firstn w (skipn st buf)) in
      let buf1 := firstn st buf ++ line ++ skipn w (skipn st buf) in
      match r with
      | Err e => (x1, c1, buf1, Err e)
      | Panic => (x1, c1, buf1, Panic)
      | Hang => (x1, c1, buf1, Hang)
      | Ok false => (x1, c1, buf1, Err (DFormat ImageTruncated))
      | Ok true => read_rows rows' x1 c1 f buf1
      end
    else (x, c, buf, Err (DFormat BufferTooSmall))
  end.

(** src/reader/converter.rs 164-185 [read_into_buffer]. *)
Definition conv_read_into_buffer (x : St) (c : conv) (f : frame) (buf : list N)
  : St * conv * list N * dres unit :=
  if f_interlaced f then read_rows (interlace_rows (f_height f)) x c f buf
  else
    match buffer_size c f with
    | None => (x, c, buf, Err (DFormat BufferTooSmall))
    | Some n =>
      if n <=? len buf then
        let n' := N.to_nat n in
        let '(x1, c1, b, r) := conv_fill_buffer x c f (firstn n' buf) in
        let buf1 := b ++ skipn n' buf in
        match r with
        | Err e => (x1, c1, buf1, Err e)
        | Panic => (x1, c1, buf1, Panic)
        | Hang => (x1, c1, buf1, Hang)
        | Ok false => (x1, c1, buf1, Err (DFormat ImageTruncated))
        | Ok true => (x1, c1, buf1, Ok tt)
        end
      else (x, c, buf, Err (DFormat BufferTooSmall))
    end.

(** src/reader/converter.rs 59-74 [read_frame]: returns the frame as left in place. The old
    buffer is always empty when this is reached (lemma [next_frame_info_returns]), so that both
    ways of making [vec] give [pixel_bytes] zeroes. [vec![0; n]] panics when [n] exceeds
    [isize::MAX]. *)
Definition conv_read_frame (x : St) (c : conv) (f : frame) : St * conv * frame * dres unit :=
  match check_buffer_size c f with
  | Ok n =>
    let f1 := set_buffer f [] in
    if umax / 2 <? n then (x, c, f1, Panic)                   (* vec!: capacity overflow *)
    else
    let n' := N.to_nat n in
    let vec := grow (firstn n' (f_buffer f)) n' in
    let '(x1, c1, b, r) := conv_read_into_buffer x c f1 vec in
    match r with
    | Ok _ => (x1, c1, set_interlaced (set_buffer f1 b) false, Ok tt)
    | Err e => (x1, c1, f1, Err e)
    | Panic => (x1, c1, f1, Panic)
    | Hang => (x1, c1, f1, Hang)
    end
  | Err e => (x, c, f, Err e)
  | Panic => (x, c, f, Panic)
  | Hang => (x, c, f, Hang)
  end.

End Callback.
End Conv.
