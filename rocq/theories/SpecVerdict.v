(** What a caller is told about each image of a file, one verdict per image, stated from the image, the size of the
    caller's buffer and the memory limit alone. *)
From Verif Require Import Base Common Lzw Encoder Stream Converter Reader SpecGif SpecPixels DocRead DocAll Mixed.
Open Scope nat_scope.

(** The number of rows, in the order in which they are stored, before the first one that does not lie inside a buffer
    of [n] bytes; a row has [wb] bytes. *)
Fixpoint rows_fit (wb n : nat) (rows : list nat) : nat :=
  match rows with
  | [] => 0
  | r :: rows' => if (r + 1) * wb <=? n then S (rows_fit wb n rows') else 0
  end.

Section V.
Variable umax : N.
Variable o : options.

(** [read_next_frame]; [have] is the number of pixels in the image data. *)
Definition frame_verdict (i : img) (have : nat) : option derr :=
  let size := N.of_nat (frame_bytes o i) in
  if (umax <? size)%N || match o_limit o with Some l => (l <? size)%N | None => false end then Some (DIo OutOfMemory)
  else if have <? im_pixels i then Some (DFormat ImageTruncated)
  else None.

(** [read_into_buffer] with a buffer of [n] bytes: the memory limit does not matter. An interlaced image is read row by
    row, so that the rows that fit are read first. *)
Definition into_verdict (i : img) (have n : nat) : option derr :=
  if is_interlaced (im_flags i) then
    let rows := gif_row_order (N.to_nat (im_h i)) in
    let k := rows_fit (px_bytes (o_color o) * N.to_nat (im_w i)) n rows in
    if have <? k * N.to_nat (im_w i) then Some (DFormat ImageTruncated)
    else if k =? length rows then None else Some (DFormat BufferTooSmall)
  else
    if n <? frame_bytes o i then Some (DFormat BufferTooSmall)
    else if have <? im_pixels i then Some (DFormat ImageTruncated)
    else None.

(** Result of reading image [ci] of the file [g] in the way [m]; [out] are the pixels in its data. *)
Definition told (g : gif) (m : how) (ci : ctl * img) (out : list N) (r : frame * list N * dres bool) : Prop :=
  let '(f, b, x) := r in
  let i := snd ci in
  let over px old := shown_over (o_color o) (pal_of g i) (c_transparent (fst ci)) px old in
  let pb := px_bytes (o_color o) in
  match m with
  | HSkip => x = Ok true /\ f = meta_seen ci
  | HFrame =>
    match frame_verdict i (length out) with
    | None => x = Ok true /\ f = seen o g ci out
    | Some e => x = Err e
    end
  | HInto buf =>
    f = meta_seen ci /\ length b = length buf /\
    match into_verdict i (length out) (length buf) with
    | None => x = Ok true /\ b = over (im_picture i out) buf ++ skipn (frame_bytes o i) buf
    | Some e => x = Err e /\ (is_interlaced (im_flags i) = false -> e = DFormat BufferTooSmall -> b = buf)
    end
  | HPieces bufs =>
    f = meta_seen ci /\
    if length (concat bufs) <=? pb * length out
    then x = Ok true /\ b = over (firstn (length (concat bufs) / pb) out) (concat bufs)
    else x = Ok false /\ pb * length out <= length b /\
         exists rest, b ++ rest = over out (concat bufs) ++ skipn (pb * length out) (concat bufs)
  end.

(** Requests that make sense for image [i]: it has pixels if they are asked for; the size of its buffer can be
    represented; slices are non-empty and hold whole pixels. *)
Definition sensible (m : how) (i : img) : Prop :=
  match m with
  | HSkip => True
  | HFrame => 0 < im_pixels i
  | HInto buf => 0 < im_pixels i /\ (N.of_nat (frame_bytes o i) <= umax)%N /\ (len buf <= umax)%N
  | HPieces bufs => Forall (fun b => exists n, 0 < n /\ length b = px_bytes (o_color o) * n) bufs
  end.
End V.

(** A caller that reads one image after the other in any ways and goes on after every error; then it looks for another
    image. *)
Fixpoint read_each (L : lzw_codec) (umax : N) (d : dcd L) (ms : list how) : dcd L * list (frame * list N * dres bool) * dres bool :=
  match ms with
  | [] => let '(d1, x) := next_frame_info L d in (d1, [], x)
  | m :: ms' =>
    let '(d1, f, b, x) := read_how L umax d m in
    let '(d2, l, y) := read_each L umax d1 ms' in (d2, (f, b, x) :: l, y)
  end.

Section A.
Variable L : lzw_codec.
Variable S : lzw_spec L.
Variable umax : N.
Variable o : options.

(** A sensible request, and the pixels in the data of the image (any data if they are skipped). *)
Definition asked (ci : ctl * img) (mo : how * list N) : Prop :=
  (fst mo <> HSkip -> lz_pending S (lz_new L (im_mcs (snd ci))) (payload (im_subs (snd ci))) (snd mo)) /\ sensible umax o (fst mo) (snd ci).
Definition one_frame (ci : ctl * img) (out : list N) : Prop :=
  lz_pending S (lz_new L (im_mcs (snd ci))) (payload (im_subs (snd ci))) out /\ 0 < im_pixels (snd ci).

(** What the iterator yields: it stops at the first frame that is refused. *)
Fixpoint iter_told (g : gif) (l : list (ctl * img)) (outs : list (list N)) : list item :=
  match l, outs with
  | ci :: l', out :: outs' =>
    match frame_verdict umax o (snd ci) (length out) with
    | None => IFrame (seen o g ci out) :: iter_told g l' outs'
    | Some e => [IErr e]
    end
  | _, _ => []
  end.
End A.
