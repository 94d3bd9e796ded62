(** What the pixels of a frame are, after the GIF89a specification. Uses no function of the model. *)
From Verif Require Import Base Common Lzw Encoder Stream.
Open Scope nat_scope.

(** GIF89a, appendix E: rows 0, 8, 16, ..; then 4, 12, ..; then 2, 6, 10, ..; then the odd ones. *)
Definition gif_row_order (h : nat) : list nat :=
  filter (fun r => r mod 8 =? 0) (seq 0 h) ++
  filter (fun r => r mod 8 =? 4) (seq 0 h) ++
  filter (fun r => r mod 4 =? 2) (seq 0 h) ++
  filter (fun r => r mod 2 =? 1) (seq 0 h).

(** Position of [x] in a list. *)
Fixpoint index_of (x : nat) (l : list nat) : nat :=
  match l with [] => 0 | y :: t => if y =? x then 0 else S (index_of x t) end.

(** Pixel [p] of the picture lies in row [p / w]; that row was stored at its place in the row order. *)
Definition deinterlace (w h : nat) (px : list N) : list N :=
  map (fun p => nth (index_of (p / w) (gif_row_order h) * w + p mod w) px 0%N) (seq 0 (w * h)).

(** The picture denoted by a stream of decoded pixels (possibly longer than needed). *)
Definition picture (w h : nat) (interlaced : bool) (px : list N) : list N :=
  if interlaced then deinterlace w h px else firstn (w * h) px.

(** Colour of an index; [None] outside the palette. *)
Definition rgba_of (pal : list N) (transparent : option N) (idx : N) : option (list N) :=
  let c k := nth (3 * N.to_nat idx + k) pal 0%N in
  if 3 * S (N.to_nat idx) <=? length pal
  then Some [c 0; c 1; c 2; match transparent with Some t => if (t =? idx)%N then 0%N else 255%N | None => 255%N end]
  else None.

(** Colours written over [old]; cells of indices outside the palette are left alone. *)
Definition paint (pal : list N) (transparent : option N) (px old : list N) : list N :=
  flat_map (fun k => match rgba_of pal transparent (nth k px 0%N) with
                     | Some c => c
                     | None => firstn 4 (skipn (4 * k) old)
                     end) (seq 0 (length px)).
Definition shown_over (c : color_output) (pal : list N) (transparent : option N) (px old : list N) : list N :=
  match c with CIndexed => px | CRgba => paint pal transparent px old end.
(** In a fresh frame, such pixels are transparent black. *)
Definition shown (c : color_output) (pal : list N) (transparent : option N) (px : list N) : list N :=
  match c with
  | CIndexed => px
  | CRgba => flat_map (fun i => match rgba_of pal transparent i with Some c => c | None => [0; 0; 0; 0]%N end) px
  end.
Definition px_bytes (c : color_output) : nat := match c with CIndexed => 1 | CRgba => 4 end.
