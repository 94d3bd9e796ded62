(** What reading all frames of a file gives, whatever bytes are in the image data: stated from the images and the pixels
    in their data alone. *)
From Verif Require Import Base Common Lzw LzwErrs Encoder Stream Converter Reader SpecGif SpecPixels DocRead DocAll.
Open Scope N_scope.

(** The data of the image stand for the pixels [out]; with [bad], an invalid code comes after them. *)
Definition data_for {L} {S : lzw_spec L} (Z : lzw_errs S) (ci : ctl * img) (ob : list N * bool) : Prop :=
  let i := snd ci in
  if snd ob then lz_fails Z (lz_new L (im_mcs i)) (payload (im_subs i)) (fst ob)
  else lz_pending S (lz_new L (im_mcs i)) (payload (im_subs i)) (fst ob).

Section R.
Variable umax : N.
Variable o : options.
Variable g : gif.

(** The picture does not fit into the memory limit, or into memory at all. *)
Definition too_large (i : img) : bool :=
  (umax <? N.of_nat (frame_bytes o i)) || match o_limit o with Some l => l <? N.of_nat (frame_bytes o i) | None => false end.
(** An image without rows; other images without pixels are refused. *)
Definition rowless_img (i : img) : Prop := is_interlaced (im_flags i) = true /\ im_h i = 0.

(** There are enough pixels. *)
Definition shows (i : img) (out : list N) : Prop :=
  too_large i = false /\ (im_pixels i <= length out)%nat /\ (im_pixels i = 0%nat -> rowless_img i).
(** Why an image is refused. *)
Definition refused (i : img) (out : list N) (bad : bool) (e : derr) : Prop :=
  if too_large i then e = DIo OutOfMemory
  else if (im_pixels i =? 0)%nat then ~ rowless_img i /\ (o_color o = CRgba -> e = DFormat OddSizedBuffer)
  else if bad then (length out <= im_pixels i)%nat /\ e = DIo InvalidData
  else (length out < im_pixels i)%nat /\ e = DFormat ImageTruncated.

(** [reading last l obs fs y]: of the images [l], whose data are described by [obs], the frames [fs] are delivered; then [y] is
    returned, which is [last] behind the last image. *)
Inductive reading (last : dres bool) : list (ctl * img) -> list (list N * bool) -> list frame -> dres bool -> Prop :=
| rg_end : reading last [] [] [] last
| rg_frame ci l out bad obs fs y : shows (snd ci) out -> reading last l obs fs y ->
    reading last (ci :: l) ((out, bad) :: obs) (seen o g ci out :: fs) y
| rg_refused ci l out bad obs e : refused (snd ci) out bad e -> reading last (ci :: l) ((out, bad) :: obs) [] (Err e)
(** The invalid code comes right after the last pixel: it may be noticed when the rest of the data is skipped. *)
| rg_late ci l out obs : shows (snd ci) out -> length out = im_pixels (snd ci) ->
    reading last (ci :: l) ((out, true) :: obs) [seen o g ci out] (Err (DIo InvalidData)).

(** Compressed data are held against the limit together with the code size in front of them, if there are any. *)
Definition has_room (i : img) : bool :=
  match payload (im_subs i), o_limit o with
  | [], _ | _, None => true
  | p, Some l => 1 + len p <=? l
  end.
Fixpoint raw_told (l : list (ctl * img)) : list frame * dres bool :=
  match l with
  | [] => ([], Ok false)
  | ci :: l' => if has_room (snd ci) then (raw_seen ci :: fst (raw_told l'), snd (raw_told l')) else ([], Err (DFormat MemoryLimitReached))
  end.
End R.

(** What is left unread: in a file without blocks the byte behind the trailer is taken as well. *)
Definition unread_tail (g : gif) (tl : list N) : list N := match g_blocks g with [] => List.tl tl | _ => tl end.
