(** What a GIF file is and what it denotes, after the GIF89a specification. This file only uses the
    data types of the model (frames, options, results), none of its functions. *)
From Verif Require Import Base Common Lzw Encoder Stream.
Open Scope N_scope.

(** ** Syntax *)

(** An image: descriptor, local colour table, minimum code size and the contents of its data
    sub-blocks. *)
Record img := mk_img {
  im_left : N; im_top : N; im_w : N; im_h : N; im_flags : N;
  im_lct : list N; im_mcs : N; im_subs : list (list N)
}.
(** [BUnk] is a block that the specification does not know; readers may be asked to skip it. *)
Inductive blk := BExt (label : N) (subs : list (list N)) | BImg (i : img) | BUnk (introducer : N) (subs : list (list N)).
Record gif := mk_gif {
  g_89a : bool; g_w : N; g_h : N; g_flags : N; g_bg : N; g_aspect : N;
  g_gct : list N; g_blocks : list blk
}.

Definition word (n : N) : list N := [n mod 256; n / 256].
Definition ser_sub (b : list N) : list N := N.of_nat (length b) :: b.
Definition ser_subs (subs : list (list N)) : list N := concat (map ser_sub subs) ++ [0].
Definition ser_img (i : img) : list N :=
  0x2C :: word (im_left i) ++ word (im_top i) ++ word (im_w i) ++ word (im_h i) ++ [im_flags i]
  ++ im_lct i ++ im_mcs i :: ser_subs (im_subs i).
Definition ser_blk (b : blk) : list N :=
  match b with BExt l subs => 0x21 :: l :: ser_subs subs | BImg i => ser_img i | BUnk t subs => t :: ser_subs subs end.
Definition ser_blocks (bs : list blk) : list N := concat (map ser_blk bs).
Definition signature (v89a : bool) : list N :=
  if v89a then [71; 73; 70; 56; 57; 97] else [71; 73; 70; 56; 55; 97].
Definition ser_head (g : gif) : list N :=
  signature (g_89a g) ++ word (g_w g) ++ word (g_h g) ++ [g_flags g; g_bg g; g_aspect g] ++ g_gct g.
(** The file, followed by [tl]. *)
Definition ser_gif (g : gif) (tl : list N) : list N :=
  ser_head g ++ ser_blocks (g_blocks g) ++ 0x3B :: tl.

(** ** Well-formedness *)

Definition has_table (flags : N) : bool := N.testbit flags 7.
Definition is_interlaced (flags : N) : bool := N.testbit flags 6.
(** Number of colours announced by a packed field. *)
Definition table_colors (flags : N) : N := 2 ^ (flags mod 8 + 1).
Definition table_ok (flags : N) (t : list N) : Prop :=
  bytes_ok t /\ N.of_nat (length t) = (if has_table flags then 3 * table_colors flags else 0).
(** At least one sub-block, none of them empty (an empty one would be the terminator). *)
Definition subs_ok (subs : list (list N)) : Prop :=
  subs <> [] /\ Forall (fun b => (0 < length b < 256)%nat /\ bytes_ok b) subs.

Definition payload (subs : list (list N)) : list N := concat subs.
Definition known_label (l : N) : Prop := l = 0x01 \/ l = 0xF9 \/ l = 0xFE \/ l = 0xFF.

(** Requirements that depend on the options of the reader: extension data are stored with the first
    sub-block's size byte and must fit the memory limit; frames must lie on the screen if that is
    checked. *)
Definition fits (lim : memory_limit) (n : N) : Prop := match lim with None => True | Some l => n <= l end.
Definition ext_ok (o : options) (l : N) (subs : list (list N)) : Prop :=
  known_label l /\ subs_ok subs /\ (l = 0xF9 -> length (payload subs) = 4%nat) /\
  fits (o_limit o) (1 + N.of_nat (length (payload subs))).
Definition img_ok (o : options) (g : gif) (i : img) : Prop :=
  u16_ok (im_left i) /\ u16_ok (im_top i) /\ u16_ok (im_w i) /\ u16_ok (im_h i) /\
  byte_ok (im_flags i) /\ table_ok (im_flags i) (im_lct i) /\ 1 <= im_mcs i <= 11 /\
  subs_ok (im_subs i) /\
  (o_check_frame_consistency o = true ->
     im_left i + im_w i <= g_w g /\ im_top i + im_h i <= g_h g) /\
  (has_table (im_flags i) = true \/ has_table (g_flags g) = true).
Definition blk_ok (o : options) (g : gif) (b : blk) : Prop :=
  match b with
  | BExt l subs => ext_ok o l subs
  | BImg i => img_ok o g i
  | BUnk t subs => byte_ok t /\ t <> 0x2C /\ t <> 0x21 /\ t <> 0x3B /\ subs_ok subs /\ o_allow_unknown_blocks o = true
  end.
(** The reader takes an unknown block for a continuation of the last extension before it ([l] is the label of
    that one, 0 if there is none, and [n] the number of bytes stored): it must not be a control extension,
    and all the data must fit the memory limit. *)
Fixpoint unknown_ok (o : options) (l n : N) (bs : list blk) : Prop :=
  match bs with
  | [] => True
  | BExt l' subs :: bs' => unknown_ok o l' (1 + N.of_nat (length (payload subs))) bs'
  | BImg _ :: bs' => unknown_ok o l n bs'
  | BUnk _ subs :: bs' =>
    let n' := n + N.of_nat (length (payload subs)) in l <> 0xF9 /\ fits (o_limit o) n' /\ unknown_ok o l n' bs'
  end.
Definition gif_ok (o : options) (g : gif) : Prop :=
  u16_ok (g_w g) /\ u16_ok (g_h g) /\ byte_ok (g_flags g) /\ byte_ok (g_bg g) /\ byte_ok (g_aspect g) /\
  table_ok (g_flags g) (g_gct g) /\ g_blocks g <> [] /\ Forall (blk_ok o g) (g_blocks g) /\
  unknown_ok o 0 0 (g_blocks g).
(** The same for the beginning of a file, which may consist of the header alone. *)
Definition part_ok (o : options) (g : gif) : Prop :=
  u16_ok (g_w g) /\ u16_ok (g_h g) /\ byte_ok (g_flags g) /\ byte_ok (g_bg g) /\ byte_ok (g_aspect g) /\
  table_ok (g_flags g) (g_gct g) /\ Forall (blk_ok o g) (g_blocks g) /\ unknown_ok o 0 0 (g_blocks g).
Lemma gif_part_ok o g : gif_ok o g -> part_ok o g.
Proof. unfold gif_ok, part_ok. tauto. Qed.

(** ** Meaning *)

(** Graphic control extension: packed field, delay (two bytes), transparent index. *)
Record ctl := mk_ctl { c_delay : N; c_dispose : disposal; c_transparent : option N; c_input : bool }.
Definition ctl_none : ctl := mk_ctl 0 DKeep None false.
Definition ctl_of (p : list N) : ctl :=
  let flags := nth 0 p 0 in
  mk_ctl (nth 1 p 0 + 256 * nth 2 p 0)
    (match (flags / 4) mod 8 with 1 => DKeep | 2 => DBackground | 3 => DPrevious | _ => DAny end)
    (if N.odd flags then Some (nth 3 p 0) else None)
    (N.odd (flags / 2)).

(** The images of a block sequence with the control data in force: the last control extension
    since the previous image. *)
Fixpoint controlled (c : ctl) (bs : list blk) : list (ctl * img) :=
  match bs with
  | [] => []
  | BExt l subs :: bs' => controlled (if l =? 0xF9 then ctl_of (payload subs) else c) bs'
  | BImg i :: bs' => (c, i) :: controlled ctl_none bs'
  | BUnk _ _ :: bs' => controlled c bs'
  end.
Definition gif_images (g : gif) : list (ctl * img) := controlled ctl_none (g_blocks g).

(** Frame metadata of an image. *)
Definition meta_frame (c : ctl) (i : img) (interlaced : bool) (buf : list N) : frame :=
  mk_frame (c_delay c) (c_dispose c) (c_transparent c) (c_input c)
    (im_top i) (im_left i) (im_w i) (im_h i) interlaced
    (if has_table (im_flags i) then Some (im_lct i) else None) buf.

(** The looping extension: application extension "NETSCAPE2.0", then 1 and the count. *)
Definition loop_of (p : list N) : option repeat_t :=
  if list_eqb (firstn 12 p) [78; 69; 84; 83; 67; 65; 80; 69; 50; 46; 48; 1] && (14 <=? length p)%nat
  then let n := nth 12 p 0 + 256 * nth 13 p 0 in Some (if n =? 0 then RInfinite else RFinite n)
  else None.
(** The last one before the first block that is not an extension counts. *)
Fixpoint loops (r : repeat_t) (bs : list blk) : repeat_t :=
  match bs with
  | BExt l subs :: bs' =>
    loops (match (if l =? 0xFF then loop_of (payload subs) else None) with Some n => n | None => r end) bs'
  | _ => r
  end.
Definition gif_repeat (g : gif) : repeat_t := loops (RFinite 0) (g_blocks g).

(** Global palette and background colour as reported by the reader. *)
Definition gif_palette (g : gif) : option (list N) := if has_table (g_flags g) then Some (g_gct g) else None.
Definition gif_bg (g : gif) : option N :=
  if has_table (g_flags g) then (if g_bg g <? table_colors (g_flags g) then Some (g_bg g) else None)
  else Some (g_bg g).
