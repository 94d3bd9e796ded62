(** Damage behind the intact beginning of a GIF file, and how a reader has to report it. Only the data types
    of the model and the file syntax of SpecGif.v are used. *)
From Verif Require Import Base Common Lzw Encoder Stream SpecGif.
Open Scope N_scope.

(** The label of the last extension in [bs]; [l] if there is none. *)
Fixpoint last_label (l : N) (bs : list blk) : N :=
  match bs with
  | [] => l
  | BExt l' _ :: bs' => last_label l' bs'
  | _ :: bs' => last_label l bs'
  end.
(** The number of bytes a reader has stored for it: the size byte, its data and those of unknown blocks. *)
Fixpoint last_size (n : N) (bs : list blk) : N :=
  match bs with
  | [] => n
  | BExt _ subs :: bs' => last_size (1 + N.of_nat (length (payload subs))) bs'
  | BImg _ :: bs' => last_size n bs'
  | BUnk _ subs :: bs' => last_size (n + N.of_nat (length (payload subs))) bs'
  end.

(** The image descriptor, without the introducing byte. *)
Definition descriptor (i : img) : list N :=
  word (im_left i) ++ word (im_top i) ++ word (im_w i) ++ word (im_h i) ++ [im_flags i].
Definition descriptor_ok (i : img) : Prop :=
  u16_ok (im_left i) /\ u16_ok (im_top i) /\ u16_ok (im_w i) /\ u16_ok (im_h i).
Definition inside (g : gif) (i : img) : Prop := im_left i + im_w i <= g_w g /\ im_top i + im_h i <= g_h g.
(** The whole sub-blocks [subs], and of the next one, of size [n], the bytes [b]. *)
Definition begun (subs : list (list N)) (n : N) (b : list N) : list N := concat (map ser_sub subs) ++ n :: b.
Definition begun_ok (subs : list (list N)) (n : N) (b : list N) : Prop :=
  Forall (fun b => (0 < length b < 256)%nat /\ bytes_ok b) subs /\ 0 < n < 256 /\ len b <= n.
Definition not_a_block (t : N) : Prop := t <> 0x2C /\ t <> 0x21 /\ t <> 0x3B.

(** [damage o g tz e]: behind the header and the blocks of [g] come the bytes [tz], which are not the
    beginning of anything a reader with options [o] accepts, for the reason [e]. *)
Inductive damage (o : options) (g : gif) : list N -> derr -> Prop :=
(** A block that the specification does not know. *)
| dmg_block t b r : o_allow_unknown_blocks o = false -> not_a_block t ->
    damage o g (t :: b :: r) (DFormat UnknownBlockType)
(** An extension with a label that the specification does not know; the option above makes no difference. *)
| dmg_label l r : ~ known_label l -> damage o g (0x21 :: l :: r) (DFormat UnknownBlockType)
(** A graphic control extension that does not have four bytes of data. *)
| dmg_control subs r : subs_ok subs -> length (payload subs) <> 4%nat ->
    fits (o_limit o) (1 + N.of_nat (length (payload subs))) ->
    damage o g (0x21 :: 0xF9 :: ser_subs subs ++ r) (DFormat ControlWrongLength)
(** An extension too large for the memory limit. *)
| dmg_memory l subs n b r : known_label l -> begun_ok subs n b ->
    payload subs ++ b <> [] -> ~ fits (o_limit o) (1 + len (payload subs) + len b) ->
    damage o g (0x21 :: l :: begun subs n b ++ r) (DFormat MemoryLimitReached)
(** A tolerated unknown block is taken for more data of the last extension, which may be a control extension
    or become too large. *)
| dmg_tolerated t subs r : o_allow_unknown_blocks o = true -> not_a_block t -> subs_ok subs ->
    last_label 0 (g_blocks g) = 0xF9 ->
    fits (o_limit o) (last_size 0 (g_blocks g) + N.of_nat (length (payload subs))) ->
    damage o g (t :: ser_subs subs ++ r) (DFormat ControlWrongLength)
| dmg_tolerated_memory t subs n b r : o_allow_unknown_blocks o = true -> not_a_block t -> begun_ok subs n b ->
    payload subs ++ b <> [] -> ~ fits (o_limit o) (last_size 0 (g_blocks g) + len (payload subs) + len b) ->
    damage o g (t :: begun subs n b ++ r) (DFormat MemoryLimitReached)
(** An image that does not lie on the screen. *)
| dmg_bounds i r : o_check_frame_consistency o = true -> descriptor_ok i -> ~ inside g i ->
    damage o g (0x2C :: descriptor i ++ r) (DFormat FrameOutOfBounds)
(** An image with an impossible minimum code size. *)
| dmg_code_size i b r : descriptor_ok i -> table_ok (im_flags i) (im_lct i) ->
    (o_check_frame_consistency o = true -> inside g i) -> ~ (1 <= im_mcs i <= 11) ->
    damage o g (0x2C :: descriptor i ++ im_lct i ++ im_mcs i :: b :: r) (DFormat InvalidMinimalCodeSize)
(** An image without any colour table. *)
| dmg_colors i r : descriptor_ok i -> byte_ok (im_flags i) -> table_ok (im_flags i) (im_lct i) ->
    (o_check_frame_consistency o = true -> inside g i) -> 1 <= im_mcs i <= 11 -> subs_ok (im_subs i) ->
    has_table (im_flags i) = false -> has_table (g_flags g) = false ->
    damage o g (ser_img i ++ r) (DFormat NoColorTable)
(** The file ends between two blocks, inside an extension, or inside an image before its data; the minimum code size,
    when it is the last byte, may be a wrong one. *)
| dmg_end : damage o g [] (DIo UnexpectedEof)
| dmg_cut_ext : damage o g [0x21] (DIo UnexpectedEof)
| dmg_cut_label l : known_label l -> damage o g [0x21; l] (DIo UnexpectedEof)
| dmg_cut_data l subs n b : known_label l -> begun_ok subs n b ->
    fits (o_limit o) (1 + len (payload subs) + len b) ->
    damage o g (0x21 :: l :: begun subs n b) (DIo UnexpectedEof)
| dmg_cut_tolerated t subs n b : o_allow_unknown_blocks o = true -> not_a_block t -> begun_ok subs n b ->
    fits (o_limit o) (last_size 0 (g_blocks g) + len (payload subs) + len b) ->
    damage o g (t :: begun subs n b) (DIo UnexpectedEof)
| dmg_cut_image i p q : descriptor_ok i -> table_ok (im_flags i) (im_lct i) ->
    (o_check_frame_consistency o = true -> inside g i) -> p ++ q = 0x2C :: descriptor i ++ im_lct i ++ [im_mcs i] ->
    damage o g p (DIo UnexpectedEof)
(** It ends behind the first byte of a block that the specification does not know. *)
| dmg_cut_block t : not_a_block t -> damage o g [t] (DIo UnexpectedEof).

(** Where the damage is noticed: [read_info] looks no further than the first two bytes of the first block that is not
    an extension. *)
Definition is_extension (b : blk) : Prop := match b with BExt _ _ => True | _ => False end.
Definition noticed_by_read_info (g : gif) (tz : list N) : Prop :=
  Forall is_extension (g_blocks g) /\ ((length tz < 2)%nat \/ nth 0 tz 0 = 0x21).
