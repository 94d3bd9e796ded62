(** What the bytes of a file have to be for each error of the reader. Nothing here mentions a function of the model. *)
From Verif Require Import Base Common Lzw Encoder Stream SpecGif SpecAccept.
Open Scope N_scope.

(** A header and blocks without fault, as the reader takes them. *)
Definition front_ok (o : options) (g : gif) (bs : list blk) : Prop :=
  head_ok g /\ Forall (blk_acc false o g) bs /\ unknown_acc o 0 0 bs.
Definition front (g : gif) (bs : list blk) : list N := ser_head g ++ ser_blocks bs.

(** Label and number of stored bytes (with the first size byte) of the last extension, to which unknown blocks add. *)
Fixpoint last_ext (l n : N) (bs : list blk) : N * N :=
  match bs with
  | [] => (l, n)
  | BExt l' subs :: bs' => last_ext l' (1 + N.of_nat (length (payload subs))) bs'
  | BImg _ :: bs' => last_ext l n bs'
  | BUnk _ subs :: bs' => last_ext l (n + N.of_nat (length (payload subs))) bs'
  end.
Definition other_block (t : N) : Prop := t <> 0x2C /\ t <> 0x21 /\ t <> 0x3B.

(** The beginning of an extension or of an unknown block: its bytes, the label in force and what is stored already. *)
Inductive opens (o : options) (bs : list blk) : list N -> N -> N -> Prop :=
| op_ext l : known_label l -> opens o bs [0x21; l] l 1
| op_unk t : other_block t -> o_allow_unknown_blocks o = true ->
    opens o bs [t] (fst (last_ext 0 0 bs)) (snd (last_ext 0 0 bs)).

(** Data blocks [subs], then the size byte of one more block and its bytes [b] (maybe not all of them). *)
Definition data_part (subs : list (list N)) (n : nat) (b : list N) : list N :=
  concat (map ser_sub subs) ++ N.of_nat n :: b.
Definition begun_data_ok (subs : list (list N)) (n : nat) (b : list N) : Prop :=
  Forall block_ok subs /\ Forall (fun b => b <> []) (tl subs) /\ (subs <> [] -> (0 < n)%nat) /\ (length b <= n < 256)%nat.

(** An image up to and with its code size. *)
Definition image_head (i : img) : list N :=
  0x2C :: word (im_left i) ++ word (im_top i) ++ word (im_w i) ++ word (im_h i) ++ [im_flags i] ++ im_lct i ++ [im_mcs i].
Definition in_image_data (o : options) (file : list N) : Prop :=
  exists g bs i subs n b r, front_ok o g bs /\ img_acc false o g i /\ begun_data_ok subs n b /\
    file = front g bs ++ image_head i ++ data_part subs n b ++ r.

(** A piece [p] of the data that does not fit behind [v], the bytes copied so far. *)
Definition bad_copy (o : options) (file v : list N) : Prop :=
  exists g bs i subs n b p r, front_ok o g bs /\ img_acc false o g i /\ begun_data_ok subs n (b ++ p) /\
    file = front g bs ++ image_head i ++ data_part subs n (b ++ p) ++ r /\ ~ fits (o_limit o) (N.of_nat (length v + length p)).

(** No signature. *)
Definition bad_signature (file : list N) : Prop :=
  (6 <= length file)%nat /\ firstn 6 file <> signature true /\ firstn 6 file <> signature false.
(** An image that is not inside the screen, when that is to be checked. *)
Definition bad_bounds (o : options) (file : list N) : Prop :=
  o_check_frame_consistency o = true /\
  exists g bs l t w h fl r, front_ok o g bs /\ u16_ok l /\ u16_ok t /\ u16_ok w /\ u16_ok h /\
    file = front g bs ++ 0x2C :: word l ++ word t ++ word w ++ word h ++ fl :: r /\ (g_w g < l + w \/ g_h g < t + h).
(** An extension with an unknown label, or an unknown block when these are not allowed. *)
Definition bad_block (o : options) (file : list N) : Prop :=
  exists g bs r, front_ok o g bs /\
    ((exists l, ~ known_label l /\ file = front g bs ++ 0x21 :: l :: r) \/
     (exists t, other_block t /\ o_allow_unknown_blocks o = false /\ file = front g bs ++ t :: r)).
(** More data than the memory limit allows in an extension or an unknown block. *)
Definition bad_extension_size (o : options) (file : list N) : Prop :=
  exists g bs a l k subs n b r, front_ok o g bs /\ opens o bs a l k /\ begun_data_ok subs n b /\ b <> [] /\
    file = front g bs ++ a ++ data_part subs n b ++ r /\ ~ fits (o_limit o) (k + N.of_nat (length (payload subs ++ b))).
(** A complete control extension whose data are not four bytes, or an unknown block behind one that adds data to it. *)
Definition bad_control (o : options) (file : list N) : Prop :=
  exists g bs a k subs r, front_ok o g bs /\ opens o bs a 0xF9 k /\ loose_subs subs /\
    file = front g bs ++ a ++ ser_subs subs ++ r /\ k + N.of_nat (length (payload subs)) <> 5.
Definition bad_code_size (o : options) (file : list N) : Prop :=
  exists g bs i r, front_ok o g bs /\ img_head o g i /\ table_ok (im_flags i) (im_lct i) /\ ~ (1 <= im_mcs i <= 11) /\
    file = front g bs ++ image_head i ++ r.

(** The reason of an error [e] of a call with destination [ob]; without a reason there must be no such error. *)
Definition blame (o : options) (file : list N) (ob : obuf) (e : derr) : Prop :=
  match e with
  | DFormat MalformedHeader => bad_signature file
  | DFormat FrameOutOfBounds => bad_bounds o file
  | DFormat UnknownBlockType => bad_block o file
  | DFormat MemoryLimitReached =>
    bad_extension_size o file \/
    (exists v, ob = OVec v /\ o_skip_frame_decoding o = true /\ bad_copy o file v)
  | DFormat ControlWrongLength => bad_control o file
  | DFormat InvalidMinimalCodeSize => bad_code_size o file
  | DIo InvalidData => (forall v, ob <> OVec v) /\ o_skip_frame_decoding o = false /\ in_image_data o file
  | DIo Unsupported => (exists v, ob = OVec v) /\ o_skip_frame_decoding o = false /\ in_image_data o file
  | _ => False
  end.

(** An image without a colour table of its own in a file without a global one. *)
Definition bad_colors (o : options) (file : list N) : Prop :=
  exists g bs i r, front_ok o g bs /\ img_head o g i /\ table_ok (im_flags i) (im_lct i) /\ 1 <= im_mcs i <= 11 /\
    has_table (im_flags i) = false /\ has_table (g_flags g) = false /\ file = front g bs ++ image_head i ++ r.

(** More data than the memory limit allows, with the code size in front of them, in an image whose data are copied. *)
Definition bad_image_size (o : options) (file : list N) : Prop :=
  exists g bs i subs n b r, front_ok o g bs /\ img_acc false o g i /\ begun_data_ok subs n b /\ b <> [] /\
    file = front g bs ++ image_head i ++ data_part subs n b ++ r /\ ~ fits (o_limit o) (1 + N.of_nat (length (payload subs ++ b))).
(** An image with all of its data. *)
Definition ended_image (o : options) (file : list N) : Prop :=
  exists g bs i subs r, front_ok o g bs /\ img_acc false o g i /\ loose_subs subs /\
    file = front g bs ++ image_head i ++ ser_subs subs ++ r.
(** The reason of a format error of [read_next_frame]: one of the search for the image, or one of its data. *)
Definition frame_blame (o : options) (file : list N) (m : dfmt) : Prop :=
  blame o file ONone (DFormat m) \/
  m = NoColorTable /\ bad_colors o file \/
  m = MemoryLimitReached /\ o_skip_frame_decoding o = true /\ bad_image_size o file \/
  o_skip_frame_decoding o = false /\ (m = ImageTruncated /\ ended_image o file \/ m = OddSizedBuffer /\ o_color o = CRgba).

(** The same for a call with a buffer of the caller, which may be too small or come at a time when there are no pixels. *)
Definition buffer_blame (o : options) (file : list N) (m : dfmt) : Prop :=
  blame o file ONone (DFormat m) \/ m = UnexpectedDataMsg \/ m = OddSizedBuffer /\ o_color o = CRgba.
