(** Which byte strings are files for the reader: the grammar of [SpecGif] with the liberties that the reader takes. Nothing
    here mentions a function of the model. The liberties, each allowed by one line below:
    - the first data block of an extension, an image or an unknown block may be empty; it does not end the data then
      (GIF89a says that it does);
    - an unknown block without data may follow a control extension, and extension data are held against the memory limit
      only when there are any;
    - there may be no blocks at all.
    Colour tables are demanded only where [tables] says so: the streaming decoder does not look at them. *)
From Verif Require Import Base Common Lzw Encoder Stream SpecGif.
Open Scope N_scope.

Definition block_ok (b : list N) : Prop := (length b < 256)%nat /\ bytes_ok b.
Definition loose_subs (subs : list (list N)) : Prop :=
  subs <> [] /\ Forall block_ok subs /\ Forall (fun b => b <> []) (tl subs).

Definition img_head (o : options) (g : gif) (i : img) : Prop :=
  u16_ok (im_left i) /\ u16_ok (im_top i) /\ u16_ok (im_w i) /\ u16_ok (im_h i) /\ byte_ok (im_flags i) /\
  (o_check_frame_consistency o = true -> im_left i + im_w i <= g_w g /\ im_top i + im_h i <= g_h g).
Definition img_acc (tables : bool) (o : options) (g : gif) (i : img) : Prop :=
  img_head o g i /\ table_ok (im_flags i) (im_lct i) /\ 1 <= im_mcs i <= 11 /\
  (tables = true -> has_table (im_flags i) = true \/ has_table (g_flags g) = true).
Definition blk_acc (tables : bool) (o : options) (g : gif) (b : blk) : Prop :=
  match b with
  | BExt l subs =>
    known_label l /\ loose_subs subs /\ (l = 0xF9 -> length (payload subs) = 4%nat) /\
    (payload subs <> [] -> fits (o_limit o) (1 + N.of_nat (length (payload subs))))
  | BImg i => img_acc tables o g i /\ loose_subs (im_subs i)
  | BUnk t subs =>
    byte_ok t /\ t <> 0x2C /\ t <> 0x21 /\ t <> 0x3B /\ loose_subs subs /\ o_allow_unknown_blocks o = true
  end.
(** As in [unknown_ok], [l] and [n] are the label and the number of stored bytes of the last extension. *)
Fixpoint unknown_acc (o : options) (l n : N) (bs : list blk) : Prop :=
  match bs with
  | [] => True
  | BExt l' subs :: bs' => unknown_acc o l' (1 + N.of_nat (length (payload subs))) bs'
  | BImg _ :: bs' => unknown_acc o l n bs'
  | BUnk _ subs :: bs' =>
    let n' := n + N.of_nat (length (payload subs)) in
    (l = 0xF9 -> payload subs = []) /\ (payload subs <> [] -> fits (o_limit o) n') /\ unknown_acc o l n' bs'
  end.
Definition head_ok (g : gif) : Prop :=
  u16_ok (g_w g) /\ u16_ok (g_h g) /\ byte_ok (g_flags g) /\ byte_ok (g_bg g) /\ byte_ok (g_aspect g) /\
  table_ok (g_flags g) (g_gct g).
Definition gif_acc (tables : bool) (o : options) (g : gif) : Prop :=
  head_ok g /\ Forall (blk_acc tables o g) (g_blocks g) /\ unknown_acc o 0 0 (g_blocks g).

(** The whole input. The first block, or else the trailer, is looked at only when more input follows it; so a file without
    blocks is not taken without trailing bytes. *)
Definition file_acc (tables : bool) (o : options) (g : gif) (tl : list N) : Prop :=
  gif_acc tables o g /\ (g_blocks g = [] -> tl <> []).

(** [taken L o file s rest evs]: a new decoder was given pieces from the front of [file], with any destinations, all calls
    succeeded and reported [evs]; the decoder is now [s] and [rest] is not consumed yet. *)
Inductive taken (L : lzw_codec) (o : options) (file : list N) : sd L -> list N -> list decoded -> Prop :=
| tk_new : taken L o file (sd_new L o) file []
| tk_ok s buf tl ob s' ob' n d evs :
    taken L o file s (buf ++ tl) evs -> update L s buf ob = (s', ob', Ok (n, d)) ->
    taken L o file s' (skipn n buf ++ tl) (evs ++ [d]).

(** The same without a destination for pixels; [fs] are the values of [current_frame] at the [FrameMetadata] events. *)
Inductive skimmed (L : lzw_codec) (o : options) (file : list N) : sd L -> list N -> list decoded -> list frame -> Prop :=
| sk_new : skimmed L o file (sd_new L o) file [] []
| sk_ok s buf tl s' ob' n d evs fs :
    skimmed L o file s (buf ++ tl) evs fs -> update L s buf ONone = (s', ob', Ok (n, d)) ->
    skimmed L o file s' (skipn n buf ++ tl) (evs ++ [d])
      (fs ++ match d, sd_current L s' with DFrameMetadata _, Some f => [f] | _, _ => [] end).

(** What [version], [width] and [height] have to say about a file: the fifth byte is the 7 or 9 of the version, then come
    two bytes each for width and height. *)
Definition head_told (L : lzw_codec) (file : list N) (s : sd L) : Prop :=
  sd_version L s = (if N.eqb (nth 4 file 0) 0x39 then V89a else V87a) /\
  sd_width L s = nth 6 file 0 + 256 * nth 7 file 0 /\ sd_height L s = nth 8 file 0 + 256 * nth 9 file 0.

(** No use is made of the liberties. *)
Definition blk_regular (b : blk) : Prop :=
  match b with BExt _ subs | BUnk _ subs => hd [] subs <> [] | BImg i => hd [] (im_subs i) <> [] end.
Fixpoint unknown_regular (l : N) (bs : list blk) : Prop :=
  match bs with
  | [] => True
  | BExt l' _ :: bs' => unknown_regular l' bs'
  | BImg _ :: bs' => unknown_regular l bs'
  | BUnk _ _ :: bs' => l <> 0xF9 /\ unknown_regular l bs'
  end.
Definition regular (g : gif) : Prop :=
  g_blocks g <> [] /\ Forall blk_regular (g_blocks g) /\ unknown_regular 0 (g_blocks g).

(** An accepted file without liberties is well-formed. *)
Lemma loose_strict subs : loose_subs subs -> hd [] subs <> [] -> subs_ok subs.
Proof.
  intros (Hn & Hb & Ht) Hh. split; [exact Hn|]. destruct subs as [|b subs]; [congruence|]. cbn [hd tl] in *.
  assert (Ha : Forall (fun b => b <> []) (b :: subs)) by (now constructor). clear Hn Hh Ht.
  rewrite Forall_forall in *. intros x Hx. destruct (Hb x Hx) as [H1 H2]. specialize (Ha x Hx).
  split; [|exact H2]. destruct x; [congruence|]. cbn [length] in *. lia.
Qed.
Lemma payload_nonempty subs : subs_ok subs -> payload subs <> [].
Proof.
  intros (Hn & Hb). destruct subs as [|b subs]; [congruence|]. inversion Hb as [|? ? [H _] _]; subst.
  destruct b; [cbn in H; lia|]. discriminate.
Qed.
Lemma unknown_strict o g bs : forall l n, unknown_acc o l n bs -> unknown_regular l bs ->
  Forall (fun b => blk_acc true o g b /\ blk_regular b) bs -> unknown_ok o l n bs.
Proof.
  induction bs as [|b bs IH]; intros l n Hu Hv Hb; [exact I|].
  inversion Hb as [|? ? [Ha Hr] Hb']; subst. destruct b as [l' subs|i|t subs]; cbn [unknown_acc unknown_ok unknown_regular] in *.
  - now apply IH.
  - now apply IH.
  - destruct Hu as (A & B & C). destruct Hv as [D E]. split; [exact D|]. split; [|now apply IH].
    apply B. apply payload_nonempty. cbn [blk_acc blk_regular] in *. now apply loose_strict.
Qed.
Lemma acc_regular_ok o g : gif_acc true o g -> regular g -> gif_ok o g.
Proof.
  intros ((H1 & H2 & H3 & H4 & H5 & H6) & Hb & Hu) (Hn & Hr & Hv). unfold gif_ok.
  repeat (split; [assumption|]). split.
  - rewrite Forall_forall in *. intros b Hin. specialize (Hb b Hin). specialize (Hr b Hin).
    destruct b as [l subs|i|t subs]; cbn [blk_acc blk_ok blk_regular] in *.
    + destruct Hb as (A & B & C & D). pose proof (loose_strict _ B Hr) as Hs. repeat (split; [assumption|]).
      apply D. now apply payload_nonempty.
    + destruct Hb as (((A & B & C & D & E & F) & G & K & M) & N0). unfold img_ok.
      repeat (split; [assumption|]). split; [now apply loose_strict|]. split; [exact F|]. now apply M.
    + destruct Hb as (A & B & C & D & E & F). repeat (split; [assumption|]). split; [now apply loose_strict|exact F].
  - apply (unknown_strict o g); [exact Hu|exact Hv|]. rewrite Forall_forall in *. auto.
Qed.

(** The images with the control data in force, for such files: an unknown block behind a control extension applies that
    one again ([again]). *)
Fixpoint controlled_acc (c : ctl) (again : option ctl) (bs : list blk) : list (ctl * img) :=
  match bs with
  | [] => []
  | BExt l subs :: bs' =>
    if l =? 0xF9 then controlled_acc (ctl_of (payload subs)) (Some (ctl_of (payload subs))) bs'
    else controlled_acc c None bs'
  | BImg i :: bs' => (c, i) :: controlled_acc ctl_none again bs'
  | BUnk _ _ :: bs' => controlled_acc (match again with Some x => x | None => c end) again bs'
  end.
Definition acc_images (g : gif) : list (ctl * img) := controlled_acc ctl_none None (g_blocks g).

(** Without the liberties these are the images in the sense of [SpecGif]. *)
Lemma controlled_regular bs : forall c l x, unknown_regular l bs -> (l <> 0xF9 -> x = None) -> controlled_acc c x bs = controlled c bs.
Proof.
  induction bs as [|b bs IH]; intros c l x Hu Hx; [reflexivity|]. destruct b as [l' subs|i|t subs]; cbn [controlled_acc controlled unknown_regular] in *.
  - destruct (N.eqb_spec l' 0xF9); apply (IH _ l'); try assumption; intros; [contradiction|reflexivity].
  - f_equal. now apply (IH _ l).
  - destruct Hu as [H1 H2]. rewrite (Hx H1). now apply (IH _ l).
Qed.
Lemma acc_images_regular g : regular g -> acc_images g = gif_images g.
Proof. intros (_ & _ & H). now apply (controlled_regular _ _ 0). Qed.
