(** What the bytes read so far are, for a streaming decoder that has met no error: a header, whole blocks and the beginning
    of one more block, as the grammar of [SpecAccept] says. *)
From Verif Require Import Base Common Lzw Encoder Stream StreamInv Steps Ranges SpecGif SpecAccept DocTrace.
Open Scope N_scope.

Definition with_blocks (g : gif) (bs : list blk) : gif :=
  mk_gif (g_89a g) (g_w g) (g_h g) (g_flags g) (g_bg g) (g_aspect g) (g_gct g) bs.

(** ** A block that has begun *)
Inductive begun := OExt (l : N) | OUnk (t : N) | OImg (i : img).
Definition img_bytes (i : img) : list N :=
  0x2C :: word (im_left i) ++ word (im_top i) ++ word (im_w i) ++ word (im_h i) ++ [im_flags i] ++ im_lct i.
Definition begun_bytes (p : begun) : list N :=
  match p with OExt l => [0x21; l] | OUnk t => [t] | OImg i => img_bytes i ++ [im_mcs i] end.
Definition with_subs (i : img) (subs : list (list N)) : img :=
  mk_img (im_left i) (im_top i) (im_w i) (im_h i) (im_flags i) (im_lct i) (im_mcs i) subs.
Definition finish (p : begun) (subs : list (list N)) : blk :=
  match p with OExt l => BExt l subs | OUnk t => BUnk t subs | OImg i => BImg (with_subs i subs) end.
Definition sub_bytes (subs : list (list N)) : list N := concat (map ser_sub subs).
Lemma finish_bytes p subs : ser_blk (finish p subs) = begun_bytes p ++ sub_bytes subs ++ [0].
Proof.
  destruct p as [l|t|i]; cbn [finish ser_blk begun_bytes]; try reflexivity.
  unfold ser_img, img_bytes. cbn [im_left im_top im_w im_h im_flags im_lct im_mcs im_subs with_subs].
  cbn [app]. rewrite <- !app_assoc. reflexivity.
Qed.
Lemma sub_bytes_snoc subs b : sub_bytes (subs ++ [b]) = sub_bytes subs ++ N.of_nat (length b) :: b.
Proof. unfold sub_bytes. rewrite map_app, concat_app. cbn [map concat]. now rewrite app_nil_r. Qed.
Lemma blocks_snoc bs b : ser_blocks (bs ++ [b]) = ser_blocks bs ++ ser_blk b.
Proof. unfold ser_blocks. rewrite map_app, concat_app. cbn [map concat]. now rewrite app_nil_r. Qed.
Lemma payload_snoc subs b : payload (subs ++ [b]) = payload subs ++ b.
Proof. unfold payload. rewrite concat_app. cbn [concat]. now rewrite app_nil_r. Qed.

(** Whole data blocks, then the beginning [b] of one that lacks [k] bytes. *)
Definition subs_part (subs : list (list N)) (b : list N) (k : nat) : Prop :=
  Forall block_ok subs /\ Forall (fun b => b <> []) (tl subs) /\ (length b + k < 256)%nat /\ bytes_ok b /\
  (subs <> [] -> (0 < length b + k)%nat).
Definition part_bytes (subs : list (list N)) (b : list N) (k : nat) : list N :=
  sub_bytes subs ++ N.of_nat (length b + k) :: b.
Lemma part_whole subs b : subs_part subs b 0 -> loose_subs (subs ++ [b]).
Proof.
  intros (H1 & H2 & H3 & H4 & H5). split; [now destruct subs|]. split.
  - apply Forall_app. split; [exact H1|]. constructor; [|constructor]. split; [lia|exact H4].
  - destruct subs as [|a subs]; cbn [tl app] in *; [constructor|]. apply Forall_app. split; [exact H2|].
    constructor; [|constructor]. intros ->. cbn in H5. specialize (H5 ltac:(discriminate)). lia.
Qed.
Lemma part_next subs b x : subs_part subs b 0 -> byte_ok x -> x <> 0 -> subs_part (subs ++ [b]) [] (N.to_nat x).
Proof.
  intros H Hx Hx0. apply part_whole in H. destruct H as (_ & H1 & H2). unfold byte_ok in Hx.
  split; [exact H1|]. split; [exact H2|]. cbn [length]. split; [lia|]. split; [constructor|]. lia.
Qed.
Lemma part_first x : byte_ok x -> subs_part [] [] (N.to_nat x).
Proof. intros H. unfold byte_ok in H. split; [constructor|]. split; [constructor|]. cbn [length]. split; [lia|]. split; [constructor|congruence]. Qed.
Lemma part_more subs b k n data : subs_part subs b k -> n = Nat.min k (length data) -> bytes_ok data ->
  subs_part subs (b ++ firstn n data) (k - n).
Proof.
  intros (H1 & H2 & H3 & H4 & H5) -> Hd. unfold subs_part. rewrite app_length, firstn_length.
  repeat (split; [assumption|]). split; [lia|]. split; [|intros H; specialize (H5 H); lia].
  apply Forall_app. split; [exact H4|]. now apply bytes_ok_firstn.
Qed.
Lemma part_bytes_more subs b k n data : n = Nat.min k (length data) ->
  part_bytes subs (b ++ firstn n data) (k - n) = part_bytes subs b k ++ firstn n data.
Proof.
  intros ->. unfold part_bytes. rewrite app_length, firstn_length, <- app_assoc. cbn [app]. do 3 f_equal. lia.
Qed.
Lemma part_take subs b k n data : subs_part subs b k -> (n <= k)%nat /\ (n <= length data)%nat -> bytes_ok data ->
  subs_part subs (b ++ firstn n data) (k - n).
Proof.
  intros (H1 & H2 & H3 & H4 & H5) [Hn Hl] Hd. unfold subs_part. rewrite app_length, firstn_length.
  repeat (split; [assumption|]). split; [lia|]. split; [|intros H; specialize (H5 H); lia].
  apply Forall_app. split; [exact H4|]. now apply bytes_ok_firstn.
Qed.
Lemma part_bytes_take subs b k n data : (n <= k)%nat -> (n <= length data)%nat ->
  part_bytes subs (b ++ firstn n data) (k - n) = part_bytes subs b k ++ firstn n data.
Proof.
  intros Hn Hl. unfold part_bytes. rewrite app_length, firstn_length, <- app_assoc. cbn [app]. do 3 f_equal. lia.
Qed.
Lemma part_bytes_whole subs b : part_bytes subs b 0 = sub_bytes (subs ++ [b]).
Proof. unfold part_bytes. now rewrite sub_bytes_snoc, Nat.add_0_r. Qed.

(** Label and number of stored bytes of the last extension. *)
Definition ext_after (x : N * N) (b : blk) : N * N :=
  match b with
  | BExt l subs => (l, 1 + N.of_nat (length (payload subs)))
  | BImg _ => x
  | BUnk _ subs => (fst x, snd x + N.of_nat (length (payload subs)))
  end.
Definition last_of (bs : list blk) : N * N := fold_left ext_after bs (0, 0).
Lemma last_snoc bs b : last_of (bs ++ [b]) = ext_after (last_of bs) b.
Proof. unfold last_of. now rewrite fold_left_app. Qed.
Lemma unknown_snoc o b bs : forall l n, unknown_acc o l n bs ->
  unknown_acc o (fst (fold_left ext_after bs (l, n))) (snd (fold_left ext_after bs (l, n))) [b] -> unknown_acc o l n (bs ++ [b]).
Proof.
  induction bs as [|a bs IH]; intros l n H Hb; [exact Hb|]. cbn [app].
  destruct a as [l' subs|i|t subs]; cbn [unknown_acc fold_left ext_after fst snd] in *.
  - now apply IH.
  - now apply IH.
  - destruct H as (A & B & C). split; [exact A|]. split; [exact B|]. now apply IH.
Qed.

Section Parsed.
Variable L : lzw_codec.
Hypothesis safe : lzw_safe L.
Notation sd := (sd L).
Variable o : options.
(** What is known of the flags of an image whose data have begun. *)
Variable T : N -> Prop.
(** What is known of the code size and the data of an image that is complete; nothing, if the data are only copied. *)
Variable whole : N -> list N -> Prop.
Hypothesis whole_skip : o_skip_frame_decoding o = true -> forall m p, whole m p.
(** What is known of the LZW reader while the data of an image are decoded: code size and data so far. *)
Definition lzw_known : Type := lzw_reader L -> N -> list N -> Prop.
(** It stays known in every call with the output buffer [ob]. *)
Definition keeps (W : lzw_known) (ob : obuf) : Prop :=
  (forall r m p x, lr_has_ended L r || is_none_ob ob = true -> W r m p -> W r m (p ++ x)) /\
  (forall r m p data r1 ob1 c w, lr_has_ended L r || is_none_ob ob = false -> lr_decode_bytes L r data ob = (r1, ob1, Ok (c, w)) ->
     W r m p -> W r1 m (p ++ firstn (if (c =? 0)%nat && (w =? 0)%nat then length data else c) data)) /\
  (forall r m p r1 ob1 c w, lr_decode_bytes L r [] ob = (r1, ob1, Ok (c, w)) -> W r m p -> if (w =? 0)%nat then whole m p else W r1 m p).

Definition acc_img (g : gif) (i : img) : Prop :=
  img_head o g i /\ table_ok (im_flags i) (im_lct i) /\ 1 <= im_mcs i <= 11 /\ T (im_flags i).
Definition acc_blk (g : gif) (b : blk) : Prop :=
  blk_acc false o g b /\ match b with BImg i => T (im_flags i) /\ whole (im_mcs i) (payload (im_subs i)) | _ => True end.
Definition acc_blocks (g : gif) (bs : list blk) : Prop := Forall (acc_blk g) bs /\ unknown_acc o 0 0 bs.

Definition told_head (s : sd) (g : gif) : Prop :=
  sd_version L s = (if g_89a g then V89a else V87a) /\ sd_width L s = g_w g /\ sd_height L s = g_h g.
(** No colour table was read for the frame to come. *)
Definition no_pal (s : sd) : Prop := match sd_current L s with Some f => f_palette f = None | None => True end.
Definition settled (s : sd) (bs : list blk) : Prop := (sd_ext_id L s, len (sd_ext_data L s)) = last_of bs.
(** An extension or unknown block has begun, and [data] of it have been stored. *)
Definition ext_begun (s : sd) (bs : list blk) (p : begun) (data : list N) : Prop :=
  match p with
  | OExt l => sd_ext_id L s = l /\ known_label l /\ len (sd_ext_data L s) = 1 + N.of_nat (length data)
  | OUnk t =>
    sd_ext_id L s = fst (last_of bs) /\ len (sd_ext_data L s) = snd (last_of bs) + N.of_nat (length data) /\
    byte_ok t /\ t <> 0x2C /\ t <> 0x21 /\ t <> 0x3B /\ o_allow_unknown_blocks o = true
  | OImg _ => False
  end /\ (data <> [] -> fits (o_limit o) (len (sd_ext_data L s))).
Definition cur_palette (s : sd) (p : option (list N)) : Prop := exists f, sd_current L s = Some f /\ f_palette f = p.
Definition lct_of (i : img) : option (list N) := if has_table (im_flags i) then Some (im_lct i) else None.

Definition body (W : lzw_known) (g : gif) (bs : list blk) (s : sd) (c rest : list N) : Prop :=
  let base := ser_head g ++ ser_blocks bs in
  match sd_state L s with
  | BlockStart t => settled s bs /\ no_pal s /\
      (c = base ++ [t] /\ byte_ok t /\ (t = 0x3B -> bs = []) \/ t = 0x3B /\ c = base /\ bs <> [] /\ exists r, rest = 0x3B :: r)
  | BlockEnd => settled s bs /\ no_pal s /\ c = base /\ bs <> []
  | ExtensionBlockStart => no_pal s /\ c = base ++ [0x21; sd_ext_id L s] /\ known_label (sd_ext_id L s) /\ sd_ext_data L s = []
  | ExtensionDataBlock k => no_pal s /\ exists p subs b, ext_begun s bs p (payload subs ++ b) /\ subs_part subs b k /\
      c = base ++ begun_bytes p ++ part_bytes subs b k
  | ApplicationExtension => no_pal s /\ exists p subs, ext_begun s bs p (payload subs) /\ sd_ext_id L s = 0xFF /\
      loose_subs subs /\ c = base ++ begun_bytes p ++ sub_bytes subs /\ exists r, rest = 0 :: r
  | ImageBlockStart => settled s bs /\ no_pal s /\ c = base ++ 0x2C :: sd_ibuf L s
  | LocalPalette k => settled s bs /\ exists i, img_head o g i /\ cur_palette s (lct_of i) /\ bytes_ok (im_lct i) /\
      N.of_nat (length (im_lct i) + k) = (if has_table (im_flags i) then 3 * table_colors (im_flags i) else 0) /\
      c = base ++ img_bytes i
  | LzwInit m => settled s bs /\ exists i, img_head o g i /\ cur_palette s (lct_of i) /\ table_ok (im_flags i) (im_lct i) /\
      im_mcs i = m /\ c = base ++ begun_bytes (OImg i)
  | DecodeSubBlock k => settled s bs /\ exists i subs b, acc_img g i /\ subs_part subs b k /\
      W (sd_lzw L s) (im_mcs i) (payload subs ++ b) /\ c = base ++ begun_bytes (OImg i) ++ part_bytes subs b k
  | CopySubBlock k => settled s bs /\ exists i subs b, acc_img g i /\ subs_part subs b k /\ o_skip_frame_decoding o = true /\
      c = base ++ begun_bytes (OImg i) ++ part_bytes subs b k
  | FrameDecoded => settled s bs /\ exists i subs, acc_img g i /\ loose_subs subs /\ whole (im_mcs i) (payload subs) /\
      c = base ++ begun_bytes (OImg i) ++ sub_bytes subs /\ exists r, rest = 0 :: r
  | Trailer => exists tl, c ++ rest = ser_gif (with_blocks g bs) tl /\ (bs = [] -> tl <> [])
  | Magic | ScreenDescriptor | GlobalPalette _ => False
  end.
Definition fresh (s : sd) : Prop := sd_ext_id L s = 0 /\ sd_ext_data L s = [] /\ no_pal s.
Definition parsed (W : lzw_known) (s : sd) (c rest : list N) : Prop :=
  match sd_state L s with
  | Magic => fresh s /\ c = sd_ibuf L s
  | ScreenDescriptor => fresh s /\ exists v, c = signature v ++ sd_ibuf L s /\ sd_version L s = (if v then V89a else V87a)
  | GlobalPalette k => fresh s /\ exists g, told_head s g /\ c = ser_head g /\ g_gct g = sd_gct L s /\
      u16_ok (g_w g) /\ u16_ok (g_h g) /\ byte_ok (g_flags g) /\ byte_ok (g_bg g) /\ byte_ok (g_aspect g) /\
      bytes_ok (g_gct g) /\
      N.of_nat (length (g_gct g) + k) = (if has_table (g_flags g) then 3 * table_colors (g_flags g) else 0)
  | _ => exists g bs, head_ok g /\ told_head s g /\ acc_blocks g bs /\ body W g bs s c rest
  end.

(** ** Single steps *)
Lemma word_of a b : byte_ok a -> byte_ok b -> word (rd16 a b) = [a; b].
Proof.
  unfold byte_ok, word, rd16. intros Ha Hb. f_equal; [|f_equal].
  - rewrite N.mul_comm, N.mod_add by discriminate. now apply N.mod_small.
  - rewrite N.mul_comm, N.div_add by discriminate. rewrite N.div_small by exact Ha. reflexivity.
Qed.

Lemma control_five g bs : forall l n, (l = 0xF9 -> n = 5) -> Forall (acc_blk g) bs -> unknown_acc o l n bs ->
  fst (fold_left ext_after bs (l, n)) = 0xF9 -> snd (fold_left ext_after bs (l, n)) = 5.
Proof.
  induction bs as [|b bs IH]; intros l n H Hb Hu; [exact H|]. inversion Hb as [|? ? [Ha _] Hb']; subst. cbn [fold_left].
  destruct b as [l' subs|i|t subs]; cbn [ext_after unknown_acc blk_acc fst snd] in *.
  - apply IH; [|exact Hb'|exact Hu]. intros E. destruct Ha as (_ & _ & H4 & _). rewrite (H4 E). reflexivity.
  - now apply IH.
  - destruct Hu as (A & _ & C). apply IH; [|exact Hb'|exact C]. intros E. rewrite (H E), (A E). reflexivity.
Qed.
Lemma add_block g bs b : acc_blocks g bs -> acc_blk g b ->
  unknown_acc o (fst (last_of bs)) (snd (last_of bs)) [b] -> acc_blocks g (bs ++ [b]).
Proof.
  intros [H1 H2] Hb Hu. split; [apply Forall_app; split; [exact H1|now constructor]|]. now apply unknown_snoc.
Qed.
Lemma ext_done g bs (s : sd) p subs : acc_blocks g bs -> ext_begun s bs p (payload subs) -> loose_subs subs ->
  (sd_ext_id L s = 0xF9 -> length (sd_ext_data L s) = 5%nat) ->
  acc_blocks g (bs ++ [finish p subs]) /\ settled s (bs ++ [finish p subs]).
Proof.
  intros Ha [Hp Hf] Hs H5. unfold len in *. destruct p as [l|t|i]; [| |contradiction Hp].
  - destruct Hp as (E & Hk & Hl). split.
    + apply add_block; [exact Ha| |exact I]. split; [|exact I]. cbn [finish blk_acc]. split; [exact Hk|]. split; [exact Hs|].
      split; [intros El; rewrite <- E in El; specialize (H5 El); lia|]. intros Hn. specialize (Hf Hn). now rewrite Hl in Hf.
    + unfold settled. rewrite last_snoc. cbn [finish ext_after]. unfold len. congruence.
  - destruct Hp as (E & Hl & H1 & H2 & H3 & H4 & H6). split.
    + apply add_block; [exact Ha| |].
      * split; [|exact I]. cbn [finish blk_acc]. auto 10.
      * cbn [finish unknown_acc]. split; [|split; [|exact I]].
        -- intros El. destruct Ha as [A1 A2].
           assert (A3 : snd (last_of bs) = 5) by (apply (control_five g bs 0 0); [discriminate|exact A1|exact A2|exact El]).
           rewrite <- E in El. specialize (H5 El). apply length_zero_iff_nil. lia.
        -- intros Hn. specialize (Hf Hn). now rewrite Hl in Hf.
    + unfold settled. rewrite last_snoc. cbn [finish ext_after]. unfold len. congruence.
Qed.
Lemma base_finish g bs p subs : (ser_head g ++ ser_blocks bs) ++ begun_bytes p ++ sub_bytes subs ++ [0] =
  ser_head g ++ ser_blocks (bs ++ [finish p subs]).
Proof. now rewrite blocks_snoc, finish_bytes, <- app_assoc. Qed.
Lemma image_done g bs (s : sd) i subs : acc_blocks g bs -> settled s bs -> acc_img g i -> loose_subs subs -> whole (im_mcs i) (payload subs) ->
  acc_blocks g (bs ++ [finish (OImg i) subs]) /\ settled s (bs ++ [finish (OImg i) subs]).
Proof.
  intros Ha Hs (H1 & H2 & H3 & H4) Hl He. split.
  - apply add_block; [exact Ha| |exact I]. split; [|split; [exact H4|exact He]]. cbn [finish blk_acc]. split; [|exact Hl].
    split; [exact H1|]. split; [exact H2|]. split; [exact H3|discriminate].
  - unfold settled in *. rewrite last_snoc. exact Hs.
Qed.
Lemma known_of b x : extension_from_u8 b = Some x -> known_label b.
Proof.
  unfold extension_from_u8, known_label. repeat match goal with |- context [?a =? ?b] => destruct (N.eqb_spec a b) end; try discriminate; auto.
Qed.

Lemma pal_flag (s : sd) i : cur_palette s (lct_of i) ->
  forall f, sd_current L s = Some f -> f_palette f <> None -> has_table (im_flags i) = true.
Proof.
  intros (f & E1 & E2) f' E Hp. rewrite E1 in E. injection E as <-. rewrite E2 in Hp. unfold lct_of in Hp.
  destruct (has_table (im_flags i)); congruence.
Qed.

(** [W0]: what is known when the data of an image begin. *)
Definition hears (W0 W : lzw_known) (s' : sd) (c' rest' : list N) (d : decoded) : Prop :=
  match d with
  | DFrameMetadata _ => exists fl, (forall f, sd_current L s' = Some f -> f_palette f <> None -> has_table fl = true) /\
      (T fl -> parsed W0 s' c' rest')
  | DGlobalPalette p => (p <> [] -> has_table (nth 10 c' 0) = true) /\ parsed W s' c' rest'
  | _ => parsed W s' c' rest'
  end.

Lemma nine (l : list N) : length l = 9%nat -> exists a b c d e f g h i, l = [a; b; c; d; e; f; g; h; i].
Proof. intros H. do 10 (destruct l as [|? l]; try discriminate H). repeat eexists. Qed.
Lemma seven (l : list N) : length l = 7%nat -> exists a b c d e f g, l = [a; b; c; d; e; f; g].
Proof. intros H. do 8 (destruct l as [|? l]; try discriminate H). repeat eexists. Qed.
Lemma hdr_length (s : sd) buf : (length (sd_ibuf L s) < need (sd_state L s))%nat -> (hn L s <= length buf)%nat ->
  length (hdr L s buf) = need (sd_state L s).
Proof. intros H1 H2. unfold hdr, hn in *. rewrite app_length, firstn_length. lia. Qed.

Lemma parsed_later W (s : sd) c rest : (exists g bs, head_ok g /\ told_head s g /\ acc_blocks g bs /\ body W g bs s c rest) -> parsed W s c rest.
Proof.
  intros H. unfold parsed. destruct (sd_state L s) eqn:E; try exact H.
  all: destruct H as (g & bs & _ & _ & _ & H); unfold body in H; rewrite E in H; contradiction H.
Qed.
Lemma parsed_body W (s : sd) c rest : parsed W s c rest ->
  match sd_state L s with Magic | ScreenDescriptor | GlobalPalette _ => False | _ => True end ->
  exists g bs, head_ok g /\ told_head s g /\ acc_blocks g bs /\ body W g bs s c rest.
Proof. unfold parsed. intros H Hs. destruct (sd_state L s); try contradiction Hs; exact H. Qed.

Ltac enter H Est :=
  let g := fresh "g" in let bs := fresh "bs" in let Hg := fresh "Hg" in let Ht := fresh "Ht" in let Ha := fresh "Ha" in
  let Hb := fresh "Hb" in
  destruct (parsed_body _ _ _ _ H) as (g & bs & Hg & Ht & Ha & Hb); [rewrite Est; exact I|];
  unfold body in Hb; rewrite Est in Hb.
Ltac leave g bs := apply parsed_later; exists g, bs; split; [assumption|];
  split; [match goal with Q : told_head _ _ |- _ => exact Q end|]; split; [assumption|]; unfold body; sdcbn.

Lemma parsed_step (W0 W : lzw_known) (s : sd) buf more ob s' ob' n d c : keeps W ob ->
  (forall m r, lr_reset L (sd_lzw L s) m = (r, Ok tt) -> W0 r m []) -> sd_wf L s -> sd_opts L s = o -> bytes_ok (c ++ buf) -> buf <> [] ->
  parsed W s c (buf ++ more) -> nst L s buf ob s' ob' (Ok (n, d)) -> hears W0 W s' (c ++ firstn n buf) (skipn n buf ++ more) d.
Proof.
  intros (K1 & K2 & K3) Hs0 Hw Ho Hby Hbne H Hn. destruct Hw as (Hi & Hgw & _). remember (Ok (n, d)) as r eqn:Er.
  assert (Hbuf : bytes_ok buf) by (apply Forall_app in Hby; tauto).
  destruct Hn; try discriminate Er; injection Er as <- <-; cbn [hears].
  - (* N_more *)
    rewrite firstn_all, skipn_all. cbn [app]. unfold parsed in *. sdcbn.
    destruct (sd_state L s) eqn:Est; try discriminate H0.
    + destruct H as [Hf ->]. split; [exact Hf|reflexivity].
    + destruct H as (Hf & v & -> & Hv). split; [exact Hf|]. exists v. now rewrite app_assoc.
    + destruct H as (g & bs & Hg & Ht & Ha & Hb). exists g, bs. split; [exact Hg|]. split; [exact Ht|]. split; [exact Ha|].
      unfold body in *. sdcbn. rewrite Est in *. destruct Hb as (B1 & B2 & ->). split; [exact B1|]. split; [exact B2|].
      now rewrite <- app_assoc.
  - (* N_magic *)
    unfold parsed in *. sdcbn. rewrite H0 in H. destruct H as [Hf ->]. split; [exact Hf|].
    exists (match ver with V87a => false | V89a => true end). fold (hdr L s buf). rewrite H2. destruct ver; split; reflexivity.
  - (* N_screen *)
    pose proof (hdr_length s buf Hi H1) as Hl. rewrite H0 in Hl. cbn [need] in Hl.
    unfold parsed in H. rewrite H0 in H. destruct H as (Hf & v & -> & Hv).
    rewrite <- app_assoc. fold (hdr L s buf).
    assert (Hh : bytes_ok (hdr L s buf)).
    { unfold hdr. apply Forall_app. rewrite <- app_assoc in Hby. apply Forall_app in Hby as [_ Hby]. apply Forall_app in Hby as [Q1 Q2].
      split; [exact Q1|now apply bytes_ok_firstn]. }
    destruct (seven _ Hl) as (a1 & a2 & a3 & a4 & a5 & a6 & a7 & Eh). rewrite Eh in *.
    unfold bytes_ok in Hh.
    repeat match goal with Q : Forall byte_ok (_ :: _) |- _ => apply Forall_cons_iff in Q; destruct Q as [? Q] end.
    assert (Hg : exists g, g = mk_gif v (rd16 a1 a2) (rd16 a3 a4) a5 a6 a7 [] []) by eauto. destruct Hg as [g Eg].
    assert (Hc : signature v ++ [a1; a2; a3; a4; a5; a6; a7] = ser_head g).
    { subst g. unfold ser_head. cbn [g_89a g_w g_h g_flags g_bg g_aspect g_gct]. rewrite !word_of by assumption. reflexivity. }
    unfold after_screen. cbn [at_ nth]. unfold at_. cbn [nth]. rewrite land_has_table.
    destruct (has_table a5) eqn:Etab; unfold parsed; sdcbn.
    + split; [exact Hf|]. exists g. subst g. unfold told_head. sdcbn. cbn [g_89a g_w g_h g_flags g_bg g_aspect g_gct].
      split; [auto|]. split; [exact Hc|]. split; [reflexivity|].
      repeat (split; [first [assumption|now apply rd16_u16]|]). rewrite Etab, table_bytes_colors.
      cbn [length]. lia.
    + split; [exact Hf|]. exists g. subst g. unfold told_head. sdcbn. cbn [g_89a g_w g_h g_flags g_bg g_aspect g_gct].
      split; [auto|]. split; [exact Hc|]. split; [symmetry; unfold gct_wf in Hgw; rewrite H0 in Hgw; apply Hgw|].
      repeat (split; [first [assumption|now apply rd16_u16]|]). now rewrite Etab.
  - (* N_image *)
    pose proof (hdr_length s buf Hi H1) as Hl. rewrite H0 in Hl. cbn [need] in Hl.
    enter H H0. destruct Hb as (B1 & B2 & ->).
    rewrite <- app_assoc. cbn [app]. fold (hdr L s buf).
    assert (Hh : bytes_ok (hdr L s buf)).
    { unfold hdr. apply Forall_app. rewrite <- app_assoc in Hby. apply Forall_app in Hby as [_ Hby]. cbn [app] in Hby.
      apply Forall_cons_iff in Hby as [_ Hby]. apply Forall_app in Hby as [Q1 Q2].
      split; [exact Q1|now apply bytes_ok_firstn]. }
    destruct (nine _ Hl) as (a1 & a2 & a3 & a4 & a5 & a6 & a7 & a8 & a9 & Eh). rewrite Eh in *.
    unfold bytes_ok in Hh.
    repeat match goal with Q : Forall byte_ok (_ :: _) |- _ => apply Forall_cons_iff in Q; destruct Q as [? Q] end.
    assert (Hq : exists i, i = mk_img (rd16 a1 a2) (rd16 a3 a4) (rd16 a5 a6) (rd16 a7 a8) a9 [] 0 []) by eauto.
    destruct Hq as [i Ei].
    assert (Hc : 0x2C :: [a1; a2; a3; a4; a5; a6; a7; a8; a9] = img_bytes i).
    { subst i. unfold img_bytes. cbn [im_left im_top im_w im_h im_flags im_lct]. rewrite !word_of by assumption. reflexivity. }
    assert (Hhead : img_head o g i).
    { subst i. unfold img_head. cbn [im_left im_top im_w im_h im_flags]. repeat (split; [first [assumption|now apply rd16_u16]|]).
      intros Ec. unfold img_oob in H3. rewrite Ho, Ec in H3. cbn [andb] in H3. apply orb_false_iff in H3 as [O1 O2].
      unfold img_frame, at_ in O1, O2. cbn [nth f_width f_left f_height f_top set_geometry] in O1, O2.
      destruct Ht as (_ & Tw & Th). rewrite <- Tw, <- Th. unfold out_of_bounds in O1, O2. split; [destruct (N.ltb_spec (sd_width L s) (rd16 a5 a6))|destruct (N.ltb_spec (sd_height L s) (rd16 a7 a8))]; try discriminate; lia. }
    unfold no_pal in B2. rewrite H2 in B2.
    unfold after_image. unfold at_. cbn [nth]. rewrite land_has_table, B2.
    destruct (has_table a9) eqn:Etab.
    + leave g bs. split; [exact B1|]. exists i. subst i. split; [exact Hhead|]. cbn [im_lct im_flags].
      split; [unfold cur_palette; sdcbn; eexists; split; [reflexivity|]; unfold lct_of; cbn [im_flags im_lct]; now rewrite Etab|].
      split; [constructor|]. rewrite Etab, table_bytes_colors. split; [cbn [length]; lia|]. now rewrite Hc.
    + leave g bs. split; [exact B1|]. exists i. subst i. split; [exact Hhead|]. cbn [im_lct im_flags].
      split; [unfold cur_palette; sdcbn; eexists; split; [reflexivity|]; unfold lct_of; cbn [im_flags im_lct]; rewrite Etab; exact B2|].
      split; [constructor|]. rewrite Etab. split; [reflexivity|]. now rewrite Hc.
  - (* N_gp *)
    unfold parsed in *. sdcbn. rewrite H0 in H. destruct H as (Hf & g & Ht & Hc & Hgc & G1 & G2 & G3 & G4 & G5 & G6 & G7).
    split; [exact Hf|].
    exists (mk_gif (g_89a g) (g_w g) (g_h g) (g_flags g) (g_bg g) (g_aspect g) (g_gct g ++ firstn n0 buf) []).
    cbn [g_89a g_w g_h g_flags g_bg g_aspect g_gct]. split; [exact Ht|].
    split; [rewrite Hc; unfold ser_head; cbn [g_89a g_w g_h g_flags g_bg g_aspect g_gct]; now rewrite <- !app_assoc|].
    split; [now rewrite Hgc|]. repeat (split; [assumption|]).
    split; [apply Forall_app; split; [exact G6|now apply bytes_ok_firstn]|].
    rewrite <- G7. rewrite app_length, firstn_length. subst n0. f_equal. lia.
  - (* N_gp_end *)
    unfold parsed in H. rewrite H0 in H. destruct H as (Hf & g & Ht & Hc & Hgc & G1 & G2 & G3 & G4 & G5 & G6 & G7).
    subst buf. cbn [firstn skipn app].
    assert (Ht' : told_head (set_state L (set_gct L s [] 0) (BlockStart b)) g) by exact Ht.
    rewrite Nat.add_0_r in G7.
    assert (Hg : head_ok g) by (unfold head_ok, table_ok; auto 10).
    assert (Hab : acc_blocks g []) by (split; [constructor|exact I]).
    split.
    { intros Hp. rewrite <- Hgc in Hp. rewrite Hc. unfold ser_head, word. destruct (has_table (g_flags g)) eqn:Etab.
      - destruct (g_89a g); exact Etab.
      - destruct (g_gct g); [congruence|discriminate G7]. }
    leave g (@nil blk). destruct Hf as (F1 & F2 & F3). split; [|split; [exact F3|]].
    + unfold settled. sdcbn. now rewrite F1, F2.
    + left. unfold ser_blocks. cbn [map concat]. rewrite app_nil_r, Hc. split; [reflexivity|].
      split; [apply Forall_cons_iff in Hbuf; tauto|reflexivity].
  - (* N_header_end *)
    enter H H0. cbn [firstn skipn app]. rewrite app_nil_r. leave g bs. exact Hb.
  - (* N_bs_image *)
    enter H H0. cbn [firstn skipn app]. rewrite app_nil_r. leave g bs. destruct Hb as (B1 & B2 & B3).
    split; [exact B1|]. split.
    { unfold no_pal in *. sdcbn. unfold cur_or_default. destruct (sd_current L s); [exact B2|reflexivity]. }
    destruct B3 as [[-> _]|[B3 _]]; [|discriminate B3].
    assert (Ei : sd_ibuf L s = []) by (rewrite H0 in Hi; cbn [need] in Hi; destruct (sd_ibuf L s); [reflexivity|cbn in Hi; lia]).
    rewrite Ei. reflexivity.
  - (* N_bs_ext *)
    enter H H0. subst buf. cbn [firstn skipn app]. leave g bs. destruct Hb as (B1 & B2 & B3).
    split; [exact B2|]. destruct B3 as [[-> _]|[B3 _]]; [|discriminate B3]. rewrite <- !app_assoc. cbn [app].
    split; [reflexivity|]. split; [|reflexivity]. eapply known_of. eassumption.
  - (* N_bs_trailer *)
    enter H H0. destruct Hb as (B1 & B2 & B3). leave g bs. rewrite <- app_assoc. rewrite (app_assoc (firstn 1 buf)), firstn_skipn.
    unfold ser_gif. change (ser_head (with_blocks g bs)) with (ser_head g). change (g_blocks (with_blocks g bs)) with bs.
    destruct B3 as [(-> & _ & B4)|(_ & -> & B4 & q & Eq)].
    + exists (buf ++ more). rewrite <- !app_assoc. split; [reflexivity|]. intros _ E. now destruct buf.
    + exists q. rewrite Eq. rewrite <- app_assoc. split; [reflexivity|]. congruence.
  - (* N_bs_unknown *)
    enter H H0. subst buf. cbn [firstn skipn app]. leave g bs. destruct Hb as (B1 & B2 & B3).
    split; [exact B2|]. destruct B3 as [(-> & B4 & _)|[B3 _]]; [|contradiction].
    apply Forall_cons_iff in Hbuf as [Hb0 _]. unfold settled in B1.
    exists (OUnk c0), [], []. split; [|split].
    + unfold ext_begun. sdcbn. rewrite <- B1. cbn [fst snd payload concat app length]. rewrite N.add_0_r, <- Ho.
      split; [auto 10|congruence].
    + now apply part_first.
    + unfold part_bytes, sub_bytes. cbn [map concat app length begun_bytes Nat.add]. rewrite N2Nat.id, <- !app_assoc. reflexivity.
  - (* N_be_trailer *)
    enter H H0. subst buf. cbn [firstn skipn app]. rewrite app_nil_r. leave g bs. destruct Hb as (B1 & B2 & B3).
    destruct B3 as [-> B4].
    split; [exact B1|]. split; [exact B2|]. right. eauto 10.
  - (* N_be *)
    enter H H0. subst buf. cbn [firstn skipn app]. leave g bs. destruct Hb as (B1 & B2 & B3).
    split; [exact B1|]. split; [exact B2|]. left. destruct B3 as [-> B4]. split; [reflexivity|].
    split; [apply Forall_cons_iff in Hbuf; tauto|congruence].
  - (* N_xb *)
    enter H H0. subst buf. cbn [firstn skipn app]. leave g bs. destruct Hb as (B2 & -> & B4 & B5).
    apply Forall_cons_iff in Hbuf as [Hb0 _].
    split; [exact B2|]. exists (OExt (sd_ext_id L s)), [], []. split; [|split].
    + unfold ext_begun. sdcbn. rewrite B5. cbn. split; [auto|congruence].
    + now apply part_first.
    + unfold part_bytes, sub_bytes. cbn [map concat app length begun_bytes Nat.add]. rewrite N2Nat.id, <- !app_assoc. reflexivity.
  - (* N_xd *)
    enter H H0. leave g bs. destruct Hb as (B2 & p & subs & b & B3 & B4 & ->). split; [exact B2|].
    exists p, subs, (b ++ firstn n0 buf). split; [|split].
    + destruct B3 as [B3 B5]. unfold ext_begun in *. sdcbn. unfold len in *. rewrite !app_length in *.
      assert (El : length (firstn n0 buf) = n0) by (rewrite firstn_length; lia).
      split.
      * destruct p as [l|t|i]; [| |exact B3]; [destruct B3 as (P1 & P2 & P3)|destruct B3 as (P1 & P2 & P3)]; (split; [exact P1|]);
          [split; [exact P2|]|split; [|exact P3]]; lia.
      * intros _. rewrite <- Ho. unfold check_size in H3. unfold fits. destruct (o_limit (sd_opts L s)); [|exact I].
        apply N.leb_le in H3. rewrite El. unfold len in H3. lia.
    + now apply part_more.
    + rewrite (part_bytes_more _ _ _ _ _ H2), <- !app_assoc. reflexivity.
  - (* N_xd_next *)
    enter H H0. subst buf. cbn [firstn skipn app]. leave g bs. destruct Hb as (B2 & p & subs & b0 & B3 & B4 & ->).
    split; [exact B2|]. apply Forall_cons_iff in Hbuf as [Hb0 _].
    exists p, (subs ++ [b0]), []. split; [|split].
    + rewrite payload_snoc, app_nil_r. exact B3.
    + now apply part_next.
    + rewrite part_bytes_whole. unfold part_bytes. cbn [length Nat.add]. rewrite N2Nat.id, <- !app_assoc. reflexivity.
  - (* N_xd_app *)
    enter H H0. subst buf. cbn [firstn skipn app]. rewrite app_nil_r. leave g bs. destruct Hb as (B2 & p & subs & b0 & B3 & B4 & ->).
    split; [exact B2|]. exists p, (subs ++ [b0]). split; [rewrite payload_snoc; exact B3|].
    split; [now apply label_app|]. split; [now apply part_whole|]. rewrite part_bytes_whole. split; [reflexivity|eauto].
  - (* N_xd_ctl *)
    enter H H0. subst buf. cbn [firstn skipn app]. destruct Hb as (B2 & p & subs & b0 & B3 & B4 & ->).
    rewrite <- payload_snoc in B3. apply part_whole in B4 as B5.
    destruct (ext_done g bs s p (subs ++ [b0]) Ha B3 B5 (fun _ => H3)) as [A1 A2].
    rewrite part_bytes_whole, <- !app_assoc. rewrite (app_assoc (ser_head g)), base_finish.
    leave g (bs ++ [finish p (subs ++ [b0])]). split; [exact A2|]. split; [|split; [reflexivity|now destruct bs]].
    unfold no_pal in *. sdcbn. unfold ctl_frame, cur_or_default. destruct (sd_current L s); [exact B2|reflexivity].
  - (* N_xd_end *)
    enter H H0. subst buf. cbn [firstn skipn app]. destruct Hb as (B2 & p & subs & b0 & B3 & B4 & ->).
    rewrite <- payload_snoc in B3. apply part_whole in B4 as B5.
    assert (H5 : sd_ext_id L s = 0xF9 -> length (sd_ext_data L s) = 5%nat) by (intros E; rewrite E in H3; now destruct H3).
    destruct (ext_done g bs s p (subs ++ [b0]) Ha B3 B5 H5) as [A1 A2].
    rewrite part_bytes_whole, <- !app_assoc. rewrite (app_assoc (ser_head g)), base_finish.
    leave g (bs ++ [finish p (subs ++ [b0])]). split; [exact A2|]. split; [exact B2|]. split; [reflexivity|now destruct bs].
  - (* N_app *)
    enter H H0. subst buf. cbn [firstn skipn app]. destruct Hb as (B2 & p & subs & B3 & B6 & B5 & -> & _).
    assert (H5 : sd_ext_id L s = 0xF9 -> length (sd_ext_data L s) = 5%nat) by (intros E; rewrite E in B6; discriminate B6).
    destruct (ext_done g bs s p subs Ha B3 B5 H5) as [A1 A2].
    rewrite <- !app_assoc. rewrite (app_assoc (ser_head g)), base_finish.
    assert (Hx : parsed W (set_state L s BlockEnd) (ser_head g ++ ser_blocks (bs ++ [finish p subs])) (t ++ more)).
    { leave g (bs ++ [finish p subs]). split; [exact A2|]. split; [exact B2|]. split; [reflexivity|now destruct bs]. }
    subst d0. destruct (is_netscape (sd_ext_data L s)); exact Hx.
  - (* N_lp *)
    enter H H0. leave g bs. destruct Hb as (B1 & i & B2 & B3 & B4 & B5 & ->). split; [exact B1|].
    destruct B3 as (f0 & E1 & E2). rewrite H3 in E1. injection E1 as <-. rewrite H4 in E2. unfold lct_of in E2.
    destruct (has_table (im_flags i)) eqn:Etab; [|discriminate E2]. injection E2 as E2.
    exists (mk_img (im_left i) (im_top i) (im_w i) (im_h i) (im_flags i) (im_lct i ++ firstn n0 buf) 0 []).
    unfold lct_of. cbn [im_lct im_flags]. rewrite Etab. split; [exact B2|]. split.
    { unfold cur_palette. sdcbn. eexists. split; [reflexivity|]. cbn [f_palette set_palette]. now rewrite E2. }
    split; [apply Forall_app; split; [exact B4|now apply bytes_ok_firstn]|]. split.
    { rewrite <- B5, app_length, firstn_length. subst n0. f_equal. lia. }
    unfold img_bytes. cbn [im_left im_top im_w im_h im_flags im_lct]. rewrite <- !app_assoc. cbn [app]. rewrite <- !app_assoc. reflexivity.
  - (* N_lp_end *)
    enter H H0. subst buf. cbn [firstn skipn app]. leave g bs. destruct Hb as (B1 & i & B2 & B3 & B4 & B5 & ->). split; [exact B1|].
    exists (mk_img (im_left i) (im_top i) (im_w i) (im_h i) (im_flags i) (im_lct i) b []).
    split; [exact B2|]. split; [exact B3|]. cbn [im_lct im_flags im_mcs]. rewrite Nat.add_0_r in B5. split; [split; assumption|].
    split; [reflexivity|]. rewrite <- app_assoc. reflexivity.
  - (* N_init *)
    enter H H0. subst buf. cbn [firstn skipn app]. destruct Hb as (B1 & i & B2 & B3 & B4 & B5 & ->).
    exists (im_flags i). split; [now apply pal_flag|]. intros HT.
    apply Forall_cons_iff in Hbuf as [Hb0 _].
    leave g bs. split; [exact B1|]. exists i, [], []. split; [|split; [|split]].
    + split; [exact B2|]. split; [exact B4|]. split; [|exact HT]. rewrite B5. unfold check_code_size in *; lia.
    + now apply part_first.
    + rewrite B5. cbn [payload concat app]. now apply Hs0.
    + unfold part_bytes, sub_bytes. cbn [map concat app length Nat.add]. rewrite N2Nat.id, <- !app_assoc. reflexivity.
  - (* N_init_skip *)
    enter H H0. subst buf. cbn [firstn skipn app]. destruct Hb as (B1 & i & B2 & B3 & B4 & B5 & ->).
    exists (im_flags i). split; [now apply pal_flag|]. intros HT.
    apply Forall_cons_iff in Hbuf as [Hb0 _].
    leave g bs. split; [exact B1|]. exists i, [], []. split; [|split; [|split]].
    + split; [exact B2|]. split; [exact B4|]. split; [|exact HT]. rewrite B5. unfold check_code_size in *; lia.
    + now apply part_first.
    + congruence.
    + unfold part_bytes, sub_bytes. cbn [map concat app length Nat.add]. rewrite N2Nat.id, <- !app_assoc. reflexivity.
  - (* N_cp *)
    enter H H0. leave g bs. destruct Hb as (B1 & i & subs & b & B2 & B3 & B4 & ->). split; [exact B1|].
    exists i, subs, (b ++ firstn consumed buf). split; [exact B2|].
    assert (Hc : consumed = Nat.min (Nat.min k consumed) (length (firstn consumed buf))) by (rewrite firstn_length; lia).
    assert (Hc' : (consumed <= k)%nat /\ (consumed <= length buf)%nat) by lia.
    split; [now apply part_take|]. split; [exact B4|]. rewrite (part_bytes_take _ _ k consumed buf), <- !app_assoc by apply Hc'. reflexivity.
  - (* N_cp_next *)
    enter H H0. subst buf. cbn [firstn skipn app]. leave g bs. destruct Hb as (B1 & i & subs & b0 & B3 & B4 & B5 & ->).
    split; [exact B1|]. apply Forall_cons_iff in Hbuf as [Hb0 _].
    exists i, (subs ++ [b0]), []. split; [exact B3|]. split; [now apply part_next|]. split; [exact B5|].
    rewrite part_bytes_whole. unfold part_bytes. cbn [length Nat.add]. rewrite N2Nat.id, <- !app_assoc. reflexivity.
  - (* N_cp_end *)
    enter H H0. subst buf. cbn [firstn skipn app]. rewrite app_nil_r. leave g bs. destruct Hb as (B1 & i & subs & b0 & B3 & B4 & B5 & ->).
    split; [exact B1|]. exists i, (subs ++ [b0]). split; [exact B3|]. split; [now apply part_whole|]. split; [now apply whole_skip|].
    rewrite part_bytes_whole. split; [reflexivity|eauto].
  - (* N_de_skip *)
    enter H H0. leave g bs. destruct Hb as (B1 & i & subs & b & B2 & B3 & B4 & ->). split; [exact B1|].
    exists i, subs, (b ++ firstn n0 buf). split; [exact B2|].
    assert (Hc' : (n0 <= k)%nat /\ (n0 <= length buf)%nat) by lia.
    split; [now apply part_take|]. split; [rewrite app_assoc; now apply K1|].
    rewrite (part_bytes_take _ _ k n0 buf), <- !app_assoc by apply Hc'. reflexivity.
  - (* N_de *)
    assert (Hc' : (c1 <= k)%nat /\ (c1 <= length buf)%nat) by (destruct ((c0 =? 0)%nat && (w =? 0)%nat); lia).
    assert (Hx : parsed W (set_state L (set_lzw L s r1) (DecodeSubBlock (k - c1))) (c ++ firstn c1 buf) (skipn c1 buf ++ more)).
    { enter H H0. leave g bs. destruct Hb as (B1 & i & subs & b & B2 & B3 & B4 & ->). split; [exact B1|].
      exists i, subs, (b ++ firstn c1 buf). split; [exact B2|].
      split; [now apply part_take|]. split.
      - rewrite app_assoc. pose proof (K2 _ _ _ _ _ _ _ _ H3 H4 B4) as Q.
        assert (Ef : firstn (if (c0 =? 0)%nat && (w =? 0)%nat then length (firstn n0 buf) else c0) (firstn n0 buf) = firstn c1 buf).
        { rewrite firstn_firstn. f_equal. rewrite firstn_length. destruct ((c0 =? 0)%nat && (w =? 0)%nat); lia. }
        now rewrite Ef in Q.
      - rewrite (part_bytes_take _ _ k c1 buf), <- !app_assoc by apply Hc'. reflexivity. }
    destruct (w =? 0)%nat; exact Hx.
  - (* N_de_next *)
    enter H H0. subst buf. cbn [firstn skipn app]. leave g bs. destruct Hb as (B1 & i & subs & b0 & B3 & B4 & B5 & ->).
    split; [exact B1|]. apply Forall_cons_iff in Hbuf as [Hb0 _].
    exists i, (subs ++ [b0]), []. split; [exact B3|]. split; [now apply part_next|].
    split; [rewrite payload_snoc, app_nil_r; exact B5|].
    rewrite part_bytes_whole. unfold part_bytes. cbn [length Nat.add]. rewrite N2Nat.id, <- !app_assoc. reflexivity.
  - (* N_de_drain *)
    enter H H0. subst buf. cbn [firstn skipn app]. rewrite app_nil_r. destruct Hb as (B1 & i & subs & b0 & B3 & B4 & B5 & ->).
    pose proof (K3 _ _ _ _ _ _ _ H2 B5) as Q.
    destruct (w =? 0)%nat; cbn [hears]; leave g bs; (split; [exact B1|]).
    + exists i, (subs ++ [b0]). split; [exact B3|]. split; [now apply part_whole|]. split; [rewrite payload_snoc; exact Q|].
      rewrite part_bytes_whole. split; [reflexivity|eauto].
    + exists i, subs, b0. auto.
  - (* N_fd *)
    enter H H0. subst buf. cbn [firstn skipn app]. destruct Hb as (B1 & i & subs & B3 & B4 & B5 & -> & _).
    destruct (image_done g bs s i subs Ha B1 B3 B4 B5) as [A1 A2].
    rewrite <- !app_assoc. rewrite (app_assoc (ser_head g)), base_finish.
    leave g (bs ++ [finish (OImg i) subs]). split; [exact A2|]. split; [exact I|]. split; [reflexivity|now destruct bs].
  - (* N_trailer *)
    enter H H0. cbn [firstn skipn app]. rewrite app_nil_r. leave g bs. exact Hb.
Qed.
(** Less may be known. *)
Lemma parsed_weaken (W W' : lzw_known) (s : sd) c rest : (forall r m p, W r m p -> W' r m p) -> parsed W s c rest -> parsed W' s c rest.
Proof.
  intros Hw H. unfold parsed in *. destruct (sd_state L s) eqn:Es; try exact H; destruct H as (g & bs & A & B & C & D); exists g, bs;
    (split; [exact A|]); (split; [exact B|]); (split; [exact C|]); unfold body in *; rewrite Es in *; try exact D.
  destruct D as (D1 & i & subs & b & D2 & D3 & D4 & D5). split; [exact D1|]. exists i, subs, b. auto.
Qed.
End Parsed.
