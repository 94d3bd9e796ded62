(** Every file of the grammar of [SpecAccept] is gone through without an error when the image data are skipped. *)
From Verif Require Import Base Common Lzw Encoder Stream StreamInv Steps Ranges Converter Reader ReaderInv ConvInv DecoderSafe DecInv CanonReader AcceptDec.
From Verif Require Import SpecCount FrameCount SpecGif SpecAccept SpecStream Accept DocTrace DocBlocks DocRead DocAll.
Open Scope N_scope.

Section Fwd.
Variable L : lzw_codec.
Variable S : lzw_spec L.
Notation safe := (lz_is_safe L S).
Notation sd := (sd L).
Variable tables : bool.
Variable o : options.
Variable g : gif.
Variable tz : list N.
Hypothesis scans : scannable o.

(** ** What is still to come *)
Definition after (bs : list blk) : list N := ser_blocks bs ++ 0x3B :: tz.
Definition again (id : N) (data : list N) : option ctl := if id =? 0xF9 then Some (ctl_of (skipn 1 data)) else None.
(** [q]: the images; [k]: what the loop count will be in the end, given the one so far. *)
Definition plan (s : sd) (data : list N) (c : ctl) (bs : list blk) (q : list (ctl * img)) (k : repeat_t -> repeat_t) : Prop :=
  Forall (blk_acc tables o g) bs /\ unknown_acc o (sd_ext_id L s) (len data) bs /\
  (sd_ext_id L s = 0xF9 -> length data = 5%nat) /\ q = controlled_acc c (again (sd_ext_id L s) data) bs /\
  (sd_header_end L s = false -> forall r, k r = loops r bs).
Definition looped (id : N) (data : list N) (r : repeat_t) : repeat_t :=
  match (if id =? 0xFF then loop_of (skipn 1 data) else None) with Some n => n | None => r end.
Definition later (s : sd) (data : list N) (k k' : repeat_t -> repeat_t) : Prop :=
  sd_header_end L s = false -> forall r, k r = k' (looped (sd_ext_id L s) data r).
Definition cur (s : sd) (c : ctl) : Prop := (sd_current L s = None /\ c = ctl_none) \/ sd_current L s = Some (ctl_only c).
Definition size (s : sd) : Prop := sd_width L s = g_w g /\ sd_height L s = g_h g.
Definition unread (s : sd) (q : list (ctl * img)) (k : repeat_t -> repeat_t) : Prop :=
  sd_ext_id L s = 0 /\ sd_ext_data L s = [] /\ sd_current L s = None /\ sd_header_end L s = false /\ q = acc_images g /\
  forall r, k r = loops r (g_blocks g).
(** [k] bytes of the current data block, then further ones and the end of the data. *)
Definition data_rest (k : nat) (b : list N) (subs : list (list N)) (rest : list N) (bs : list blk) : Prop :=
  length b = k /\ Forall sub_ok subs /\ rest = b ++ concat (map ser_sub subs) ++ 0 :: after bs.
Definition whole_meta (c : ctl) (i : img) : frame := meta_frame c i (is_interlaced (im_flags i)) [].
Definition part_meta (c : ctl) (i : img) (p : list N) : frame :=
  if has_table (im_flags i) then set_palette (placed c i) (Some p) else placed c i.
Definition img_fine (i : img) : Prop := img_acc tables o g i /\ loose_subs (im_subs i).
(** At the end of the data the codec is found idle. *)
Definition calm (s : sd) : Prop :=
  exists r1, lr_decode_bytes L (sd_lzw L s) [] ONone = (r1, ONone, Ok (0%nat, 0%nat)) /\ lzr_ok L S o r1.
(** What is not read: in a file without blocks the byte behind the trailer is lost. *)
Definition left_over (rest : list N) : Prop := g_blocks g <> [] /\ rest = tz \/ g_blocks g = [] /\ exists x, tz = x :: rest.
Definition inside (s : sd) : Prop := size s /\ g_blocks g <> [].
Definition comes (s : sd) (rest : list N) (q : list (ctl * img)) (k : repeat_t -> repeat_t) : Prop :=
  match sd_state L s with
  | Magic => unread s q k /\ sd_ibuf L s ++ rest = ser_gif g tz
  | ScreenDescriptor => unread s q k /\
      sd_ibuf L s ++ rest = word (g_w g) ++ word (g_h g) ++ [g_flags g; g_bg g; g_aspect g] ++ g_gct g ++ after (g_blocks g)
  | GlobalPalette n => unread s q k /\ size s /\
      exists p, g_gct g = sd_gct L s ++ p /\ length p = n /\ rest = p ++ after (g_blocks g)
  | BlockEnd => inside s /\ exists bs c, cur s c /\ plan s (sd_ext_data L s) c bs q k /\ rest = after bs
  | BlockStart b => size s /\ exists bs c, cur s c /\ plan s (sd_ext_data L s) c bs q k /\
      (b :: rest = after bs /\ rest <> [] /\ (bs = [] <-> g_blocks g = []) \/ b = 0x3B /\ bs = [] /\ rest = after [] /\ g_blocks g <> [])
  | ExtensionBlockStart => inside s /\ exists l subs bs c, cur s c /\ sd_ext_id L s = l /\ sd_ext_data L s = [] /\
      Forall (blk_acc tables o g) (BExt l subs :: bs) /\ unknown_acc o 0 0 (BExt l subs :: bs) /\
      q = controlled_acc c None (BExt l subs :: bs) /\ (sd_header_end L s = false -> forall r, k r = loops r (BExt l subs :: bs)) /\ rest = ser_subs subs ++ after bs
  | ExtensionDataBlock n => inside s /\ exists b subs bs c k', cur s c /\ data_rest n b subs rest bs /\
      let data := sd_ext_data L s ++ b ++ payload subs in
      (b ++ payload subs <> [] -> fits (o_limit o) (len data)) /\
      plan s data (match again (sd_ext_id L s) data with Some x => x | None => c end) bs q k' /\ later s data k k' 
  | ApplicationExtension => inside s /\ exists bs c k', cur s c /\ plan s (sd_ext_data L s) c bs q k' /\
      later s (sd_ext_data L s) k k' /\ sd_ext_id L s = 0xFF /\ rest = 0 :: after bs
  | ImageBlockStart => inside s /\ exists c i bs q', sd_current L s = Some (ctl_only c) /\ img_fine i /\
      plan s (sd_ext_data L s) ctl_none bs q' k /\ q = (c, i) :: q' /\
      sd_ibuf L s ++ rest = DocBlocks.img_head i ++ im_lct i ++ im_mcs i :: ser_subs (im_subs i) ++ after bs
  | LocalPalette n => inside s /\ exists c i bs q' p1 p2, sd_current L s = Some (part_meta c i p1) /\ img_fine i /\
      plan s (sd_ext_data L s) ctl_none bs q' k /\ q = (c, i) :: q' /\
      im_lct i = p1 ++ p2 /\ length p2 = n /\ rest = p2 ++ im_mcs i :: ser_subs (im_subs i) ++ after bs
  | LzwInit m => inside s /\ exists c i bs q', sd_current L s = Some (whole_meta c i) /\ img_fine i /\
      plan s (sd_ext_data L s) ctl_none bs q' k /\ q = (c, i) :: q' /\ m = im_mcs i /\
      rest = ser_subs (im_subs i) ++ after bs
  | DecodeSubBlock n => inside s /\ calm s /\
      exists b subs bs, data_rest n b subs rest bs /\ plan s (sd_ext_data L s) ctl_none bs q k
  | CopySubBlock n => inside s /\ exists b subs bs, data_rest n b subs rest bs /\ plan s (sd_ext_data L s) ctl_none bs q k
  | FrameDecoded => inside s /\ exists bs, rest = 0 :: after bs /\ plan s (sd_ext_data L s) ctl_none bs q k
  | Trailer => q = [] /\ left_over rest
  end.
Definition coming (s : sd) (rest : list N) (q : list (ctl * img)) (k : repeat_t -> repeat_t) : Prop :=
  sd_opts L s = o /\ lzr_ok L S o (sd_lzw L s) /\ comes s rest q k.

Lemma after_some bs : after bs <> [].
Proof. unfold after. destruct (ser_blocks bs); discriminate. Qed.
Lemma comes_more s q k : comes s [] q k -> (length (sd_ibuf L s) < need (sd_state L s))%nat -> sd_state L s = Trailer.
Proof.
  unfold comes. intros H Hl. destruct (sd_state L s) eqn:E; cbn [need] in Hl; try reflexivity; exfalso; rewrite ?app_nil_r in H.
  - destruct H as [_ H]. rewrite H in Hl. unfold ser_gif, ser_head in Hl. rewrite !app_length in Hl.
    assert (length (signature (g_89a g)) = 6%nat) by (destruct (g_89a g); reflexivity). lia.
  - destruct H as [_ H]. rewrite H in Hl. rewrite !app_length in Hl. cbn [length word] in Hl. lia.
  - destruct H as (_ & c & i & bs & q' & _ & _ & _ & _ & H). rewrite H in Hl. rewrite app_length in Hl.
    unfold DocBlocks.img_head in Hl. rewrite !app_length in Hl. cbn [length word] in Hl. lia.
  - destruct H as (_ & _ & p & _ & _ & H). symmetry in H. apply app_eq_nil in H as [_ H]. now apply after_some in H.
  - destruct H as (_ & bs & c & _ & _ & [(_ & H & _)|(_ & _ & H & _)]); [congruence|]. symmetry in H. now apply after_some in H.
  - destruct H as (_ & bs & c & _ & _ & H). symmetry in H. now apply after_some in H.
  - destruct H as (_ & l & subs & bs & c & _ & _ & _ & _ & _ & _ & _ & H). symmetry in H. apply app_eq_nil in H as [_ H]. now apply after_some in H.
  - destruct H as (_ & b & subs & bs & c & k' & _ & (_ & _ & H) & _). symmetry in H. apply app_eq_nil in H as [_ H]. apply app_eq_nil in H as [_ H]. discriminate H.
  - destruct H as (_ & bs & c & k' & _ & _ & _ & _ & H). discriminate H.
  - destruct H as (_ & c & i & bs & q' & p1 & p2 & _ & _ & _ & _ & _ & _ & H). symmetry in H. apply app_eq_nil in H as [_ H]. discriminate H.
  - destruct H as (_ & c & i & bs & q' & _ & _ & _ & _ & _ & H). symmetry in H. apply app_eq_nil in H as [_ H]. now apply after_some in H.
  - destruct H as (_ & _ & b & subs & bs & (_ & _ & H) & _). symmetry in H. apply app_eq_nil in H as [_ H]. apply app_eq_nil in H as [_ H]. discriminate H.
  - destruct H as (_ & b & subs & bs & (_ & _ & H) & _). symmetry in H. apply app_eq_nil in H as [_ H]. apply app_eq_nil in H as [_ H]. discriminate H.
  - destruct H as (_ & bs & H & _). discriminate H.
Qed.

(** ** Cutting the input *)
(** A header of [n] bytes whose first part is [a]: what is taken of [buf]. *)
Lemma header_cut (a buf more h t : list N) : a ++ buf ++ more = h ++ t -> (length a <= length h)%nat -> (length h - length a <= length buf)%nat ->
  a ++ firstn (length h - length a) buf = h /\ skipn (length h - length a) buf ++ more = t.
Proof.
  intros H Ha Hb. assert (E : a ++ firstn (length h - length a) buf = h).
  { assert (E1 : firstn (length h) (a ++ buf ++ more) = h) by (rewrite H, firstn_app, firstn_all, Nat.sub_diag; apply app_nil_r).
    rewrite firstn_app, firstn_all2 in E1 by exact Ha. rewrite firstn_app in E1.
    replace (length h - length a - length buf)%nat with O in E1 by lia. cbn [firstn] in E1. rewrite app_nil_r in E1. exact E1. }
  split; [exact E|]. rewrite <- (firstn_skipn (length h - length a) buf), <- app_assoc in H at 1. rewrite app_assoc, E in H.
  now apply app_inv_head in H.
Qed.
(** [k] bytes are still to come, [n] of them are taken. *)
Lemma take_cut (buf more b t : list N) n : buf ++ more = b ++ t -> (n <= length b)%nat -> (n <= length buf)%nat ->
  firstn n buf = firstn n b /\ skipn n buf ++ more = skipn n b ++ t.
Proof.
  intros H Hb Hl. assert (E : firstn n (buf ++ more) = firstn n (b ++ t)) by now rewrite H.
  assert (E' : skipn n (buf ++ more) = skipn n (b ++ t)) by now rewrite H.
  rewrite !firstn_app in E. rewrite !skipn_app in E'.
  replace (n - length buf)%nat with O in * by lia. replace (n - length b)%nat with O in * by lia.
  cbn [firstn skipn] in *. rewrite !app_nil_r in E. auto.
Qed.
Lemma nil_of (b : list N) : length b = O -> b = [].
Proof. destruct b; [reflexivity|discriminate]. Qed.
Lemma data_take k b subs buf more bs n : data_rest k b subs (buf ++ more) bs -> (n <= k)%nat -> (n <= length buf)%nat ->
  firstn n buf = firstn n b /\ data_rest (k - n) (skipn n b) subs (skipn n buf ++ more) bs.
Proof.
  intros (H1 & H2 & H3) Hk Hl. destruct (take_cut _ _ _ _ n H3) as [A B]; [lia|exact Hl|].
  split; [exact A|]. split; [rewrite skipn_length; lia|]. split; [exact H2|exact B].
Qed.
(** At the end of a data block: either the next one begins, or the data end. *)
Lemma data_end b subs x rest bs : data_rest 0 b subs (x :: rest) bs ->
  b = [] /\ match subs with
  | [] => x = 0 /\ rest = after bs
  | y :: subs' => x <> 0 /\ data_rest (N.to_nat x) y subs' rest bs
  end.
Proof.
  intros (H1 & H2 & H3). apply nil_of in H1. split; [exact H1|]. subst b. cbn [app] in H3. destruct subs as [|y subs'].
  - cbn [map concat app] in H3. injection H3 as -> ->. auto.
  - cbn [map concat ser_sub] in H3. unfold ser_sub in H3 at 1. cbn [app] in H3. injection H3 as -> ->.
    apply Forall_cons_iff in H2 as [[Hy _] H2]. split; [lia|]. rewrite Nat2N.id. rewrite <- app_assoc. split; [reflexivity|]. auto.
Qed.
Lemma subs_first subs x rest bs : loose_subs subs -> x :: rest = ser_subs subs ++ after bs ->
  exists b subs', subs = b :: subs' /\ data_rest (N.to_nat x) b subs' rest bs /\ x = N.of_nat (length b).
Proof.
  intros (H1 & H2 & H3) H. destruct subs as [|b subs']; [congruence|]. exists b, subs'. split; [reflexivity|].
  unfold ser_subs in H. cbn [map concat] in H. unfold ser_sub at 1 in H. cbn [app] in H. injection H as -> ->.
  rewrite Nat2N.id. split; [|reflexivity]. split; [reflexivity|]. split; [|now rewrite <- !app_assoc].
  cbn [tl] in H3. apply Forall_cons_iff in H2 as [_ H2]. rewrite Forall_forall in *. intros y Hy. destruct (H2 y Hy) as [A B].
  specialize (H3 y Hy). split; [|exact B]. split; [|exact A]. destruct y; [congruence|cbn; lia].
Qed.
Lemma ext_known l : known_label l -> exists x, extension_from_u8 l = Some x.
Proof. intros [->|[->|[->| ->]]]; eexists; reflexivity. Qed.
Lemma ext_control l : extension_from_u8 l = Some XControl -> l = 0xF9.
Proof. unfold extension_from_u8. repeat match goal with |- context [?a =? ?b] => destruct (N.eqb_spec a b) end; congruence. Qed.

(** ** Single steps *)
(** Past the global colour table. *)
Definition past (s : sd) : bool :=
  match sd_state L s with Magic | ScreenDescriptor | GlobalPalette _ => false | _ => true end.
(** At the beginning of the data of image [i]. *)
Definition fresh (s : sd) (rest : list N) (i : img) (q : list (ctl * img)) (k : repeat_t -> repeat_t) : Prop :=
  exists b subs bs, im_subs i = b :: subs /\ data_rest (length b) b subs rest bs /\ plan s (sd_ext_data L s) ctl_none bs q k /\
    sd_state L s = (if o_skip_frame_decoding o then CopySubBlock (length b) else DecodeSubBlock (length b)) /\ decodes L S o s i.
Definition tells (d : decoded) (s s' : sd) (rest' : list N) (q q' : list (ctl * img)) (k k' : repeat_t -> repeat_t) : Prop :=
  match d with DRepetitions n => sd_header_end L s = false -> forall r, k r = k' n | _ => k' = k end /\
  match d with DGlobalPalette _ => past s' = true | _ => past s' = past s end /\
  match d with
  | DHeaderEnd => q' = q /\ past s = true /\ forall r, k r = r
  | DBackgroundColor b => q' = q /\ b = g_bg g
  | DFrameMetadata t => exists c i, q = (c, i) :: q' /\ t = img_ty o i /\ sd_current L s' = Some (whole_meta c i) /\ img_fine i /\
      fresh s' rest' i q' k'
  | DGlobalPalette p => q' = q /\ p = g_gct g
  | DBlockStart BkTrailer => q' = q /\ q = [] /\ sd_state L s' = Trailer
  | _ => q' = q
  end.

Lemma calm_fine (s : sd) : o_check_for_end_code o = false -> lzr_ok L S o (sd_lzw L s) ->
  (exists z, lr_decoder L (sd_lzw L s) = Some z /\ lz_pending S z [] []) -> calm s.
Proof. intros Hn Hl (z & Hz & Hp). apply drain_none; [exact Hl|]. split; [exact Hn|]. exists z, [], []. auto. Qed.

Ltac start H Est := destruct H as (Ho & Hl & H); unfold comes in H; rewrite Est in H.
Ltac stop := split; [assumption|]; split; [assumption|]; unfold comes; sdcbn.
Hypothesis head_fine : head_ok g /\ Forall (blk_acc tables o g) (g_blocks g) /\ unknown_acc o 0 0 (g_blocks g) /\ (g_blocks g = [] -> tz <> []).


Lemma after_cons bs x r : after bs = x :: r ->
  match bs with [] => x = 0x3B /\ r = tz | b :: bs' => x = lead b /\ r = body b ++ after bs' end.
Proof.
  unfold after. destruct bs as [|b bs'].
  - cbn. intros H. injection H as <- <-. auto.
  - rewrite ser_blocks_cons. intros H. injection H as <- <-. auto.
Qed.
Lemma after_rest bs x r : after bs = x :: r -> (bs = [] -> tz <> []) -> r <> [].
Proof.
  intros H Hb. apply after_cons in H. destruct bs as [|b bs']; destruct H as [_ ->]; [now apply Hb|].
  intros E. apply app_eq_nil in E as [_ E]. now apply after_some in E.
Qed.
Lemma whole_part c i : part_meta c i (im_lct i) = whole_meta c i.
Proof. unfold part_meta, whole_meta, meta_frame. destruct (has_table (im_flags i)); reflexivity. Qed.

Lemma netscape_said data : (if is_netscape data then
    let r := rd16 (at_ data 13) (at_ data 14) in DRepetitions (if r =? 0 then RInfinite else RFinite r) else DNothing) =
  match loop_of (skipn 1 data) with Some n => DRepetitions n | None => DNothing end.
Proof.
  rewrite netscape_data. unfold loop_of. destruct (_ && _); [|reflexivity]. unfold rd16, at_. destruct data; reflexivity.
Qed.
Lemma looped_other id data r : id <> 0xFF -> looped id data r = r.
Proof. intros H. unfold looped. now rewrite (proj2 (N.eqb_neq _ _) H). Qed.

Ltac told := split; [reflexivity|]; split; [|reflexivity]; unfold past; sdcbn; try match goal with E : sd_state L _ = _ |- _ => rewrite E end; reflexivity.
Ltac same q0 k0 := eexists _, _, q0, k0; split; [reflexivity|]; split; [reflexivity|]; split; [|try told].
Lemma coming_step (s : sd) buf more q k s' ob' r : sd_wf L s -> buf <> [] -> coming s (buf ++ more) q k -> nst L s buf ONone s' ob' r ->
  exists n d q' k', r = Ok (n, d) /\ ob' = ONone /\ coming s' (skipn n buf ++ more) q' k' /\ tells d s s' (skipn n buf ++ more) q q' k k'.
Proof.
  intros Hw Hbne H Hn. pose proof Hw as (Hi & Hgw & Hcw & Hmw).
  destruct head_fine as ((G1 & G2 & G3 & G4 & G5 & G6) & G7 & G8 & G9).
  destruct Hn.
  - (* N_more *)
    same q k. rewrite skipn_all. cbn [app]. destruct H as (Ho & Hl & H). stop. unfold comes in H.
    destruct (sd_state L s) eqn:Est; try discriminate H0; rewrite <- app_assoc; exact H.
  - (* N_magic *)
    same q k. start H H0. unfold hdr, hn in *. rewrite H0 in *. cbn [need] in *. destruct H as [Hu H].
    unfold ser_gif, ser_head in H. rewrite <- !app_assoc in H.
    assert (E6 : length (signature (g_89a g)) = 6%nat) by (destruct (g_89a g); reflexivity). rewrite <- E6 in *.
    destruct (header_cut _ _ _ _ _ H) as [A B]; [lia|lia|]. stop. split; [exact Hu|]. rewrite B. reflexivity.
  - (* N_magic_bad *)
    exfalso. start H H0. unfold hdr, hn in *. rewrite H0 in *. cbn [need] in *. destruct H as [Hu H].
    unfold ser_gif, ser_head in H. rewrite <- !app_assoc in H.
    assert (E6 : length (signature (g_89a g)) = 6%nat) by (destruct (g_89a g); reflexivity). rewrite <- E6 in *.
    destruct (header_cut _ _ _ _ _ H) as [A B]; [lia|lia|]. rewrite A in *. destruct (g_89a g); [now apply H3|now apply H2].
  - (* N_screen *)
    eexists _, _, q, k. split; [reflexivity|]. split; [reflexivity|]. start H H0. unfold hdr, hn in *. rewrite H0 in *. cbn [need] in *. destruct H as [Hu H].
    set (h := word (g_w g) ++ word (g_h g) ++ [g_flags g; g_bg g; g_aspect g]).
    assert (Hc : sd_ibuf L s ++ buf ++ more = h ++ g_gct g ++ after (g_blocks g)) by (rewrite H; unfold h; rewrite <- !app_assoc; reflexivity).
    change 7%nat with (length h) in *. destruct (header_cut _ _ _ _ _ Hc) as [A B]; [lia|lia|]. rewrite A.
    unfold after_screen. change (at_ h 4) with (g_flags g). rewrite land_has_table.
    assert (Hz : rd16 (at_ h 0) (at_ h 1) = g_w g /\ rd16 (at_ h 2) (at_ h 3) = g_h g) by (split; apply word_rd; assumption).
    destruct Hz as [-> ->]. split; [|split; [reflexivity|]; split; [unfold past; rewrite H0; destruct (has_table (g_flags g)); reflexivity|split; reflexivity]].
    unfold gct_wf in Hgw. rewrite H0 in Hgw. destruct Hgw as [Gw _]. destruct G6 as [_ G6].
    destruct (has_table (g_flags g)); stop; (split; [exact Hu|]); (split; [split; reflexivity|]); exists (g_gct g); rewrite B.
    + split; [reflexivity|]. split; [rewrite table_bytes_colors; lia|reflexivity].
    + rewrite Gw. split; [reflexivity|]. split; [lia|reflexivity].
  - (* N_image *)
    same q k; [|split; [reflexivity|split; [|reflexivity]]; unfold past, after_image; rewrite H0; destruct (negb _); reflexivity]. start H H0. unfold hdr, hn in *. rewrite H0 in *. cbn [need] in *. destruct H as (Hz & c & i & bs & q' & B1 & B2 & B3 & B4 & B5).
    rewrite H2 in B1. injection B1 as ->.
    change 9%nat with (length (DocBlocks.img_head i)) in *. destruct (header_cut _ _ _ _ _ B5) as [A B]; [lia|lia|]. rewrite A in *.
    pose proof B2 as (((I1 & I2 & I3 & I4 & I5 & I6) & I7 & I8 & I9) & I10).
    unfold after_image. rewrite img_head_frame by (repeat split; assumption).
    change (at_ (DocBlocks.img_head i) 8) with (im_flags i). rewrite land_has_table.
    destruct I7 as [_ I7]. destruct (has_table (im_flags i)) eqn:Et; stop; (split; [exact Hz|]).
    + exists c, i, bs, q', [], (im_lct i). split; [unfold part_meta; rewrite Et; reflexivity|]. repeat (split; [assumption|]).
      split; [reflexivity|]. split; [rewrite table_bytes_colors; lia|exact B].
    + exists c, i, bs, q', [], (im_lct i). split; [unfold part_meta; rewrite Et; reflexivity|]. repeat (split; [assumption|]).
      split; [reflexivity|]. split; [lia|exact B].
  - (* N_image_oob *)
    exfalso. start H H0. unfold hdr, hn in *. rewrite H0 in *. cbn [need] in *. destruct H as (((Z1 & Z2) & _) & c & i & bs & q' & B1 & B2 & B3 & B4 & B5).
    rewrite H2 in B1. injection B1 as ->.
    change 9%nat with (length (DocBlocks.img_head i)) in *. destruct (header_cut _ _ _ _ _ B5) as [A B]; [lia|lia|]. rewrite A in *.
    pose proof B2 as (((I1 & I2 & I3 & I4 & I5 & I6) & I7 & I8 & I9) & I10).
    unfold img_oob in H3. rewrite img_head_frame in H3 by (repeat split; assumption). rewrite Ho, Z1, Z2 in H3.
    destruct (o_check_frame_consistency o); [|discriminate H3]. destruct (I6 eq_refl) as [K9a K9b].
    cbn [placed set_geometry f_width f_left f_height f_top andb] in H3. rewrite !oob_false in H3 by assumption. discriminate H3.
  - (* N_gp *)
    same q k. start H H0. destruct H as (Hu & Hz & p & P1 & P2 & P3).
    destruct (take_cut _ _ _ _ n P3) as [A B]; [lia|lia|]. stop. split; [exact Hu|]. split; [exact Hz|]. exists (skipn n p).
    rewrite A, <- app_assoc, firstn_skipn. split; [exact P1|]. split; [rewrite skipn_length; lia|exact B].
  - (* N_gp_end *)
    start H H0. subst buf. destruct H as (Hu & Hz & p & P1 & P2 & P3). apply nil_of in P2. subst p. cbn [app] in P3. rewrite app_nil_r in P1.
    eexists _, _, q, k. split; [reflexivity|]. split; [reflexivity|]. cbn [skipn app]. split; [|split; [reflexivity|split; [reflexivity|split; [reflexivity|symmetry; exact P1]]]].
    stop. split; [exact Hz|]. destruct Hu as (U1 & U2 & U3 & U4 & U5 & U6). exists (g_blocks g), ctl_none. split; [left; auto|].
    split; [unfold plan; sdcbn; rewrite U1, U2; split; [exact G7|]; split; [exact G8|]; split; [discriminate|]; split; [exact U5|intros _; exact U6]|].
    left. split; [exact P3|]. split; [|reflexivity]. symmetry in P3. apply (after_rest _ _ _ P3). exact G9.
  - (* N_header_end *)
    eexists _, _, q, k. split; [reflexivity|]. split; [reflexivity|]. start H H0. cbn [skipn]. split.
    { stop. destruct H as (Hz & bs & c & B1 & (P1 & P2 & P3 & P4 & P5) & B3). split; [exact Hz|]. exists bs, c. split; [exact B1|].
      split; [|exact B3]. split; [exact P1|]. split; [exact P2|]. split; [exact P3|]. split; [exact P4|]. discriminate. }
    split; [reflexivity|]. split; [unfold past; sdcbn; now rewrite H0|]. split; [reflexivity|]. split; [unfold past; now rewrite H0|].
    destruct H as (Hz & bs & c & B1 & (P1 & P2 & P3 & P4 & P5) & B3). intros r. rewrite (P5 H1).
    destruct bs as [|[l subs|i|t' subs] bs']; try reflexivity. exfalso.
    destruct B3 as [(B3 & _)|(_ & B3 & _)]; [|discriminate B3]. symmetry in B3. apply after_cons in B3 as [B3 _]. contradiction.
  - (* N_bs_image *)
    same q k. cbn [skipn]. start H H0. stop. destruct H as (Hz & bs & c & B1 & B2 & B3).
    destruct B3 as [(B3 & _ & Bn)|(B3 & _)]; [|discriminate B3]. assert (Hin : bs <> [] -> inside s) by (intros Q; split; [exact Hz|]; now rewrite <- Bn). symmetry in B3. apply after_cons in B3.
    destruct B2 as (P1 & P2 & P3 & P4 & P5). destruct bs as [|b bs']; [destruct B3; discriminate|]. split; [now apply Hin|]. destruct B3 as [Hle B3].
    apply Forall_cons_iff in P1 as [Pb P1]. destruct b as [l subs|i|t subs]; cbn [lead] in Hle; [discriminate Hle| |].
    2:{ cbn [blk_acc] in Pb. destruct Pb as (_ & Q & _). congruence. }
    cbn [controlled_acc] in P4. cbn [unknown_acc] in P2.
    exists c, i, bs', (controlled_acc ctl_none (again (sd_ext_id L s) (sd_ext_data L s)) bs').
    split. { f_equal. unfold cur_or_default. destruct B1 as [[-> ->]| ->]; reflexivity. }
    split; [exact Pb|]. split; [split; [exact P1|]; split; [exact P2|]; split; [exact P3|]; split; [reflexivity|unfold plan; sdcbn; congruence]|]. split; [exact P4|].
    rewrite body_img in B3.
    assert (Ei : sd_ibuf L s = []) by (rewrite H0 in Hi; cbn [need] in Hi; apply nil_of; lia).
    rewrite Ei. cbn [app]. rewrite B3. rewrite <- !app_assoc. reflexivity.
  - (* N_bs_ext *)
    same q k. start H H0. subst buf. cbn [skipn app] in *. stop. destruct H as (Hz & bs & c & B1 & B2 & B3).
    destruct B3 as [(B3 & _ & Bn)|(B3 & _)]; [|discriminate B3]. assert (Hin : bs <> [] -> inside s) by (intros Q; split; [exact Hz|]; now rewrite <- Bn). symmetry in B3. apply after_cons in B3.
    destruct B2 as (P1 & P2 & P3 & P4 & P5). destruct bs as [|b0 bs']; [destruct B3; discriminate|]. split; [now apply Hin|]. destruct B3 as [Hle B3].
    pose proof P1 as P0. apply Forall_cons_iff in P0 as [Pb _]. destruct b0 as [l subs|i|t0 subs]; cbn [lead] in Hle; [|discriminate Hle|].
    2:{ cbn [blk_acc] in Pb. destruct Pb as (_ & _ & Q & _). congruence. }
    cbn [body ser_blk skipn app] in B3. injection B3 as -> B3. exists l, subs, bs', c. split; [exact B1|]. split; [reflexivity|]. split; [reflexivity|].
    split; [exact P1|]. split; [exact P2|]. split; [exact P4|]. split; [exact P5|exact B3].
  - (* N_bs_ext_bad *)
    exfalso. start H H0. subst buf. cbn [app] in *. destruct H as (Hz & bs & c & B1 & B2 & B3).
    destruct B3 as [(B3 & _)|(B3 & _)]; [|discriminate B3]. symmetry in B3. apply after_cons in B3.
    destruct B2 as (P1 & P2 & P3 & P4 & P5). destruct bs as [|b0 bs']; [destruct B3; discriminate|]. destruct B3 as [Hle B3].
    apply Forall_cons_iff in P1 as [Pb _]. destruct b0 as [l subs|i|t0 subs]; cbn [lead] in Hle; [|discriminate Hle|].
    2:{ cbn [blk_acc] in Pb. destruct Pb as (_ & _ & Q & _). congruence. }
    cbn [body ser_blk skipn app] in B3. injection B3 as -> B3. cbn [blk_acc] in Pb. destruct (ext_known l (proj1 Pb)). congruence.
  - (* N_bs_trailer *)
    start H H0. destruct H as (Hz & bs & c & B1 & (P1 & P2 & P3 & P4 & P5) & B3).
    assert (Hq : q = []).
    { destruct B3 as [(B3 & _)|(_ & -> & _)]; [|exact P4]. symmetry in B3. apply after_cons in B3. destruct bs as [|b0 bs']; [exact P4|].
      destruct B3 as [Hle _]. apply Forall_cons_iff in P1 as [Pb _]. destruct b0 as [l subs|i|t0 subs]; cbn [lead] in Hle; [discriminate Hle|discriminate Hle|].
      cbn [blk_acc] in Pb. destruct Pb as (_ & _ & _ & Q & _). congruence. }
    assert (Hlo : left_over (skipn 1 buf ++ more)).
    { destruct B3 as [(B3 & _ & B4)|(_ & -> & B3 & B4)].
      - symmetry in B3. apply after_cons in B3. destruct bs as [|b0 bs'].
        + destruct B3 as [_ B3]. right. split; [now apply B4|]. destruct buf as [|x buf]; [congruence|]. exists x. symmetry. exact B3.
        + exfalso. destruct B3 as [Hle _]. apply Forall_cons_iff in P1 as [Pb _]. destruct b0 as [l subs|i|t0 subs]; cbn [lead] in Hle; [discriminate Hle|discriminate Hle|].
          cbn [blk_acc] in Pb. destruct Pb as (_ & _ & _ & Q & _). congruence.
      - left. split; [exact B4|]. destruct buf as [|x buf]; [congruence|]. cbn [app skipn after ser_blocks map concat] in *. unfold after in B3. cbn in B3. now injection B3. }
    eexists _, _, q, k. split; [reflexivity|]. split; [reflexivity|]. split; [stop; split; [exact Hq|exact Hlo]|].
    split; [reflexivity|]. split; [unfold past; sdcbn; now rewrite H0|]. split; [reflexivity|split; [exact Hq|reflexivity]].
  - (* N_bs_unknown *)
    same q k. start H H0. subst buf. cbn [skipn app] in *. stop. destruct H as (Hz & bs & c1 & B1 & B2 & B3).
    destruct B3 as [(B3 & _ & Bn)|(B3 & _)]; [|contradiction]. assert (Hin : bs <> [] -> inside s) by (intros Q; split; [exact Hz|]; now rewrite <- Bn). symmetry in B3. apply after_cons in B3.
    destruct B2 as (P1 & P2 & P3 & P4 & P5). destruct bs as [|b0 bs']; [destruct B3; contradiction|]. split; [now apply Hin|]. destruct B3 as [Hle B3].
    apply Forall_cons_iff in P1 as [Pb P1]. destruct b0 as [l subs|i|t0 subs]; cbn [lead] in Hle; [contradiction|contradiction|]. subst t0.
    cbn [body ser_blk skipn] in B3. cbn [blk_acc] in Pb. destruct Pb as (_ & _ & _ & _ & Ps & _).
    destruct (subs_first _ _ _ _ Ps B3) as (b1 & subs' & Es & D1 & _).
    exists b1, subs', bs', c1, k. split; [exact B1|]. split; [exact D1|]. cbn [unknown_acc controlled_acc] in P2, P4. destruct P2 as (U1 & U2 & U3).
    assert (Ep : b1 ++ payload subs' = payload subs) by (rewrite Es; reflexivity). rewrite Ep. cbv zeta.
    assert (El : len (sd_ext_data L s ++ payload subs) = len (sd_ext_data L s) + N.of_nat (length (payload subs))) by (unfold len; rewrite app_length; lia).
    rewrite El. split; [exact U2|].
    assert (Ea : again (sd_ext_id L s) (sd_ext_data L s ++ payload subs) = again (sd_ext_id L s) (sd_ext_data L s)).
    { unfold again. destruct (N.eqb_spec (sd_ext_id L s) 0xF9) as [E|E]; [|reflexivity]. now rewrite (U1 E), app_nil_r. }
    split; [|unfold later; sdcbn; congruence].
    split; [exact P1|]. split; [rewrite El; exact U3|]. split; [|split; [sdcbn; rewrite Ea; exact P4|sdcbn; congruence]].
    sdcbn. intros E. rewrite (U1 E), app_nil_r. auto.
  - (* N_bs_unknown_bad *)
    exfalso. start H H0. destruct H as (Hz & bs & c1 & B1 & B2 & B3).
    destruct B3 as [(B3 & _)|(B3 & _)]; [|contradiction]. symmetry in B3. apply after_cons in B3.
    destruct B2 as (P1 & P2 & P3 & P4 & P5). destruct bs as [|b0 bs']; [destruct B3; contradiction|]. destruct B3 as [Hle B3].
    apply Forall_cons_iff in P1 as [Pb P1]. destruct b0 as [l subs|i|t0 subs]; cbn [lead] in Hle; [contradiction|contradiction|].
    cbn [blk_acc] in Pb. rewrite Ho in *. destruct Pb as (_ & _ & _ & _ & _ & Q). congruence.
  - (* N_be_trailer *)
    same q k. start H H0. subst buf. cbn [skipn app] in *. stop. destruct H as (Hz & bs & c & B1 & B2 & B3). split; [apply Hz|].
    exists bs, c. split; [exact B1|]. split; [exact B2|]. right. split; [reflexivity|]. symmetry in B3. pose proof (after_cons _ _ _ B3) as B4.
    destruct bs as [|b0 bs']; [split; [reflexivity|split; [now rewrite B3|apply Hz]]|]. exfalso. destruct B4 as [Hle _]. destruct B2 as (P1 & _).
    apply Forall_cons_iff in P1 as [Pb _]. destruct b0 as [l subs|i|t0 subs]; cbn [lead] in Hle; [discriminate Hle|discriminate Hle|].
    cbn [blk_acc] in Pb. destruct Pb as (_ & _ & _ & Q & _). congruence.
  - (* N_be *)
    same q k. start H H0. subst buf. cbn [skipn app] in *. stop. destruct H as (Hz & bs & c & B1 & B2 & B3). split; [apply Hz|].
    exists bs, c. split; [exact B1|]. split; [exact B2|]. left. split; [exact B3|]. symmetry in B3.
    assert (Hbs : bs <> []) by (intros ->; apply after_cons in B3; destruct B3; contradiction).
    split; [apply (after_rest _ _ _ B3); contradiction|]. split; [contradiction|]. intros Q. now destruct Hz.
  - (* N_xb *)
    same q k. start H H0. subst buf. cbn [skipn app] in *. stop. destruct H as (Hz & l & subs & bs & c & B1 & B2 & B3 & B4 & B5 & B6 & B8 & B7). split; [exact Hz|].
    apply Forall_cons_iff in B4 as [Pb P1]. cbn [blk_acc] in Pb. destruct Pb as (K1 & K2 & K3 & K4).
    destruct (subs_first _ _ _ _ K2 B7) as (b1 & subs' & Es & D1 & _).
    exists b1, subs', bs, c, (fun r => loops r bs). split; [exact B1|]. split; [exact D1|]. rewrite B3. cbn [app].
    assert (Ep : b1 ++ payload subs' = payload subs) by (rewrite Es; reflexivity). rewrite Ep. cbv zeta.
    assert (El : len (b :: payload subs) = 1 + N.of_nat (length (payload subs))) by (unfold len; cbn [length]; lia).
    rewrite El. split; [exact K4|]. rewrite B2. cbn [unknown_acc controlled_acc] in B5, B6.
    split; [|unfold later, looped; sdcbn; cbn [skipn]; exact B8].
    unfold plan. sdcbn. split; [exact P1|]. split; [rewrite El; exact B5|]. split; [intros E; cbn [length]; now rewrite (K3 E)|].
    split; [|reflexivity]. unfold again. cbn [skipn]. destruct (l =? 0xF9); exact B6.
  - (* N_xd *)
    same q k. start H H0. destruct H as (Hz & b & subs & bs & c & k' & B1 & B2 & B3 & B4 & B5).
    destruct (data_take _ _ _ _ _ _ n B2) as [A B]; [lia|lia|]. stop. split; [exact Hz|].
    exists (skipn n b), subs, bs, c, k'. split; [exact B1|]. split; [exact B|]. rewrite A.
    assert (Ed : (sd_ext_data L s ++ firstn n b) ++ skipn n b ++ payload subs = sd_ext_data L s ++ b ++ payload subs).
    { rewrite <- app_assoc, (app_assoc (firstn n b)), firstn_skipn. reflexivity. }
    rewrite Ed. split; [|split; [exact B4|exact B5]]. intros _. apply B3. destruct B2 as (B2 & _). destruct b; [cbn in B2; lia|discriminate].
  - (* N_xd_limit *)
    exfalso. start H H0. destruct H as (Hz & b & subs & bs & c & k' & B1 & (D1 & D2 & D3) & B3 & B4 & B5). rewrite Ho in H3.
    assert (Hf : fits (o_limit o) (len (sd_ext_data L s ++ b ++ payload subs))) by (apply B3; destruct b; [cbn in D1; lia|discriminate]).
    unfold check_size in H3. unfold fits in Hf. destruct (o_limit o) as [lim|]; [|discriminate H3]. unfold len in *. rewrite !app_length in Hf.
    apply N.leb_gt in H3. lia.
  - (* N_xd_next *)
    same q k. start H H0. subst buf. cbn [skipn app] in *. destruct H as (Hz & b0 & subs & bs & c & k' & B1 & B2 & B3 & B4 & B5).
    destruct (data_end _ _ _ _ _ B2) as [-> D]. destruct subs as [|y subs']; [destruct D; contradiction|]. destruct D as [_ D].
    stop. split; [exact Hz|]. exists y, subs', bs, c, k'. split; [exact B1|]. split; [exact D|]. exact (conj B3 (conj B4 B5)).
  - (* N_xd_app *)
    same q k. start H H0. subst buf. cbn [skipn app] in *. destruct H as (Hz & b0 & subs & bs & c & k' & B1 & B2 & B3 & B4 & B5).
    destruct (data_end _ _ _ _ _ B2) as [-> D]. destruct subs as [|y subs']; [|destruct D; contradiction]. destruct D as [_ D].
    stop. split; [exact Hz|]. exists bs, c, k'. cbn [payload concat app] in B4, B5. rewrite app_nil_r in B4, B5.
    split; [exact B1|]. split; [|split; [exact B5|split; [now apply label_app|now rewrite D]]].
    unfold again in B4 at 1. rewrite (label_app _ H2) in B4 at 1. exact B4.
  - (* N_xd_ctl *)
    same q k. start H H0. subst buf. cbn [skipn app] in *. destruct H as (Hz & b0 & subs & bs & c & k' & B1 & B2 & B3 & B4 & B5).
    destruct (data_end _ _ _ _ _ B2) as [-> D]. destruct subs as [|y subs']; [|destruct D; contradiction]. destruct D as [_ D].
    stop. split; [exact Hz|]. cbn [payload concat app] in B4. rewrite app_nil_r in B4. pose proof (ext_control _ H2) as Ec.
    unfold again in B4 at 1. rewrite Ec in B4 at 1. rewrite N.eqb_refl in B4.
    exists bs, (ctl_of (skipn 1 (sd_ext_data L s))). split; [|split; [|exact D]].
    2:{ destruct B4 as (P1 & P2 & P3 & P4 & P5). split; [exact P1|]. split; [exact P2|]. split; [exact P3|]. split; [exact P4|].
        intros Eh r. sdcbn_in Eh. rewrite (B5 Eh), looped_other by (rewrite Ec; discriminate). now apply P5. }
    right. sdcbn. f_equal. unfold cur_or_default. destruct B1 as [[-> ->]| ->]; [apply (ctl_frame_spec ctl_none)|apply ctl_frame_spec].
  - (* N_xd_ctl_bad *)
    exfalso. start H H0. subst buf. cbn [app] in *. destruct H as (Hz & b0 & subs & bs & c & k' & B1 & B2 & B3 & B4 & B5).
    destruct (data_end _ _ _ _ _ B2) as [-> D]. destruct subs as [|y subs']; [|destruct D; contradiction].
    cbn [payload concat app] in B4. rewrite app_nil_r in B4. destruct B4 as (_ & _ & B4 & _). cbn [payload concat app] in B4. apply H3, B4. now apply ext_control.
  - (* N_xd_end *)
    same q k. start H H0. subst buf. cbn [skipn app] in *. destruct H as (Hz & b0 & subs & bs & c & k' & B1 & B2 & B3 & B4 & B5).
    destruct (data_end _ _ _ _ _ B2) as [-> D]. destruct subs as [|y subs']; [|destruct D; contradiction]. destruct D as [_ D].
    stop. split; [exact Hz|]. exists bs, c. split; [exact B1|]. split; [|exact D].
    cbn [payload concat app] in B4. rewrite app_nil_r in B4. unfold again in B4 at 1.
    destruct (N.eqb_spec (sd_ext_id L s) 0xF9) as [E|E]; [rewrite E in H3; now contradiction H3|].
    destruct B4 as (P1 & P2 & P3 & P4 & P5). split; [exact P1|]. split; [exact P2|]. split; [exact P3|]. split; [exact P4|].
    intros Eh r. sdcbn_in Eh. rewrite (B5 Eh), looped_other by (intros Q; rewrite Q in H2; now contradiction H2). now apply P5.
  - (* N_app *)
    rewrite netscape_said in H2.
    start H H0. subst buf. cbn [app] in *. destruct H as (Hz & bs & c & k' & B1 & B2 & B4 & Ei & B3). injection B3 as B3.
    assert (Hgo : forall k1, (sd_header_end L s = false -> forall r, k1 r = loops r bs) -> coming (set_state L s BlockEnd) (t ++ more) q k1).
    { intros k1 Hk. stop. split; [exact Hz|]. exists bs, c. split; [exact B1|]. split; [|exact B3].
      destruct B2 as (P1 & P2 & P3 & P4 & P5). split; [exact P1|]. split; [exact P2|]. split; [exact P3|]. split; [exact P4|exact Hk]. }
    assert (Hp : past (set_state L s BlockEnd) = past s) by (unfold past; sdcbn; now rewrite H0).
    assert (P5 : sd_header_end L s = false -> forall r, k' r = loops r bs) by apply B2.
    unfold later, looped in B4.
    destruct (loop_of (skipn 1 (sd_ext_data L s))) as [n|] eqn:En; subst d.
    + exists 1%nat, (DRepetitions n), q, k'. split; [reflexivity|]. split; [reflexivity|]. split; [cbn [skipn]; apply Hgo; exact P5|].
      split; [|split; [exact Hp|reflexivity]]. intros Eh r. rewrite (B4 Eh), Ei. reflexivity.
    + exists 1%nat, DNothing, q, k. split; [reflexivity|]. split; [reflexivity|]. split; [cbn [skipn]; apply Hgo|split; [reflexivity|split; [exact Hp|reflexivity]]].
      intros Eh r. rewrite (B4 Eh), Ei. cbn. now apply P5.
  - (* N_lp *)
    same q k. start H H0. destruct H as (Hz & c & i & bs & q' & p1 & p2 & B1 & B2 & B3 & B4 & B5 & B6 & B7).
    rewrite H3 in B1. injection B1 as ->. unfold part_meta in H4.
    destruct (has_table (im_flags i)) eqn:Et; [|discriminate H4]. injection H4 as ->.
    destruct (take_cut _ _ _ _ n B7) as [A B]; [lia|lia|]. stop. split; [exact Hz|].
    exists c, i, bs, q', (p ++ firstn n p2), (skipn n p2). unfold part_meta. rewrite Et, A. split; [reflexivity|].
    repeat (split; [assumption|]). rewrite <- app_assoc, firstn_skipn. split; [exact B5|]. split; [rewrite skipn_length; lia|exact B].
  - (* N_lp_end *)
    same q k. start H H0. subst buf. cbn [skipn app] in *. destruct H as (Hz & c & i & bs & q' & p1 & p2 & B1 & B2 & B3 & B4 & B5 & B6 & B7).
    apply nil_of in B6. subst p2. rewrite app_nil_r in B5. subst p1. rewrite whole_part in B1. cbn [app] in B7. injection B7 as -> B7.
    stop. split; [exact Hz|]. exists c, i, bs, q'. auto 10.
  - (* N_init *)
    start H H0. subst buf. cbn [app] in *. destruct H as (Hz & c & i & bs & q' & B1 & B2 & B3 & B4 & B5 & B6). subst m.
    pose proof B2 as ((_ & _ & I8 & _) & Ps). destruct (subs_first _ _ _ _ Ps B6) as (b1 & subs' & Es & D1 & Ex).
    destruct (lr_reset_ok L S o (sd_lzw L s) (im_mcs i) Hl I8) as (r' & z & R1 & R2 & R3 & R4 & R5). rewrite H3 in R1. injection R1 as ->.
    eexists _, _, q', k. split; [reflexivity|]. split; [reflexivity|]. cbn [skipn]. split.
    + stop. split; [exact Hz|]. split; [|exists b1, subs', bs; auto].
      apply calm_fine; [destruct scans as [Q|Q]; [congruence|exact Q]|assumption|]. sdcbn. exists z. split; [exact R3|now apply R5, lz_new_nil].
    + split; [reflexivity|]. split; [unfold past; sdcbn; now rewrite H0|]. exists c, i. split; [exact B4|]. split; [unfold img_ty; rewrite <- Ho, H2; reflexivity|]. split; [exact B1|]. split; [exact B2|].
      exists b1, subs', bs. rewrite Ex, Nat2N.id in D1. split; [exact Es|]. split; [exact D1|]. split; [exact B3|]. split; [rewrite <- Ho, H2, Ex, Nat2N.id; reflexivity|].
      intros _. exists z. auto.
  - (* N_init_skip *)
    start H H0. subst buf. cbn [app] in *. destruct H as (Hz & c & i & bs & q' & B1 & B2 & B3 & B4 & B5 & B6). subst m.
    pose proof B2 as ((_ & _ & I8 & _) & Ps). destruct (subs_first _ _ _ _ Ps B6) as (b1 & subs' & Es & D1 & Ex).
    eexists _, _, q', k. split; [reflexivity|]. split; [reflexivity|]. cbn [skipn]. split.
    + stop. split; [exact Hz|]. exists b1, subs', bs. auto.
    + split; [reflexivity|]. split; [unfold past; sdcbn; now rewrite H0|]. exists c, i. split; [exact B4|]. split; [unfold img_ty; rewrite <- Ho, H2; reflexivity|]. split; [exact B1|]. split; [exact B2|].
      exists b1, subs', bs. rewrite Ex, Nat2N.id in D1. split; [exact Es|]. split; [exact D1|]. split; [exact B3|]. split; [rewrite <- Ho, H2, Ex, Nat2N.id; reflexivity|].
      intros Q. rewrite Ho in H2. congruence.
  - (* N_init_bad *)
    exfalso. start H H0. destruct H as (Hz & c & i & bs & q' & B1 & ((_ & _ & I8 & _) & _) & _ & _ & B5 & _). subst m.
    rewrite code_size_ok in H1 by exact I8. discriminate H1.
  - (* N_cp *)
    cbn [obuf_append] in H3. injection H3 as <- <- <-. same q k. start H H0. destruct H as (Hz & b & subs & bs & B2 & B3).
    assert (En : length (firstn n buf) = n) by (rewrite firstn_length; lia). rewrite En.
    destruct (data_take _ _ _ _ _ _ n B2) as [_ B]; [lia|lia|]. stop. split; [exact Hz|]. exists (skipn n b), subs, bs. auto.
  - (* N_cp_limit *) discriminate H3.
  - (* N_cp_next *)
    same q k. start H H0. subst buf. cbn [skipn app] in *. destruct H as (Hz & b0 & subs & bs & B2 & B3).
    destruct (data_end _ _ _ _ _ B2) as [-> D]. destruct subs as [|y subs']; [destruct D; contradiction|]. destruct D as [_ D].
    stop. split; [exact Hz|]. exists y, subs', bs. auto.
  - (* N_cp_end *)
    same q k. start H H0. subst buf. cbn [skipn app] in *. destruct H as (Hz & b0 & subs & bs & B2 & B3).
    destruct (data_end _ _ _ _ _ B2) as [-> D]. destruct subs as [|y subs']; [|destruct D; contradiction]. destruct D as [_ D].
    stop. split; [exact Hz|]. exists bs. rewrite D. auto.
  - (* N_de_skip *)
    same q k. start H H0. destruct H as (Hz & Hd & b & subs & bs & B2 & B3).
    destruct (data_take _ _ _ _ _ _ n B2) as [_ B]; [lia|lia|]. stop. split; [exact Hz|]. split; [exact Hd|]. exists (skipn n b), subs, bs. auto.
  - (* N_de *) cbn [is_none_ob] in H3. rewrite orb_true_r in H3. discriminate H3.
  - cbn [is_none_ob] in H3. rewrite orb_true_r in H3. discriminate H3.
  - (* N_de_next *)
    same q k. start H H0. subst buf. cbn [skipn app] in *. destruct H as (Hz & Hd & b0 & subs & bs & B2 & B3).
    destruct (data_end _ _ _ _ _ B2) as [-> D]. destruct subs as [|y subs']; [destruct D; contradiction|]. destruct D as [_ D].
    stop. split; [exact Hz|]. split; [exact Hd|]. exists y, subs', bs. auto.
  - (* N_de_drain *)
    start H H0. destruct H as (Hz & Hd & b0 & subs & bs & B2 & B3). subst buf.
    destruct Hd as (r2 & R1 & R2). rewrite R1 in H2. injection H2 as <- <- <- <-. cbn [Nat.eqb].
    same q k. cbn [skipn app] in *.
    destruct (data_end _ _ _ _ _ B2) as [-> D]. destruct subs as [|y subs']; [|destruct D; contradiction]. destruct D as [_ D].
    stop. split; [exact Hz|]. exists bs. rewrite D. auto.
  - (* N_de_drain_err *)
    start H H0. destruct H as (Hz & Hd & _).
    destruct Hd as (r2 & R1 & R2). rewrite R1 in H2. discriminate H2.
  - (* N_fd *)
    same q k. start H H0. subst buf. cbn [skipn app] in *. destruct H as (Hz & bs & B2 & B3). injection B2 as B2.
    stop. split; [exact Hz|]. exists bs, ctl_none. split; [left; auto|]. auto.
  - (* N_trailer *)
    same q k. start H H0. cbn [skipn]. stop. exact H.
Qed.
End Fwd.

(** ** Along the input *)
Section Along.
Variable L : lzw_codec.
Variable S : lzw_spec L.
Notation safe := (lz_is_safe L S).
Variable umax : N.
Hypothesis Humax : 2 ^ 32 - 1 <= umax.
Variable tables : bool.
Variable o : options.
Variable g : gif.
Variable tz : list N.
Hypothesis scans : scannable o.
Hypothesis fine : file_acc tables o g tz.
Notation sd := (sd L).
Notation rd := (rd L).
Notation dcd := (dcd L).
Notation coming := (coming L S tables o g tz).
Notation tells := (tells L S tables o g tz).
Notation past := (past L).

Lemma fine_head : head_ok g /\ Forall (blk_acc tables o g) (g_blocks g) /\ unknown_acc o 0 0 (g_blocks g) /\ (g_blocks g = [] -> tz <> []).
Proof. destruct fine as ((H1 & H2 & H3) & H4). auto. Qed.

Definition screened (s : sd) : bool := match sd_state L s with Magic | ScreenDescriptor => false | _ => true end.
Definition keeps (d : decoded) (s s' : sd) : Prop :=
  (d <> DHeaderEnd -> sd_header_end L s' = sd_header_end L s) /\
  ((forall b, d <> DBackgroundColor b) -> screened s' = screened s) /\
  (d = DBlockStart BkTrailer -> sd_header_end L s = true) /\ (d = DHeaderEnd -> sd_header_end L s' = true).
Lemma nst_keeps s buf ob s' ob' n d : nst L s buf ob s' ob' (Ok (n, d)) -> keeps d s s'.
Proof.
  intros H. unfold keeps, screened.
  inversion H; subst; unfold after_image, after_screen in *; sdcbn; repeat match goal with E : sd_state L s = _ |- _ => rewrite E end;
    repeat match goal with |- context [if ?c then _ else _] => destruct c; sdcbn end; try (split; [|split; [|split]]); try reflexivity; try congruence;
    try (intros Q; now contradiction (Q eq_refl)); try (intros Q; now contradiction (Q _ eq_refl)).
Qed.
Lemma keeps_trans d s s1 s2 : keeps DNothing s s1 -> keeps d s1 s2 -> keeps d s s2.
Proof.
  intros (A & B & C & D) (A' & B' & C' & D'). rewrite A in A', C' by discriminate. rewrite B in B' by discriminate. split; [exact A'|]. split; [exact B'|split; [exact C'|exact D']].
Qed.
Lemma tells_trans d (s s1 s2 : sd) rest q q' k k' : past s1 = past s -> sd_header_end L s1 = sd_header_end L s ->
  tells d s1 s2 rest q q' k k' -> tells d s s2 rest q q' k k'.
Proof. intros Hp Hh (A & B & C). unfold AcceptFwd.tells. rewrite <- Hp, <- Hh. auto. Qed.

Lemma one_step buf src (s : sd) s1 ob1 x q k : buf <> [] -> next_state L s buf ONone = (s1, ob1, x) ->
  rd_wf L (mk_rd L buf src s false) -> coming s (rd_rest L (mk_rd L buf src s false)) q k ->
  exists n d q' k', x = Ok (n, d) /\ ob1 = ONone /\ sd_wf L s1 /\ zero_ok L s1 (skipn n buf) /\
    (sd_state L s1 = Trailer -> d = DBlockStart BkTrailer) /\ keeps d s s1 /\
    coming s1 (rd_rest L (mk_rd L (skipn n buf) src s1 false)) q' k' /\
    tells d s s1 (rd_rest L (mk_rd L (skipn n buf) src s1 false)) q q' k k'.
Proof.
  intros Hb He [H1 H2] Hc. cbn [rd_dec rd_eof rd_buf] in *. destruct (H2 eq_refl) as [H3 H4].
  pose proof (next_state_good L safe s buf ONone H1 H3 Hb) as Hg. rewrite He in Hg.
  pose proof (next_state_nst L safe _ _ _ _ _ _ H1 H3 Hb He) as Hst.
  unfold rd_rest in *. cbn [rd_buf rd_src] in *.
  destruct (coming_step L S tables o g tz scans fine_head _ _ _ _ _ _ _ _ H1 Hb Hc Hst) as (n & d & q' & k' & -> & -> & Hc' & Ht).
  destruct Hg as (_ & _ & _ & Hg2 & Hg3 & Hg4 & _).
  exists n, d, q', k'. split; [reflexivity|]. split; [reflexivity|]. split; [exact Hg2|]. split; [exact Hg3|].
  split; [intros E; destruct (Hg4 E); [contradiction|assumption]|]. split; [now apply nst_keeps in Hst|]. auto.
Qed.

Lemma dnext_coming r ob r' ob' x : dnext L r ob r' ob' x -> forall q k, ob = ONone -> rd_wf L r -> good_src (rd_src L r) ->
  rd_eof L r = false -> coming (rd_dec L r) (rd_rest L r) q k ->
  match x with
  | Ok (Some d) => exists q' k', rd_eof L r' = false /\ good_src (rd_src L r') /\ coming (rd_dec L r') (rd_rest L r') q' k' /\
      tells d (rd_dec L r) (rd_dec L r') (rd_rest L r') q q' k k' /\ keeps d (rd_dec L r) (rd_dec L r')
  | Ok None => rd_eof L r' = true /\ good_src (rd_src L r') /\ q = [] /\ sd_header_end L (rd_dec L r) = true /\ left_over g tz (rd_rest L r')
  | _ => False
  end.
Proof.
  induction 1 as [buf src s ob|e src s ob|s ob|src s ob|bs src s ob r' ob' x Hb Hn IH
    |buf src s ob s1 ob1 n r' ob' x Hb He Hn IH|buf src s ob s1 ob1 n Hb He
    |buf src s ob s1 ob1 n d Hb He Hd1 Hd2|pr buf src s ob s1 ob1 e Hb He]; intros q k Hob Hwf Hs Heof Hc; cbn [rd_src rd_eof rd_dec] in *; subst ob.
  - discriminate Heof.
  - apply Forall_cons_iff in Hs as [Hs _]. exact Hs.
  - destruct Hwf as [H1 H2]. destruct (H2 eq_refl) as [_ H4]. apply H4. cbn [rd_dec] in *. destruct Hc as (_ & _ & Hc).
    unfold rd_rest in Hc. cbn in Hc. apply comes_more in Hc; [exact Hc|]. apply H1.
  - apply Forall_cons_iff in Hs as [Hs _]. exact Hs.
  - apply (IH q k); [reflexivity| |apply Forall_cons_iff in Hs; tauto|reflexivity|exact Hc].
    destruct Hwf as [H1 H2]. cbn in H1, H2. destruct (H2 eq_refl) as [H3 H4].
    split; [exact H1|]. intros _. cbn. split; [|exact H4]. intros E. destruct (H3 E) as [t Ht]. discriminate.
  - destruct (one_step _ _ _ _ _ _ _ _ Hb He Hwf Hc) as (n' & d & q' & k' & Ex & -> & A & B & C & D & E & F). injection Ex as <- <-.
    assert (Hq : q' = q /\ k' = k /\ past s1 = past s) by (unfold AcceptFwd.tells in F; tauto). destruct Hq as (-> & -> & Hp).
    specialize (IH q k eq_refl). assert (Hw : rd_wf L (mk_rd L (skipn n buf) src s1 false)).
    { split; [exact A|]. intros _. split; [exact B|]. cbn [rd_dec]. intros Q. now specialize (C Q). }
    specialize (IH Hw Hs eq_refl E). destruct x as [[d|]|e| | ]; try exact IH.
    + destruct IH as (q' & k' & I1 & I2 & I3 & I4 & I5). exists q', k'. split; [exact I1|]. split; [exact I2|]. split; [exact I3|].
      split; [|eapply keeps_trans; eassumption]. eapply tells_trans; [exact Hp| |exact I4]. apply D. discriminate.
    + destruct IH as (I1 & I2 & I3 & I4 & I5). split; [exact I1|]. split; [exact I2|]. split; [exact I3|]. split; [|exact I5]. rewrite <- I4. symmetry. apply D. discriminate.
  - destruct (one_step _ _ _ _ _ _ _ _ Hb He Hwf Hc) as (n' & d & q' & k' & Ex & -> & A & B & C & D & E & F). injection Ex as <- <-.
    cbn [rd_eof rd_src]. split; [reflexivity|]. split; [exact Hs|]. split; [apply F|]. split; [now apply D|]. assert (Et : sd_state L s1 = Trailer) by apply F.
    destruct E as (_ & _ & E). unfold comes in E. rewrite Et in E. apply E.
  - destruct (one_step _ _ _ _ _ _ _ _ Hb He Hwf Hc) as (n' & d' & q' & k' & Ex & -> & A & B & C & D & E & F). injection Ex as <- <-.
    exists q', k'. cbn [rd_eof rd_src rd_dec]. auto.
  - destruct (one_step _ _ _ _ _ _ _ _ Hb He Hwf Hc) as (n' & d' & q' & k' & Ex & _). discriminate Ex.
Qed.

(** ** [read_info] *)
Definition under (d : dcd) (q : list (ctl * img)) : Prop :=
  good_src (rd_src L (dc_rd L d)) /\ cv_gpal (dc_conv L d) = gif_palette g /\
  (rd_eof L (dc_rd L d) = true /\ q = [] /\ left_over g tz (rd_rest L (dc_rd L d)) \/
   rd_eof L (dc_rd L d) = false /\ sd_header_end L (rd_dec L (dc_rd L d)) = true /\ past (rd_dec L (dc_rd L d)) = true /\
   exists k, coming (rd_dec L (dc_rd L d)) (rd_rest L (dc_rd L d)) q k).
Definition opening (d : dcd) (q : list (ctl * img)) : Prop :=
  good_src (rd_src L (dc_rd L d)) /\ rd_eof L (dc_rd L d) = false /\ sd_header_end L (rd_dec L (dc_rd L d)) = false /\
  (past (rd_dec L (dc_rd L d)) = true -> cv_gpal (dc_conv L d) = gif_palette g) /\
  (screened (rd_dec L (dc_rd L d)) = true -> dc_bg L d = Some (g_bg g)) /\
  early L (rd_dec L (dc_rd L d)) /\
  exists k, coming (rd_dec L (dc_rd L d)) (rd_rest L (dc_rd L d)) q k /\ k (dc_repeat L d) = gif_repeat g.
Lemma coming_size (s : sd) rest q k : coming s rest q k -> past s = true -> sd_state L s <> Trailer -> sd_width L s = g_w g /\ sd_height L s = g_h g.
Proof.
  intros (_ & _ & H) Hp Ht. unfold comes, AcceptFwd.past in *. destruct (sd_state L s); try discriminate Hp; try (apply H; fail). congruence.
Qed.

Lemma palette_set c : cv_gpal (set_global_palette c (g_gct g)) = gif_palette g.
Proof.
  destruct fine as (((_ & _ & _ & _ & _ & _ & K6) & _) & _). cbn [set_global_palette cv_gpal]. unfold gif_palette.
  pose proof (table_colors_pos (g_flags g)). destruct (has_table (g_flags g)); destruct (g_gct g) as [|x y]; cbn [is_nil]; try reflexivity.
  - cbn [length] in K6. lia.
  - cbn [length] in K6. lia.
Qed.
Lemma bg_fixed (d : dcd) : cv_gpal (dc_conv L d) = gif_palette g -> dc_bg L d = Some (g_bg g) ->
  dc_bg L (fix_bg L d) = gif_bg g /\ dc_conv L (fix_bg L d) = dc_conv L d /\ dc_rd L (fix_bg L d) = dc_rd L d /\
  dc_repeat L (fix_bg L d) = dc_repeat L d.
Proof.
  intros Hg Hb. destruct fine as (((_ & _ & _ & _ & _ & _ & K6) & _) & _). unfold fix_bg. rewrite Hg, Hb. unfold gif_palette, gif_bg.
  destruct (has_table (g_flags g)); [|auto].
  replace (len (g_gct g) / 3) with (table_colors (g_flags g)).
  2:{ unfold len. rewrite K6. rewrite N.mul_comm, N.div_mul by lia. reflexivity. }
  destruct (N.leb_spec (table_colors (g_flags g)) (g_bg g)); destruct (N.ltb_spec (g_bg g) (table_colors (g_flags g))); try lia; auto.
Qed.
Lemma past_screened (s : sd) : past s = true -> screened s = true.
Proof. unfold AcceptFwd.past, screened. destruct (sd_state L s); auto. Qed.

Lemma init_opens fuel : forall d q, rd_good L (dc_rd L d) -> opening d q ->
  match init_loop L fuel d with
  | Ok d' => under d' q /\ dc_bg L d' = gif_bg g /\ dc_repeat L d' = gif_repeat g /\
      sd_width L (rd_dec L (dc_rd L d')) = g_w g /\ sd_height L (rd_dec L (dc_rd L d')) = g_h g
  | Err _ | Panic => False
  | Hang => True
  end.
Proof.
  induction fuel as [|fuel IH]; intros d q Hr (O1 & O2 & O3 & O4 & O5 & O8 & k & O6 & O7); [exact I|]. cbn [init_loop].
  destruct (decode_next L (dc_rd L d) ONone) as [[r ob] x] eqn:E.
  pose proof (decode_next_dnext L safe _ _ _ _ _ (proj1 Hr) E) as Hdn.
  pose proof (dnext_coming _ _ _ _ _ Hdn q k eq_refl (proj1 Hr) O1 O2 O6) as Hx.
  pose proof (dnext_early L safe _ _ _ _ _ Hdn (proj1 Hr) O2 O8) as Hy.
  apply decode_next_all in E; [|exact safe|exact Hr]. destruct E as (Hr' & _).
  destruct x as [[e|]|e| | ]; try contradiction Hx.
  2:{ destruct Hx as (_ & _ & _ & Hx & _). congruence. }
  destruct Hx as (q' & k' & X1 & X2 & X3 & (T1 & T2 & T3) & (K1 & K2 & _ & K4)).
  assert (Hgo : forall d1, dc_rd L d1 = r -> q' = q -> e <> DHeaderEnd ->
    (past (rd_dec L r) = true -> cv_gpal (dc_conv L d1) = gif_palette g) ->
    (screened (rd_dec L r) = true -> dc_bg L d1 = Some (g_bg g)) -> k' (dc_repeat L d1) = gif_repeat g -> opening d1 q).
  { intros d1 E1 -> E2 E3 E4 E5. unfold opening. rewrite E1. split; [exact X2|]. split; [exact X1|]. split; [rewrite (K1 E2); exact O3|].
    split; [exact E3|]. split; [exact E4|]. split; [destruct Hy as [Hy|Hy]; [contradiction|apply Hy]|]. exists k'. auto. }
  assert (Hpl : (forall p, e <> DGlobalPalette p) -> past (rd_dec L r) = true -> cv_gpal (dc_conv L d) = gif_palette g).
  { intros Q Q1. apply O4. rewrite <- Q1. symmetry. destruct e; try exact T2. now contradiction (Q p). }
  assert (Hbg : (forall b, e <> DBackgroundColor b) -> screened (rd_dec L r) = true -> dc_bg L d = Some (g_bg g)).
  { intros Q Q1. apply O5. rewrite <- Q1. symmetry. now apply K2. }
  destruct e as [|p|c|n| |b|x|x|t|n|n| ]; cbn iota in *.
  - apply IH; [exact Hr'|]. apply Hgo; [reflexivity|exact T3|discriminate|apply Hpl; discriminate|apply Hbg; discriminate|rewrite T1; exact O7].
  - destruct T3 as [T3 ->]. apply IH; [exact Hr'|].
    apply Hgo; [reflexivity|exact T3|discriminate|intros _; apply palette_set|apply Hbg; discriminate|rewrite T1; exact O7].
  - destruct T3 as [T3 ->]. apply IH; [exact Hr'|].
    apply Hgo; [reflexivity|exact T3|discriminate|apply Hpl; discriminate|reflexivity|rewrite T1; exact O7].
  - apply IH; [exact Hr'|]. apply Hgo; [reflexivity|exact T3|discriminate|apply Hpl; discriminate|apply Hbg; discriminate|].
    cbn [dc_repeat set_rep]. rewrite <- O7. symmetry. apply (T1 O3).
  - destruct T3 as (-> & T3 & T4). rewrite T3 in T2.
    destruct (bg_fixed (set_rd L d r)) as (B1 & B2 & B3 & B4); [apply Hpl; [discriminate|exact T2]|apply Hbg; [discriminate|now apply past_screened]|].
    unfold under. rewrite B1, B2, B3, B4. cbn [dc_rd set_rd dc_conv dc_repeat]. split.
    + split; [exact X2|]. split; [apply Hpl; [discriminate|exact T2]|]. right. split; [exact X1|]. split; [now apply K4|]. split; [exact T2|]. eauto.
    + split; [reflexivity|]. split; [rewrite <- O7; symmetry; apply T4|]. apply (coming_size _ _ _ _ X3 T2).
      destruct (proj1 Hr') as [_ W]. now apply W.
  - apply IH; [exact Hr'|]. apply Hgo; [reflexivity| |discriminate|apply Hpl; discriminate|apply Hbg; discriminate|rewrite T1; exact O7].
    destruct b; first [exact T3|apply T3].
  - apply IH; [exact Hr'|]. apply Hgo; [reflexivity|exact T3|discriminate|apply Hpl; discriminate|apply Hbg; discriminate|rewrite T1; exact O7].
  - apply IH; [exact Hr'|]. apply Hgo; [reflexivity|exact T3|discriminate|apply Hpl; discriminate|apply Hbg; discriminate|rewrite T1; exact O7].
  - exfalso. destruct Hy as [Hy|(_ & _ & Hy)]; discriminate Hy.
  - apply IH; [exact Hr'|]. apply Hgo; [reflexivity|exact T3|discriminate|apply Hpl; discriminate|apply Hbg; discriminate|rewrite T1; exact O7].
  - apply IH; [exact Hr'|]. apply Hgo; [reflexivity|exact T3|discriminate|apply Hpl; discriminate|apply Hbg; discriminate|rewrite T1; exact O7].
  - apply IH; [exact Hr'|]. apply Hgo; [reflexivity|exact T3|discriminate|apply Hpl; discriminate|apply Hbg; discriminate|rewrite T1; exact O7].
Qed.

(** ** [next_frame_info] *)
Hypothesis with_tables : tables = true.
Lemma info_under fuel : forall d q, rd_good L (dc_rd L d) -> under d q ->
  let '(d', x) := next_frame_info_loop L fuel d in
  match x with
  | Ok b => under d' (List.tl q) /\ match q with [] => b = false | ci :: _ => b = true /\ dc_cur L d' = meta_seen ci end
  | Err _ | Panic => False
  | Hang => True
  end.
Proof.
  induction fuel as [|fuel IH]; intros d q Hr (U1 & U2 & U3); [exact I|]. cbn [next_frame_info_loop].
  destruct (decode_next L (dc_rd L d) ONone) as [[r ob] x] eqn:E.
  pose proof (decode_next_dnext L safe _ _ _ _ _ (proj1 Hr) E) as Hdn.
  destruct U3 as [(U3 & -> & U6)|(U3 & U7 & U4 & k & U5)].
  - destruct (dc_rd L d) as [buf src s eof]. cbn [rd_eof] in U3. subst eof. cbn in U1.
    assert (Hx : x = Ok None /\ r = mk_rd L buf src s true).
    { inversion Hdn; subst; auto. }
    destruct Hx as [-> ->]. split; [|reflexivity]. split; [exact U1|]. split; [exact U2|]. left. auto.
  - pose proof (dnext_coming _ _ _ _ _ Hdn q k eq_refl (proj1 Hr) U1 U3 U5) as Hx.
    apply decode_next_all in E; [|exact safe|exact Hr]. destruct E as (Hr' & _ & _ & Hm).
    destruct x as [[e|]|e| | ]; try contradiction Hx.
    2:{ destruct Hx as (X1 & X2 & -> & _ & X3). split; [|reflexivity]. split; [exact X2|]. split; [exact U2|]. left. auto. }
    destruct Hx as (q' & k' & X1 & X2 & X3 & (T1 & T2 & T3) & (K1 & _ & _ & K4)).
    assert (Hp : past (rd_dec L r) = true).
    { destruct e; try (rewrite T2; exact U4). exact T2. }
    assert (Hh : sd_header_end L (rd_dec L r) = true).
    { destruct e; try (rewrite K1; [exact U7|discriminate]). apply K4. reflexivity. }
    assert (Hgo : q' = q -> under (set_rd L d r) q).
    { intros ->. split; [exact X2|]. split; [exact U2|]. right. split; [exact X1|]. split; [exact Hh|]. split; [exact Hp|]. eauto. }
    assert (Hrec : q' = q -> let '(d', x) := next_frame_info_loop L fuel (set_rd L d r) in
      match x with
      | Ok b => under d' (List.tl q) /\ match q with [] => b = false | ci :: _ => b = true /\ dc_cur L d' = meta_seen ci end
      | Err _ | Panic => False
      | Hang => True
      end) by (intros Q; apply IH; [exact Hr'|now apply Hgo]).
    destruct e as [|p|c|n| |b|x|x|t|n|n| ]; try (apply Hrec; first [exact T3|apply T3]).
    { apply Hrec. destruct b; first [exact T3|apply T3]. }
    destruct T3 as (c & i & -> & Et & Ec & (Hi & _) & _). rewrite Ec. unfold frame_take. cbn zeta beta iota.
    destruct (Hm _ eq_refl) as (_ & kk & Hk).
    match goal with |- context [set_cur L ?a ?b ?c] => set (d2 := set_cur L a b c) in * end.
    assert (Hu : under d2 q').
    { split; [exact X2|]. split; [exact U2|]. right. split; [exact X1|]. destruct X3 as (A & B & C).
      unfold comes in C. cbn [dc_rd set_cur set_rd rd_dec d2]. unfold AcceptFwd.past, AcceptFwd.coming, comes, plan, size, rd_rest. sdcbn.
      cbn [rd_buf rd_src].
      destruct Hk as [[Ek _]|(mm & Ek & _)]; rewrite Ek in C |- *; (split; [exact Hh|]); (split; [reflexivity|]); exists k';
      (split; [exact A|]); (split; [exact B|]); exact C. }
    change (cv_gpal (dc_conv L d2)) with (cv_gpal (dc_conv L d)). rewrite U2. destruct Hi as (_ & _ & _ & Hi). specialize (Hi with_tables).
    unfold whole_meta, meta_frame at 1. cbn [f_palette]. unfold gif_palette.
    assert (Hfin : under d2 (List.tl ((c, i) :: q')) /\ true = true /\ dc_cur L d2 = meta_seen (c, i)) by (split; [exact Hu|]; split; reflexivity).
    destruct (has_table (im_flags i)); [exact Hfin|]. destruct (has_table (g_flags g)); [exact Hfin|]. destruct Hi; discriminate.
Qed.

Lemma scan_under n : forall d q, dcd_good L d -> under d q -> (length q < n)%nat ->
  exists d', scan_all L n d = (d', map meta_seen q, Ok false).
Proof.
  induction n as [|n IH]; intros d q Hd Hu Hn; [lia|]. cbn [scan_all]. destruct (next_frame_info L d) as [d1 y] eqn:E.
  pose proof (next_frame_info_returns L safe umax Humax _ _ _ Hd E) as (Hret & Hd1 & _).
  pose proof (info_under (ev_fuel L (dc_rd L d)) d q (proj1 Hd) Hu) as H. unfold next_frame_info in E. rewrite E in H.
  destruct y as [b|e| | ]; try contradiction. destruct H as [Hu1 H]. destruct q as [|ci q].
  - subst b. exists d1. reflexivity.
  - destruct H as [-> Hc]. cbn [length List.tl] in *. destruct (IH d1 q Hd1 Hu1) as (d' & E'); [lia|]. exists d'. rewrite E'. cbn [map]. now rewrite Hc.
Qed.
End Along.

Section Whole.
Variable L : lzw_codec.
Variable S : lzw_spec L.
Variable umax : N.
Hypothesis Humax : 2 ^ 32 - 1 <= umax.

Lemma fresh_opening tables o g tz src : file_acc tables o g tz -> delivers src (ser_gif g tz) ->
  opening L S tables o g tz (with_no_init L src o) (acc_images g).
Proof.
  intros Hf (H1 & H2 & H3). split; [exact H2|]. split; [reflexivity|]. split; [reflexivity|]. split; [discriminate|]. split; [discriminate|].
  split; [split; [reflexivity|exact I]|]. exists (fun r => loops r (g_blocks g)). split; [|reflexivity].
  split; [reflexivity|]. split.
  - split; [reflexivity|exact I].
  - unfold comes. cbn. split; [repeat split; reflexivity|]. exact H3.
Qed.

Theorem read_info_file tables o g tz src : scannable o -> file_acc tables o g tz -> delivers src (ser_gif g tz) ->
  exists d, read_info L src o = Ok d /\ dcd_good L d /\ under L S tables o g tz d (acc_images g) /\
    dec_width L d = g_w g /\ dec_height L d = g_h g /\ dec_global_palette L d = gif_palette g /\
    dec_bg_color L d = gif_bg g /\ dec_repeat L d = gif_repeat g.
Proof.
  intros Hs Hf Hd. destruct (read_info_returns L (lz_is_safe L S) umax Humax src o (proj1 Hd)) as [Hret Hg].
  pose proof (init_opens L S umax Humax tables o g tz Hs Hf (ev_fuel L (dc_rd L (with_no_init L src o))) _ _
    (proj1 (with_no_init_good L src o (proj1 Hd))) (fresh_opening tables o g tz src Hf Hd)) as H.
  unfold read_info in Hret, Hg |- *.
  destruct (init_loop L (ev_fuel L (dc_rd L (with_no_init L src o))) (with_no_init L src o)) as [d|e| | ]; try contradiction.
  destruct (Hg d eq_refl) as [Hgd _]. destruct H as (Hu & Hb & Hr & Hw & Hh). exists d. split; [reflexivity|]. split; [exact Hgd|]. split; [exact Hu|].
  split; [exact Hw|]. split; [exact Hh|]. split; [apply Hu|]. auto.
Qed.
Theorem scan_file o g tz src n : scannable o -> file_acc true o g tz -> delivers src (ser_gif g tz) -> (length (acc_images g) < n)%nat ->
  exists d d', read_info L src o = Ok d /\ dec_width L d = g_w g /\ dec_height L d = g_h g /\
    dec_global_palette L d = gif_palette g /\ dec_bg_color L d = gif_bg g /\ dec_repeat L d = gif_repeat g /\
    scan_all L n d = (d', map meta_seen (acc_images g), Ok false).
Proof.
  intros Hs Hf Hd Hn. destruct (read_info_file true o g tz src Hs Hf Hd) as (d & E & Hgd & Hu & Hx).
  destruct (scan_under L S umax Humax true o g tz Hs Hf eq_refl n d _ Hgd Hu Hn) as (d' & E'). exists d, d'. tauto.
Qed.
End Whole.

Section Exact.
Variable L : lzw_codec.
Variable S : lzw_spec L.
Variable umax : N.
Hypothesis Humax : 2 ^ 32 - 1 <= umax.
Theorem scan_exact src o : src_ok src -> good_src src -> scannable o ->
  ((exists d n d' fs, read_info L src o = Ok d /\ scan_all L n d = (d', fs, Ok false)) <->
   exists g tl, concat (map ev_bytes src) = ser_gif g tl /\ file_acc true o g tl).
Proof.
  intros Hs Hgs Ho. split.
  - intros (d & n & d' & fs & E & H). exact (scan_accepts L (lz_is_safe L S) umax Humax src o d n d' fs Hs E H).
  - intros (g & tl & E & Hf).
    destruct (scan_file L S umax Humax o g tl src (Datatypes.S (length (acc_images g))) Ho Hf) as (d & d' & E1 & _ & _ & _ & _ & _ & E2).
    + split; [exact Hs|]. split; [exact Hgs|exact E].
    + lia.
    + eauto 6.
Qed.
(** Everything else is refused, with an error. *)
Theorem scan_refuses src o n : src_ok src -> scannable o -> limit_ok umax (o_limit o) -> (bytes_of src < 13 * n)%nat ->
  ~ (exists g tl, concat (map ev_bytes src) = ser_gif g tl /\ file_acc true o g tl) ->
  (exists e, read_info L src o = Err e) \/
  exists d d' fs e, read_info L src o = Ok d /\ scan_all L n d = (d', fs, Err e).
Proof.
  intros Hs Ho Hl Hn Hno. destruct (read_info_returns L (lz_is_safe L S) umax Humax src o Hs) as [Hret _].
  destruct (read_info L src o) as [d|e| | ] eqn:E; try contradiction; [|left; eauto]. right.
  destruct (scan_all L n d) as [[d' fs] x] eqn:E1.
  destruct (loops_end L (lz_is_safe L S) umax Humax src o d n Hs Hl E) as (_ & H & _).
  destruct (H _ _ _ E1) as [_ H1]. destruct (H1 Hn) as [->|[e ->]]; [|eauto 8]. exfalso. apply Hno.
  exact (scan_accepts L (lz_is_safe L S) umax Humax src o d n d' fs Hs E E1).
Qed.
End Exact.
