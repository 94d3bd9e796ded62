(** The transitions of [next_state] listed one by one, for decoders that satisfy the invariant.
    Later proofs go by cases on [nst]. *)
From Verif Require Import Base Common Lzw Encoder Stream StreamInv.
Open Scope N_scope.

Definition is_hdr (st : state) : bool :=
  match st with Magic | ScreenDescriptor | ImageBlockStart => true | _ => false end.

Section Steps.
Variable L : lzw_codec.
Hypothesis safe : lzw_safe L.
Notation sd := (sd L).

(** The bytes of a fixed-size header, and how many of them come from [buf]. *)
Definition hn (s : sd) : nat := (need (sd_state L s) - length (sd_ibuf L s))%nat.
Definition hdr (s : sd) (buf : list N) : list N := sd_ibuf L s ++ firstn (hn s) buf.

(** Effects of the successful fixed-size headers. *)
Definition after_screen (s : sd) (v : list N) : sd :=
  let s2 := set_screen L (set_ibuf L s []) (rd16 (at_ v 0) (at_ v 1)) (rd16 (at_ v 2) (at_ v 3)) in
  if negb (N.land (at_ v 4) 0x80 =? 0)
  then set_state L (set_gct L s2 [] (table_bytes (at_ v 4))) (GlobalPalette (table_bytes (at_ v 4)))
  else set_state L s2 (GlobalPalette 0).

Definition img_frame (f : frame) (v : list N) : frame :=
  set_geometry f (rd16 (at_ v 0) (at_ v 1)) (rd16 (at_ v 2) (at_ v 3))
    (rd16 (at_ v 4) (at_ v 5)) (rd16 (at_ v 6) (at_ v 7)) (negb (N.land (at_ v 8) 0x40 =? 0)).

Definition img_oob (s : sd) (f : frame) : bool :=
  o_check_frame_consistency (sd_opts L s) &&
  (out_of_bounds (sd_width L s) (f_width f) (f_left f) ||
   out_of_bounds (sd_height L s) (f_height f) (f_top f)).

Definition after_image (s : sd) (f : frame) (v : list N) : sd :=
  let f1 := img_frame f v in
  let s1 := set_ibuf L s [] in
  if negb (N.land (at_ v 8) 0x80 =? 0) then
    let p := match f_palette f with Some p => p | None => [] end in
    let cap := match f_palette f with Some _ => sd_pal_cap L s | None => O end in
    set_state L (set_current L s1 (Some (set_palette f1 (Some p)))
                   (Nat.max cap (length p + table_bytes (at_ v 8)))) (LocalPalette (table_bytes (at_ v 8)))
  else set_state L (set_current L s1 (Some f1) (sd_pal_cap L s)) (LocalPalette 0).

Definition ctl_frame (f : frame) (c : list N) : frame :=
  set_control f (negb (N.land (at_ c 0) 2 =? 0))
    (match disposal_from_u8 (N.shiftr (N.land (at_ c 0) 28) 2) with Some m => m | None => DAny end)
    (rd16 (at_ c 1) (at_ c 2)) (if N.land (at_ c 0) 1 =? 0 then None else Some (at_ c 3)).
Definition cur_or_default (s : sd) : frame :=
  match sd_current L s with Some f => f | None => frame_default end.
Definition cap_or_0 (s : sd) : nat :=
  match sd_current L s with Some _ => sd_pal_cap L s | None => O end.

Definition is_none_ob (ob : obuf) : bool := match ob with ONone => true | _ => false end.

Inductive nst (s : sd) (buf : list N) (ob : obuf) : sd -> obuf -> dres (nat * decoded) -> Prop :=
| N_more : is_hdr (sd_state L s) = true -> (length (sd_ibuf L s ++ buf) < need (sd_state L s))%nat ->
    nst s buf ob (set_ibuf L s (sd_ibuf L s ++ buf)) ob (Ok (length buf, DNothing))
| N_magic ver : sd_state L s = Magic -> (hn s <= length buf)%nat ->
    hdr s buf = (match ver with V87a => GIF87a | V89a => GIF89a end) ->
    nst s buf ob (set_state L (set_version L (set_ibuf L s []) ver) ScreenDescriptor) ob
      (Ok (hn s, DNothing))
| N_magic_bad : sd_state L s = Magic -> (hn s <= length buf)%nat ->
    hdr s buf <> GIF87a -> hdr s buf <> GIF89a ->
    nst s buf ob (set_ibuf L s []) ob (Err (DFormat MalformedHeader))
| N_screen : sd_state L s = ScreenDescriptor -> (hn s <= length buf)%nat ->
    nst s buf ob (after_screen s (hdr s buf)) ob
      (Ok (hn s, DBackgroundColor (at_ (hdr s buf) 5)))
| N_image f : sd_state L s = ImageBlockStart -> (hn s <= length buf)%nat -> sd_current L s = Some f ->
    img_oob s (img_frame f (hdr s buf)) = false ->
    nst s buf ob (after_image s f (hdr s buf)) ob (Ok (hn s, DNothing))
| N_image_oob f : sd_state L s = ImageBlockStart -> (hn s <= length buf)%nat -> sd_current L s = Some f ->
    img_oob s (img_frame f (hdr s buf)) = true ->
    nst s buf ob (set_current L (set_ibuf L s []) (Some (img_frame f (hdr s buf))) (sd_pal_cap L s)) ob
      (Err (DFormat FrameOutOfBounds))
| N_gp k n : sd_state L s = GlobalPalette k -> (0 < k)%nat -> n = Nat.min k (length buf) ->
    nst s buf ob
      (set_state L (set_gct L s (sd_gct L s ++ firstn n buf) (sd_gct_cap L s)) (GlobalPalette (k - n)))
      ob (Ok (n, DNothing))
| N_gp_end b t : sd_state L s = GlobalPalette 0 -> buf = b :: t ->
    nst s buf ob (set_state L (set_gct L s [] 0) (BlockStart b)) ob
      (Ok (1%nat, DGlobalPalette (sd_gct L s)))
| N_header_end t : sd_state L s = BlockStart t -> sd_header_end L s = false -> t <> 0x21 ->
    nst s buf ob (set_state L (set_header_end L s true) (BlockStart t)) ob (Ok (O, DHeaderEnd))
| N_bs_image : sd_state L s = BlockStart 0x2C -> sd_header_end L s = true ->
    nst s buf ob (set_state L (set_current L s (Some (cur_or_default s)) (cap_or_0 s)) ImageBlockStart) ob
      (Ok (O, DBlockStart BkImage))
| N_bs_ext b t x : sd_state L s = BlockStart 0x21 -> buf = b :: t -> extension_from_u8 b = Some x ->
    nst s buf ob (set_state L (set_ext L s b [] (sd_ext_end L s)) ExtensionBlockStart) ob
      (Ok (1%nat, DBlockStart BkExtension))
| N_bs_ext_bad b t : sd_state L s = BlockStart 0x21 -> buf = b :: t -> extension_from_u8 b = None ->
    nst s buf ob (set_ext L s b [] (sd_ext_end L s)) ob (Err (DFormat UnknownBlockType))
| N_bs_trailer : sd_state L s = BlockStart 0x3B -> sd_header_end L s = true ->
    nst s buf ob (set_state L s Trailer) ob (Ok (1%nat, DBlockStart BkTrailer))
| N_bs_unknown b t c : sd_state L s = BlockStart c -> sd_header_end L s = true ->
    c <> 0x2C -> c <> 0x21 -> c <> 0x3B ->
    o_allow_unknown_blocks (sd_opts L s) = true -> buf = b :: t ->
    nst s buf ob (set_state L s (ExtensionDataBlock (N.to_nat b))) ob (Ok (1%nat, DNothing))
| N_bs_unknown_bad c : sd_state L s = BlockStart c -> sd_header_end L s = true ->
    c <> 0x2C -> c <> 0x21 -> c <> 0x3B ->
    o_allow_unknown_blocks (sd_opts L s) = false ->
    nst s buf ob s ob (Err (DFormat UnknownBlockType))
| N_be_trailer t : sd_state L s = BlockEnd -> buf = 0x3B :: t ->
    nst s buf ob (set_state L s (BlockStart 0x3B)) ob (Ok (O, DNothing))
| N_be b t : sd_state L s = BlockEnd -> buf = b :: t -> b <> 0x3B ->
    nst s buf ob (set_state L s (BlockStart b)) ob (Ok (1%nat, DNothing))
| N_xb b t : sd_state L s = ExtensionBlockStart -> buf = b :: t ->
    nst s buf ob (set_state L (set_ext L s (sd_ext_id L s) (sd_ext_data L s ++ [b]) (sd_ext_end L s))
      (ExtensionDataBlock (N.to_nat b))) ob (Ok (1%nat, DNothing))
| N_xd k n : sd_state L s = ExtensionDataBlock k -> (0 < k)%nat -> n = Nat.min k (length buf) ->
    check_size (o_limit (sd_opts L s)) (len (sd_ext_data L s) + N.of_nat n) = true ->
    nst s buf ob (set_state L (set_ext L s (sd_ext_id L s) (sd_ext_data L s ++ firstn n buf) (sd_ext_end L s))
      (ExtensionDataBlock (k - n))) ob (Ok (n, DNothing))
| N_xd_limit k n : sd_state L s = ExtensionDataBlock k -> (0 < k)%nat -> n = Nat.min k (length buf) ->
    check_size (o_limit (sd_opts L s)) (len (sd_ext_data L s) + N.of_nat n) = false ->
    nst s buf ob s ob (Err (DFormat MemoryLimitReached))
| N_xd_next b t : sd_state L s = ExtensionDataBlock 0 -> buf = b :: t -> b <> 0 ->
    nst s buf ob (set_state L (set_ext L s (sd_ext_id L s) (sd_ext_data L s) false)
      (ExtensionDataBlock (N.to_nat b))) ob (Ok (1%nat, DSubBlockFinished (sd_ext_id L s)))
| N_xd_app t : sd_state L s = ExtensionDataBlock 0 -> buf = 0 :: t ->
    extension_from_u8 (sd_ext_id L s) = Some XApplication ->
    nst s buf ob (set_state L (set_ext L s (sd_ext_id L s) (sd_ext_data L s) true) ApplicationExtension) ob
      (Ok (O, DBlockFinished (sd_ext_id L s)))
| N_xd_ctl t : sd_state L s = ExtensionDataBlock 0 -> buf = 0 :: t ->
    extension_from_u8 (sd_ext_id L s) = Some XControl -> length (sd_ext_data L s) = 5%nat ->
    nst s buf ob
      (set_state L (set_current L (set_ext L s (sd_ext_id L s) (sd_ext_data L s) true)
         (Some (ctl_frame (cur_or_default s) (skipn 1 (sd_ext_data L s)))) (cap_or_0 s)) BlockEnd) ob
      (Ok (1%nat, DBlockFinished (sd_ext_id L s)))
| N_xd_ctl_bad t : sd_state L s = ExtensionDataBlock 0 -> buf = 0 :: t ->
    extension_from_u8 (sd_ext_id L s) = Some XControl -> length (sd_ext_data L s) <> 5%nat ->
    nst s buf ob (set_ext L s (sd_ext_id L s) (sd_ext_data L s) true) ob
      (Err (DFormat ControlWrongLength))
| N_xd_end t : sd_state L s = ExtensionDataBlock 0 -> buf = 0 :: t ->
    extension_from_u8 (sd_ext_id L s) <> Some XApplication ->
    extension_from_u8 (sd_ext_id L s) <> Some XControl ->
    nst s buf ob (set_state L (set_ext L s (sd_ext_id L s) (sd_ext_data L s) true) BlockEnd) ob
      (Ok (1%nat, DBlockFinished (sd_ext_id L s)))
| N_app t d : sd_state L s = ApplicationExtension -> buf = 0 :: t ->
    d = (if is_netscape (sd_ext_data L s) then
           let r := rd16 (at_ (sd_ext_data L s) 13) (at_ (sd_ext_data L s) 14) in
           DRepetitions (if r =? 0 then RInfinite else RFinite r)
         else DNothing) ->
    nst s buf ob (set_state L s BlockEnd) ob (Ok (1%nat, d))
| N_lp k n f p : sd_state L s = LocalPalette k -> (0 < k)%nat -> n = Nat.min k (length buf) ->
    sd_current L s = Some f -> f_palette f = Some p ->
    nst s buf ob
      (set_state L (set_current L s (Some (set_palette f (Some (p ++ firstn n buf)))) (sd_pal_cap L s))
         (LocalPalette (k - n))) ob (Ok (n, DNothing))
| N_lp_end b t : sd_state L s = LocalPalette 0 -> buf = b :: t ->
    nst s buf ob (set_state L s (LzwInit b)) ob (Ok (1%nat, DNothing))
| N_init b t m r : sd_state L s = LzwInit m -> buf = b :: t ->
    o_skip_frame_decoding (sd_opts L s) = false -> lr_reset L (sd_lzw L s) m = (r, Ok tt) ->
    check_code_size m = true ->
    nst s buf ob (set_state L (set_lzw L s r) (DecodeSubBlock (N.to_nat b))) ob
      (Ok (1%nat, DFrameMetadata FPixels))
| N_init_skip b t m : sd_state L s = LzwInit m -> buf = b :: t ->
    o_skip_frame_decoding (sd_opts L s) = true -> check_code_size m = true ->
    nst s buf ob (set_state L s (CopySubBlock (N.to_nat b))) ob
      (Ok (1%nat, DFrameMetadata (FLzw m)))
| N_init_bad m : sd_state L s = LzwInit m -> check_code_size m = false ->
    nst s buf ob s ob (Err (DFormat InvalidMinimalCodeSize))
| N_cp k n ob1 consumed copied : sd_state L s = CopySubBlock k -> (0 < k)%nat ->
    n = Nat.min k (length buf) ->
    obuf_append ob (firstn n buf) (o_limit (sd_opts L s)) = (ob1, Ok (consumed, copied)) ->
    (consumed <= n)%nat ->
    nst s buf ob (set_state L s (CopySubBlock (k - consumed))) ob1 (Ok (consumed, DLzwDataCopied copied))
| N_cp_limit k n e : sd_state L s = CopySubBlock k -> (0 < k)%nat ->
    n = Nat.min k (length buf) ->
    obuf_append ob (firstn n buf) (o_limit (sd_opts L s)) = (ob, Err e) ->
    nst s buf ob s ob (Err e)
| N_cp_next b t : sd_state L s = CopySubBlock 0 -> buf = b :: t -> b <> 0 ->
    nst s buf ob (set_state L s (CopySubBlock (N.to_nat b))) ob (Ok (1%nat, DNothing))
| N_cp_end t : sd_state L s = CopySubBlock 0 -> buf = 0 :: t ->
    nst s buf ob (set_state L s FrameDecoded) ob (Ok (O, DNothing))
| N_de_skip k n : sd_state L s = DecodeSubBlock k -> (0 < k)%nat -> n = Nat.min k (length buf) ->
    lr_has_ended L (sd_lzw L s) || is_none_ob ob = true ->
    nst s buf ob (set_state L s (DecodeSubBlock (k - n))) ob (Ok (n, DNothing))
| N_de k n r1 ob1 c0 c w : sd_state L s = DecodeSubBlock k -> (0 < k)%nat -> n = Nat.min k (length buf) ->
    lr_has_ended L (sd_lzw L s) || is_none_ob ob = false ->
    lr_decode_bytes L (sd_lzw L s) (firstn n buf) ob = (r1, ob1, Ok (c0, w)) ->
    (c0 <= n)%nat -> c = (if (c0 =? 0)%nat && (w =? 0)%nat then n else c0) ->
    nst s buf ob (set_state L (set_lzw L s r1) (DecodeSubBlock (k - c))) ob1
      (Ok (c, if (w =? 0)%nat then DNothing else DBytesDecoded w))
| N_de_err k n r1 ob1 e : sd_state L s = DecodeSubBlock k -> (0 < k)%nat -> n = Nat.min k (length buf) ->
    lr_has_ended L (sd_lzw L s) || is_none_ob ob = false ->
    lr_decode_bytes L (sd_lzw L s) (firstn n buf) ob = (r1, ob1, Err e) ->
    nst s buf ob (set_lzw L s r1) ob1 (Err e)
| N_de_next b t : sd_state L s = DecodeSubBlock 0 -> buf = b :: t -> b <> 0 ->
    nst s buf ob (set_state L s (DecodeSubBlock (N.to_nat b))) ob (Ok (1%nat, DNothing))
| N_de_drain t r1 ob1 c0 w : sd_state L s = DecodeSubBlock 0 -> buf = 0 :: t ->
    lr_decode_bytes L (sd_lzw L s) [] ob = (r1, ob1, Ok (c0, w)) ->
    nst s buf ob (set_state L (set_lzw L s r1) (if (w =? 0)%nat then FrameDecoded else DecodeSubBlock 0)) ob1
      (Ok (O, if (w =? 0)%nat then DNothing else DBytesDecoded w))
| N_de_drain_err t r1 ob1 e : sd_state L s = DecodeSubBlock 0 -> buf = 0 :: t ->
    lr_decode_bytes L (sd_lzw L s) [] ob = (r1, ob1, Err e) ->
    nst s buf ob (set_lzw L s r1) ob1 (Err e)
| N_fd t : sd_state L s = FrameDecoded -> buf = 0 :: t ->
    nst s buf ob (set_state L (set_current L s None 0) BlockEnd) ob (Ok (1%nat, DDataEnd))
| N_trailer : sd_state L s = Trailer -> nst s buf ob (set_state L s Trailer) ob (Ok (O, DNothing)).

Lemma next_state_nst s buf ob s' ob' r :
  sd_wf L s -> zero_ok L s buf -> buf <> [] -> next_state L s buf ob = (s', ob', r) ->
  nst s buf ob s' ob' r.
Proof.
  intros Hwf Hz Hb H.
  destruct buf as [|b buf']; [congruence|].
  remember (b :: buf') as buf eqn:Ebuf.
  pose proof Hwf as (Hi & Hg & Hc & Hm).
  unfold next_state in H. rewrite Ebuf in H. rewrite <- Ebuf in H.
  unfold gct_wf, cur_wf, mode_wf in Hg, Hc, Hm.
  unfold zero_ok in Hz.
  destruct (sd_state L s) as [ | | | lft | t | | | lft | | lft | m | lft | lft | | ] eqn:Est;
    cbn [need late] in Hi, Hz; unfold goto in H.
  - (* Magic *)
    pose proof (ensure_min_ok L s buf 6 Hi ltac:(lia) Hb) as He.
    destruct (ensure_min L s buf 6) as [ |s1 n|s1 n v]; [easy| | ].
    + destruct He as (-> & -> & Hl). injection H as <- <- <-. apply N_more; rewrite Est; auto.
    + destruct He as (-> & -> & Hn & Hv & Hl).
      assert (Eh : hdr s buf = v) by (unfold hdr, hn; rewrite Est; cbn [need]; congruence).
      assert (En : hn s = (6 - length (sd_ibuf L s))%nat) by (unfold hn; rewrite Est; reflexivity).
      rewrite <- En in *.
      destruct (list_eqb v GIF87a) eqn:E1.
      { apply list_eqb_eq in E1. injection H as <- <- <-.
        apply (N_magic _ _ _ V87a); auto. congruence. }
      destruct (list_eqb v GIF89a) eqn:E2.
      { apply list_eqb_eq in E2. injection H as <- <- <-.
        apply (N_magic _ _ _ V89a); auto. congruence. }
      injection H as <- <- <-. apply N_magic_bad; auto; rewrite Eh; intros E.
      * apply list_eqb_eq in E. congruence.
      * apply list_eqb_eq in E. congruence.
  - (* ScreenDescriptor *)
    pose proof (ensure_min_ok L s buf 7 Hi ltac:(lia) Hb) as He.
    destruct (ensure_min L s buf 7) as [ |s1 n|s1 n v]; [easy| | ].
    + destruct He as (-> & -> & Hl). injection H as <- <- <-. apply N_more; rewrite Est; auto.
    + destruct He as (-> & -> & Hn & Hv & Hl).
      assert (Eh : hdr s buf = v) by (unfold hdr, hn; rewrite Est; cbn [need]; congruence).
      assert (En : hn s = (7 - length (sd_ibuf L s))%nat) by (unfold hn; rewrite Est; reflexivity).
      rewrite <- En in *. destruct Hg as [Hg1 Hg2].
      assert (E : (after_screen s v, ob, Ok (hn s, DBackgroundColor (at_ v 5))) = (s', ob', r)).
      { rewrite <- H. unfold after_screen. cbn zeta. sdcbn.
        destruct (negb _); [|reflexivity]. rewrite Hg1, Hg2. reflexivity. }
      injection E as <- <- <-. rewrite <- Eh. apply N_screen; auto.
  - (* ImageBlockStart *)
    pose proof (ensure_min_ok L s buf 9 Hi ltac:(lia) Hb) as He.
    destruct (ensure_min L s buf 9) as [ |s1 n|s1 n v]; [easy| | ].
    + destruct He as (-> & -> & Hl). injection H as <- <- <-. apply N_more; rewrite Est; auto.
    + destruct He as (-> & -> & Hn & Hv & Hl). sdcbn_in H.
      assert (Eh : hdr s buf = v) by (unfold hdr, hn; rewrite Est; cbn [need]; congruence).
      assert (En : hn s = (9 - length (sd_ibuf L s))%nat) by (unfold hn; rewrite Est; reflexivity).
      rewrite <- En in *.
      destruct (sd_current L s) as [f|] eqn:Ec; [|congruence]. cbn zeta in H. sdcbn_in H.
      match type of H with (if ?c then _ else _) = _ => assert (Eo : c = img_oob s (img_frame f v)) by reflexivity;
        rewrite Eo in H; clear Eo end.
      destruct (img_oob s (img_frame f v)) eqn:Eo.
      * injection H as <- <- <-. rewrite <- Eh in *. eapply N_image_oob; eauto.
      * assert (E : (after_image s f v, ob, Ok (hn s, DNothing)) = (s', ob', r)).
        { rewrite <- H. unfold after_image. cbn zeta.
          destruct (negb (N.land (at_ v 8) 128 =? 0)); [|reflexivity].
          cbn [f_palette set_geometry img_frame]. destruct (f_palette f); reflexivity. }
        injection E as <- <- <-. rewrite <- Eh in *. eapply N_image; eauto.
  - (* GlobalPalette *)
    destruct (Nat.ltb_spec 0 lft) as [Hl|Hl].
    + cbn zeta in H.
      destruct (Nat.leb_spec (Nat.min lft (length buf)) (sd_gct_cap L s - length (sd_gct L s))); [|lia].
      injection H as <- <- <-. eapply N_gp; eauto.
    + assert (lft = O) as -> by lia. injection H as <- <- <-. eapply N_gp_end; eauto.
  - (* BlockStart *)
    assert (Ht : forall c, block_from_u8 t = c ->
      match c with Some k => t = block_u8 k | None => t <> 0x2C /\ t <> 0x21 /\ t <> 0x3B end).
    { intros c <-. unfold block_from_u8.
      destruct (N.eqb_spec t 0x2C); [assumption|]. destruct (N.eqb_spec t 0x21); [assumption|].
      destruct (N.eqb_spec t 0x3B); [assumption|]. auto. }
    destruct (sd_header_end L s) eqn:Eh; cbn [negb andb] in H.
    + destruct (block_from_u8 t) as [[ | | ]|] eqn:Eb; specialize (Ht _ eq_refl); cbn [block_u8] in Ht.
      * assert (E : add_frame L s = set_current L s (Some (cur_or_default s)) (cap_or_0 s)).
        { unfold add_frame, cur_or_default, cap_or_0. destruct (sd_current L s) eqn:Ec; [|reflexivity].
          destruct s; cbn in *; subst; reflexivity. }
        rewrite E in H. injection H as <- <- <-. subst t. apply N_bs_image; auto.
      * cbn zeta in H. subst t. destruct (extension_from_u8 b) as [x|] eqn:Ex; injection H as <- <- <-.
        -- eapply N_bs_ext; eauto.
        -- eapply N_bs_ext_bad; eauto.
      * injection H as <- <- <-. subst t. apply N_bs_trailer; auto.
      * destruct Ht as (H1 & H2 & H3). destruct (o_allow_unknown_blocks _) eqn:Ea; injection H as <- <- <-.
        -- eapply N_bs_unknown; eauto.
        -- eapply N_bs_unknown_bad; eauto.
    + destruct (N.eqb_spec t (block_u8 BkExtension)) as [->|Hn]; cbn [negb] in H.
      * cbn [block_from_u8 block_u8 N.eqb Pos.eqb] in H. cbn zeta in H.
        destruct (extension_from_u8 b) as [x|] eqn:Ex; injection H as <- <- <-.
        -- eapply N_bs_ext; eauto.
        -- eapply N_bs_ext_bad; eauto.
      * injection H as <- <- <-. eapply N_header_end; eauto.
  - (* BlockEnd *)
    destruct (N.eqb_spec b (block_u8 BkTrailer)) as [->|Hn]; injection H as <- <- <-.
    + eapply N_be_trailer; eauto.
    + eapply N_be; eauto.
  - (* ExtensionBlockStart *)
    injection H as <- <- <-. eapply N_xb; eauto.
  - (* ExtensionDataBlock *)
    destruct (Nat.ltb_spec 0 lft) as [Hl|Hl].
    + cbn zeta in H. destruct (check_size _ _) eqn:Ec; injection H as <- <- <-.
      * eapply N_xd; eauto.
      * eapply N_xd_limit; eauto.
    + assert (lft = O) as -> by lia.
      destruct (N.eqb_spec b 0) as [->|Hb0].
      * cbn zeta in H. sdcbn_in H.
        destruct (extension_from_u8 (sd_ext_id L s)) as [[ | | | ]|] eqn:Ex.
        -- injection H as <- <- <-. eapply N_xd_end; eauto; congruence.
        -- unfold read_control_extension in H. sdcbn_in H.
           destruct (Nat.eqb_spec (length (sd_ext_data L s)) 5) as [E5|E5]; cbn [negb] in H.
           ++ injection H as <- <- <-. eapply (N_xd_ctl s buf ob); eauto.
           ++ injection H as <- <- <-. eapply N_xd_ctl_bad; eauto.
        -- injection H as <- <- <-. eapply N_xd_end; eauto; congruence.
        -- injection H as <- <- <-. eapply N_xd_app; eauto.
        -- injection H as <- <- <-. eapply N_xd_end; eauto; congruence.
      * injection H as <- <- <-. eapply N_xd_next; eauto.
  - (* ApplicationExtension *)
    destruct (Hz eq_refl) as [tl Htl]. assert (b = 0) by congruence. subst b.
    cbn [N.eqb negb] in H.
    destruct (is_netscape _) eqn:En; injection H as <- <- <-; eapply N_app; eauto; rewrite En; reflexivity.
  - (* LocalPalette *)
    destruct Hc as (f & Hf & Hp).
    destruct (Nat.ltb_spec 0 lft) as [Hl|Hl].
    + destruct (Hp Hl) as (p & Hp1 & Hp2). rewrite Hf, Hp1 in H. cbn zeta in H.
      destruct (Nat.leb_spec (Nat.min lft (length buf)) (sd_pal_cap L s - length p)); [|lia].
      injection H as <- <- <-. eapply N_lp; eauto.
    + assert (lft = O) as -> by lia. injection H as <- <- <-. eapply N_lp_end; eauto.
  - (* LzwInit *)
    destruct (o_skip_frame_decoding (sd_opts L s)) eqn:Es; cbn [negb] in H.
    + destruct (check_code_size m) eqn:Ec; injection H as <- <- <-.
      * eapply N_init_skip; eauto.
      * eapply N_init_bad; eauto.
    + destruct (lr_reset L (sd_lzw L s) m) as [r1 x] eqn:Er. pose proof Er as Er0.
      unfold lr_reset in Er. destruct (check_code_size m) eqn:Ec.
      * assert (x = Ok tt) as ->.
        { destruct (lr_decoder L (sd_lzw L s)); [destruct (negb _)|]; injection Er as <- <-; reflexivity. }
        injection H as <- <- <-. eapply N_init; eauto.
      * injection Er as <- <-. injection H as <- <- <-.
        replace (set_lzw L s (sd_lzw L s)) with s by (destruct s; reflexivity).
        eapply N_init_bad; eauto.
  - (* DecodeSubBlock *)
    destruct Hm as [Hm1 Hm2]. rewrite Hm1 in H.
    destruct (Nat.ltb_spec 0 lft) as [Hl|Hl].
    + cbn zeta in H.
      assert (Ei : match ob with ONone => true | _ => false end = is_none_ob ob) by reflexivity.
      rewrite Ei in H. clear Ei.
      destruct (_ || _) eqn:Eo; [injection H as <- <- <-; eapply N_de_skip; eauto|].
      destruct (lr_decode_bytes L (sd_lzw L s) (firstn (Nat.min lft (length buf)) buf) ob)
        as [[r1 ob1] x] eqn:El. pose proof El as El0.
      apply (lr_decode_bytes_safe L safe) in El; [|exact Hm2].
      destruct El as (Hd & Hck & Hsh1 & Hx).
      destruct x as [[n k]|e| | ]; try easy.
      * destruct Hx as [Hx1 Hx2]. rewrite firstn_length in Hx1.
        match type of H with (if (lft <? ?c)%nat then _ else _) = _ =>
          destruct (Nat.ltb_spec lft c) as [Hlt|Hlt] end.
        { destruct (_ && _) in Hlt; lia. }
        injection H as <- <- <-. eapply N_de; eauto. lia.
      * injection H as <- <- <-. eapply N_de_err; eauto.
    + assert (lft = O) as -> by lia.
      destruct (N.eqb_spec b 0) as [->|Hb0]; cbn [negb] in H.
      * destruct (lr_decode_bytes L (sd_lzw L s) [] ob) as [[r1 ob1] x] eqn:El. pose proof El as El0.
        apply (lr_decode_bytes_safe L safe) in El; [|exact Hm2].
        destruct El as (Hd & Hck & Hsh1 & Hx).
        destruct x as [[n k]|e| | ]; try easy.
        -- pose proof (N_de_drain s buf ob buf' r1 ob1 n k Est Ebuf El0) as Hd0.
           destruct (Nat.eqb_spec k 0) as [->|Hk]; injection H as <- <- <-; exact Hd0.
        -- injection H as <- <- <-. eapply N_de_drain_err; eauto.
      * injection H as <- <- <-. eapply N_de_next; eauto.
  - (* CopySubBlock *)
    rewrite Hm in H. cbn [negb] in H.
    destruct (Nat.ltb_spec 0 lft) as [Hl|Hl].
    + cbn zeta in H.
      destruct (obuf_append ob (firstn (Nat.min lft (length buf)) buf) (o_limit (sd_opts L s)))
        as [ob1 x] eqn:Ea. pose proof Ea as Ea0.
      assert (Hx : match x with Ok (c, k) => (c <= Nat.min lft (length buf))%nat | Err _ => ob1 = ob
                   | _ => False end).
      { unfold obuf_append in Ea.
        destruct ob as [sl|v| ]; [|destruct (check_size _ _)|]; injection Ea as <- <-;
          rewrite ?firstn_length; try lia; reflexivity. }
      destruct x as [[c k]|e| | ]; try easy.
      * destruct (Nat.ltb_spec lft c) as [Hlt|Hlt]; [lia|].
        injection H as <- <- <-. eapply N_cp; eauto.
      * subst ob1. injection H as <- <- <-. eapply N_cp_limit; eauto.
    + assert (lft = O) as -> by lia.
      destruct (N.eqb_spec b 0) as [->|Hb0]; cbn [negb] in H; injection H as <- <- <-.
      * eapply N_cp_end; eauto.
      * eapply N_cp_next; eauto.
  - (* FrameDecoded *)
    destruct (Hz eq_refl) as [tl Htl]. assert (b = 0) by congruence. subst b.
    cbn [N.eqb negb] in H. injection H as <- <- <-. eapply N_fd; eauto.
  - (* Trailer *)
    injection H as <- <- <-. apply N_trailer; auto.
Qed.

End Steps.
