(** The two colour outputs agree on every input (C61). *)
From Verif Require Import Base Common Lzw Encoder Stream Converter Reader StreamInv Steps StepsRev
  ReaderInv Interlace Ranges ConvInv DecoderSafe DocAll FrameDec Relax SpecPixels Pixels ShortData Mixed SpecRecolor.
Open Scope nat_scope.

Section RC.
Variable L : lzw_codec.
Hypothesis safe : lzw_safe L.
Variable umax : N.
Hypothesis Humax : (2 ^ 32 - 1 <= umax)%N.
Notation sd := (sd L).
Notation rd := (Reader.rd L).
Notation dcd := (Reader.dcd L).

Definition recol (s : sd) : sd :=
  mk_sd L (sd_state L s) (sd_ibuf L s) (sd_lzw L s) (indexed (sd_opts L s)) (sd_version L s) (sd_width L s) (sd_height L s)
    (sd_gct L s) (sd_gct_cap L s) (sd_ext_id L s) (sd_ext_data L s) (sd_ext_end L s)
    (sd_current L s) (sd_pal_cap L s) (sd_header_end L s).
Definition rec3 {A B} (x : sd * A * B) : sd * A * B := let '(s, a, b) := x in (recol s, a, b).

Ltac sdc := cbn [recol rec3 indexed goto set_state set_ibuf set_lzw set_version set_screen set_gct set_ext set_current set_header_end
  sd_state sd_ibuf sd_lzw sd_opts sd_version sd_width sd_height sd_gct sd_gct_cap sd_ext_id sd_ext_data sd_ext_end sd_current
  sd_pal_cap sd_header_end o_limit o_color o_check_frame_consistency o_skip_frame_decoding o_check_for_end_code o_allow_unknown_blocks] in *.

Lemma ensure_recol s buf n : ensure_min L (recol s) buf n =
  match ensure_min L s buf n with GotPanic _ => GotPanic L | GotMore _ s1 k => GotMore L (recol s1) k | GotAll _ s1 k d => GotAll L (recol s1) k d end.
Proof.
  unfold ensure_min. change (sd_ibuf L (recol s)) with (sd_ibuf L s). destruct (_ && _); [reflexivity|].
  destruct (_ <? _); [|reflexivity]. destruct (9 <? _); [reflexivity|]. destruct (_ <? _); reflexivity.
Qed.

(** The colour output plays no part in the reading of the file. *)
Lemma next_state_recol s buf ob : next_state L (recol s) buf ob = rec3 (next_state L s buf ob).
Proof.
  unfold next_state. destruct buf as [|b bs]; [reflexivity|]. set (buf := b :: bs). clearbody buf.
  change (sd_state L (recol s)) with (sd_state L s). destruct (sd_state L s) as [ | | |lft|t| | |lft| |lft|m|lft|lft| | ].
  - rewrite ensure_recol. destruct (ensure_min L s buf 6) as [|s2 n|s2 n v]; [reflexivity|reflexivity|].
    destruct (list_eqb v GIF87a); [reflexivity|]. destruct (list_eqb v GIF89a); reflexivity.
  - rewrite ensure_recol. destruct (ensure_min L s buf 7) as [|s2 n|s2 n v]; [reflexivity|reflexivity|].
    sdc. destruct (negb _); reflexivity.
  - rewrite ensure_recol. destruct (ensure_min L s buf 9) as [|s2 n|s2 n h]; [reflexivity|reflexivity|].
    sdc. destruct (sd_current L s2) as [f|]; [|reflexivity]. sdc.
    destruct (_ && _); [reflexivity|]. destruct (negb _); [|reflexivity].
    destruct (match f_palette _ with Some _ => _ | None => _ end) as [pal cap]. reflexivity.
  - sdc. destruct (0 <? lft); [|reflexivity]. destruct (_ <=? _); reflexivity.
  - sdc. destruct (_ && _); [reflexivity|]. destruct (block_from_u8 t) as [[]|]; try reflexivity.
    + unfold add_frame. sdc. destruct (sd_current L s); reflexivity.
    + destruct (extension_from_u8 b); reflexivity.
    + destruct (o_allow_unknown_blocks _); reflexivity.
  - sdc. destruct (b =? _)%N; reflexivity.
  - reflexivity.
  - sdc. destruct (0 <? lft).
    + destruct (check_size _ _); reflexivity.
    + destruct (b =? 0)%N; [|reflexivity]. destruct (extension_from_u8 _) as [[]|]; try reflexivity.
      unfold read_control_extension. sdc. destruct (negb _); reflexivity.
  - sdc. destruct (negb _); [reflexivity|]. destruct (is_netscape _); reflexivity.
  - sdc. destruct (0 <? lft); [|reflexivity]. destruct (sd_current L s) as [f|]; [|reflexivity].
    destruct (f_palette f) as [p|]; [|reflexivity]. destruct (_ <=? _); reflexivity.
  - sdc. destruct (negb _); [|destruct (check_code_size m); reflexivity].
    destruct (lr_reset L (sd_lzw L s) m) as [r0 []]; reflexivity.
  - sdc. destruct (o_skip_frame_decoding _); [reflexivity|]. destruct (0 <? lft).
    + destruct (_ || _); [reflexivity|].
      destruct (lr_decode_bytes L (sd_lzw L s) _ ob) as [[r1 ob2] [[n k]| | |]]; try reflexivity.
      destruct (lft <? _); reflexivity.
    + destruct (negb _); [reflexivity|].
      destruct (lr_decode_bytes L (sd_lzw L s) _ ob) as [[r1 ob2] [[n k]| | |]]; try reflexivity.
      destruct (k =? 0); reflexivity.
  - sdc. destruct (negb _); [reflexivity|]. destruct (0 <? lft); [|destruct (negb _); reflexivity].
    destruct (obuf_append ob _ _) as [ob1 [[c1 c2]| | |]]; try reflexivity. destruct (lft <? _); reflexivity.
  - sdc. destruct (negb _); reflexivity.
  - reflexivity.
Qed.
Lemma update_loop_recol fuel : forall s buf ob total, update_loop L fuel (recol s) buf ob total = rec3 (update_loop L fuel s buf ob total).
Proof.
  induction fuel as [|fuel IH]; intros s buf ob total; cbn [update_loop]; (destruct buf as [|b bs]; [reflexivity|]); [reflexivity|].
  rewrite next_state_recol. destruct (next_state L s (b :: bs) ob) as [[s2 ob2] x]. cbn [rec3].
  destruct x as [[n d]|e| |]; try reflexivity. destruct d; try reflexivity. apply IH.
Qed.
Lemma update_recol s buf ob : update L (recol s) buf ob = rec3 (update L s buf ob).
Proof. apply update_loop_recol. Qed.

Definition rrecol (r : rd) : rd := mk_rd L (rd_buf L r) (rd_src L r) (recol (rd_dec L r)) (rd_eof L r).
Definition rrec3 {A B} (x : rd * A * B) : rd * A * B := let '(s, a, b) := x in (rrecol s, a, b).
Lemma fill_buf_recol r : fill_buf L (rrecol r) = (rrecol (fst (fill_buf L r)), snd (fill_buf L r)).
Proof. unfold fill_buf, rrecol. destruct r as [[|x b] [|[]] dec eof]; reflexivity. Qed.
Lemma decode_next_loop_recol fuel : forall r ob, decode_next_loop L fuel (rrecol r) ob = rrec3 (decode_next_loop L fuel r ob).
Proof.
  induction fuel as [|fuel IH]; intros r ob; cbn [decode_next_loop];
    change (rd_eof L (rrecol r)) with (rd_eof L r); (destruct (rd_eof L r); [reflexivity|]); [reflexivity|].
  rewrite fill_buf_recol. destruct (fill_buf L r) as [r2 e]. cbn [fst snd].
  destruct e as [buf|k| |]; try reflexivity. destruct buf as [|b bs]; [reflexivity|].
  change (rd_dec L (rrecol r2)) with (recol (rd_dec L r2)). rewrite update_recol.
  destruct (update L (rd_dec L r2) (b :: bs) ob) as [[d ob2] y]. cbn [rec3].
  destruct y as [[n ev]|e| |]; try reflexivity.
  destruct ev as [ | | | | |bk| | | | | | ]; try reflexivity; [exact (IH (mk_rd L _ _ _ _) _)|].
  destruct bk; try reflexivity. exact (IH (mk_rd L _ _ _ _) _).
Qed.
Lemma decode_next_recol r ob : decode_next L (rrecol r) ob = rrec3 (decode_next L r ob).
Proof. apply decode_next_loop_recol. Qed.

(** ** Slices of the same length *)
(** [w] is written to the beginning of the slice. *)
Definition wput (w sl : list N) : obuf := OSlice (w ++ skipn (length w) sl).
Lemma wput_nil sl : wput [] sl = OSlice sl.
Proof. reflexivity. Qed.
(** Bytes that an event reports as written to the slice. *)
Definition ev_count (d : decoded) : nat := match d with DBytesDecoded n => n | DLzwDataCopied n => n | _ => 0 end.
Definition step_same (sl sl' : list N) (p p' : sd * obuf * dres (nat * decoded)) : Prop :=
  exists w, length w <= length sl /\ snd (fst p) = wput w sl /\ p' = (fst (fst p), wput w sl', snd p) /\
    match snd p with Ok (_, d) => length w = ev_count d | _ => True end.

Lemma step_nil sl sl' s r : match r with Ok (_, d) => ev_count d = 0 | _ => True end ->
  step_same sl sl' (s, OSlice sl, r) (s, OSlice sl', r).
Proof. intros H. exists []. split; [cbn; lia|]. split; [reflexivity|]. split; [reflexivity|]. cbn [snd]. destruct r as [[n d]| | |]; auto. Qed.

Lemma lr_decode_same r data sl sl' : length sl = length sl' ->
  exists r1 w x, lr_decode_bytes L r data (OSlice sl) = (r1, wput w sl, x) /\ lr_decode_bytes L r data (OSlice sl') = (r1, wput w sl', x) /\
    length w <= length sl /\ match x with Ok (_, k) => k = length w | _ => True end.
Proof.
  intros Hl. unfold lr_decode_bytes. destruct (lr_decoder L r) as [d|].
  - rewrite <- Hl. destruct (lz_decode L d data (length sl)) as [d' [[n w] st]] eqn:E. apply safe in E as [_ E].
    destruct st; [| |destruct (lr_check L r)|]; (eexists _, w, _; split; [reflexivity|]; split; [reflexivity|]; split; [exact E|]; cbn; auto).
  - exists r, [], (Err (DIo Unsupported)). split; [reflexivity|]. split; [reflexivity|]. split; [cbn; lia|exact I].
Qed.

Ltac nil := apply step_nil; first [exact I|reflexivity].

Lemma next_state_same s buf sl sl' : length sl = length sl' ->
  step_same sl sl' (next_state L s buf (OSlice sl)) (next_state L s buf (OSlice sl')).
Proof.
  intros Hl. unfold next_state, goto. destruct buf as [|b bs]; [nil|]. set (buf := b :: bs). clearbody buf.
  destruct (sd_state L s) as [ | | |lft|t| | |lft| |lft|m|lft|lft| | ].
  - destruct (ensure_min L s buf 6) as [|s2 n|s2 n v]; [nil|nil|].
    destruct (list_eqb v GIF87a); [nil|]. destruct (list_eqb v GIF89a); nil.
  - destruct (ensure_min L s buf 7) as [|s2 n|s2 n v]; [nil|nil|]. cbv zeta. destruct (negb _); nil.
  - destruct (ensure_min L s buf 9) as [|s2 n|s2 n h]; [nil|nil|].
    destruct (sd_current L s2) as [f|]; [|nil]. cbv zeta.
    destruct (_ && _); [nil|]. destruct (negb _); [|nil].
    destruct (match f_palette _ with Some _ => _ | None => _ end) as [pal cap]. nil.
  - destruct (0 <? lft); nil.
  - destruct (_ && _); [nil|]. destruct (block_from_u8 t) as [[]|]; try nil.
    + cbv zeta. destruct (extension_from_u8 b); nil.
    + destruct (o_allow_unknown_blocks _); nil.
  - destruct (b =? _)%N; nil.
  - nil.
  - destruct (0 <? lft).
    + cbv zeta. destruct (check_size _ _); nil.
    + destruct (b =? 0)%N; [|nil]. cbv zeta. destruct (extension_from_u8 _) as [[]|]; try nil.
      destruct (read_control_extension _ _) as [s2 []]; nil.
  - destruct (negb _); [nil|]. destruct (is_netscape _); nil.
  - destruct (0 <? lft); [|nil]. cbv zeta. destruct (sd_current L s) as [f|]; nil.
  - destruct (negb _); [|destruct (check_code_size m); nil].
    destruct (lr_reset L (sd_lzw L s) m) as [r0 []]; nil.
  - destruct (o_skip_frame_decoding _); [nil|]. destruct (0 <? lft).
    + cbv zeta. destruct (lr_has_ended _ _ || false); [nil|].
      destruct (lr_decode_same (sd_lzw L s) (firstn (Nat.min lft (length buf)) buf) sl sl' Hl) as (r1 & w & x & -> & -> & Hw & Hx).
      destruct x as [[n k]| | |]; try (exists w; repeat split; solve [exact Hw|exact I]).
      destruct (lft <? _); exists w; (split; [exact Hw|]; split; [reflexivity|]; split; [reflexivity|]); cbn [snd]; [exact I|].
      subst k. destruct (Nat.eqb_spec (length w) 0) as [E|E]; cbn [ev_count]; lia.
    + destruct (negb _); [nil|].
      destruct (lr_decode_same (sd_lzw L s) [] sl sl' Hl) as (r1 & w & x & -> & -> & Hw & Hx). cbv zeta.
      destruct x as [[n k]| | |]; try (exists w; repeat split; solve [exact Hw|exact I]).
      subst k. destruct (Nat.eqb_spec (length w) 0) as [E|E]; exists w; (split; [exact Hw|]; split; [reflexivity|]; split; [reflexivity|]); cbn [snd ev_count]; lia.
  - destruct (negb _); [nil|]. destruct (0 <? lft); [|destruct (negb _); nil].
    cbv zeta. cbn [obuf_append]. rewrite <- Hl. set (data := firstn (Nat.min lft (length buf)) buf).
    set (n := Nat.min (length data) (length sl)).
    assert (Hn : length (firstn n data) = n) by (rewrite firstn_length; lia).
    assert (E : forall x, OSlice (firstn n data ++ skipn n x) = wput (firstn n data) x) by (intros x; unfold wput; now rewrite Hn).
    rewrite !E. destruct (lft <? n); exists (firstn n data); (split; [lia|]; split; [reflexivity|]; split; [reflexivity|]); cbn [snd ev_count]; [exact I|exact Hn].
  - destruct (negb _); nil.
  - nil.
Qed.
Lemma wput_zero w sl : length w = 0 -> wput w sl = OSlice sl.
Proof. destruct w; [reflexivity|discriminate]. Qed.
Lemma update_loop_same fuel : forall s buf sl sl' total, length sl = length sl' ->
  step_same sl sl' (update_loop L fuel s buf (OSlice sl) total) (update_loop L fuel s buf (OSlice sl') total).
Proof.
  induction fuel as [|fuel IH]; intros s buf sl sl' total Hl; cbn [update_loop]; (destruct buf as [|b bs]; [nil|]); [nil|].
  pose proof (next_state_same s (b :: bs) sl sl' Hl) as (w & H1 & H2 & H3 & H4).
  destruct (next_state L s (b :: bs) (OSlice sl)) as [[s1 ob1] r]. cbn [fst snd] in *. subst ob1. rewrite H3.
  destruct r as [[n d]|e| |]; try (exists w; repeat split; solve [exact H1|exact I]).
  destruct d; try (exists w; repeat split; solve [exact H1|exact H4]).
  cbn [ev_count] in H4. rewrite !wput_zero by exact H4. apply IH. exact Hl.
Qed.

Definition next_same (sl sl' : list N) (p p' : rd * obuf * dres (option decoded)) : Prop :=
  exists w, length w <= length sl /\ snd (fst p) = wput w sl /\ p' = (fst (fst p), wput w sl', snd p) /\
    match snd p with Ok (Some d) => length w = ev_count d | Ok None => length w = 0 | _ => True end.
Lemma next_nil sl sl' r x : match x with Ok (Some d) => ev_count d = 0 | _ => True end ->
  next_same sl sl' (r, OSlice sl, x) (r, OSlice sl', x).
Proof. intros H. exists []. split; [cbn; lia|]. split; [reflexivity|]. split; [reflexivity|]. cbn [snd]. destruct x as [[d|]| | |]; auto. Qed.
Lemma decode_next_loop_same fuel : forall r sl sl', length sl = length sl' ->
  next_same sl sl' (decode_next_loop L fuel r (OSlice sl)) (decode_next_loop L fuel r (OSlice sl')).
Proof.
  induction fuel as [|fuel IH]; intros r sl sl' Hl; cbn [decode_next_loop]; (destruct (rd_eof L r); [apply next_nil; exact I|]);
    [apply next_nil; exact I|].
  destruct (fill_buf L r) as [r1 e]. destruct e as [buf|k| |]; try (apply next_nil; exact I).
  destruct buf as [|b bs]; [apply next_nil; exact I|].
  pose proof (update_loop_same (update_fuel (b :: bs)) (rd_dec L r1) (b :: bs) sl sl' (length (b :: bs)) Hl) as (w & H1 & H2 & H3 & H4).
  fold (update L (rd_dec L r1) (b :: bs) (OSlice sl)) in H2, H3, H4. fold (update L (rd_dec L r1) (b :: bs) (OSlice sl')) in H3.
  destruct (update L (rd_dec L r1) (b :: bs) (OSlice sl)) as [[d ob1] x]. cbn [fst snd] in *. subst ob1. rewrite H3.
  destruct x as [[n ev]|e| |]; try (exists w; repeat split; solve [exact H1|exact I]).
  destruct ev as [ | | | | |bk| | | | | | ]; try (exists w; repeat split; solve [exact H1|exact H4]).
  - cbn [ev_count] in H4. rewrite !wput_zero by exact H4. apply IH. exact Hl.
  - destruct bk; try (exists w; repeat split; solve [exact H1|exact H4]).
    cbn [ev_count] in H4. rewrite !wput_zero by exact H4. apply IH. exact Hl.
Qed.

(** The callback of the pixel converter, for both decoders. *)
Lemma decode_next_bytes_both r sl sl' r1 ob x : length sl = length sl' -> decode_next_bytes L r (OSlice sl) = (r1, ob, x) ->
  exists w, length w <= length sl /\ ob = wput w sl /\
    decode_next_bytes L (rrecol r) (OSlice sl') = (rrecol r1, wput w sl', x) /\ match x with Ok n => length w = n | _ => True end.
Proof.
  intros Hl H. unfold decode_next_bytes in *.
  pose proof (decode_next_loop_same (length (rd_src L r) + 2) r sl sl' Hl) as (w & H1 & H2 & H3 & H4).
  change (decode_next_loop L (length (rd_src L r) + 2) r (OSlice sl)) with (decode_next L r (OSlice sl)) in *.
  change (decode_next_loop L (length (rd_src L r) + 2) r (OSlice sl')) with (decode_next L r (OSlice sl')) in *.
  rewrite decode_next_recol, H3. destruct (decode_next L r (OSlice sl)) as [[r2 ob2] y]. cbn [fst snd rrec3] in *. subst ob2.
  exists w. destruct y as [[d|]|e| |]; [destruct d|..]; injection H as <- <- <-;
    (split; [exact H1|]; split; [reflexivity|]; split; [reflexivity|]); try exact I; exact H4.
Qed.

(** ** Pixel conversion *)
Definition calm {A} (x : dres A) : Prop := ~ rgba_only x /\ x <> Panic /\ x <> Hang.
Definition crel (c4 c1 : conv) : Prop :=
  cv_color c4 = CRgba /\ cv_color c1 = CIndexed /\ cv_limit c4 = cv_limit c1 /\ cv_gpal c4 = cv_gpal c1.
Lemma crel_pal c4 c1 f : crel c4 c1 -> effective_palette c4 f = effective_palette c1 f.
Proof. intros (_ & _ & _ & H). unfold effective_palette. now rewrite H. Qed.

Lemma calm_err {A B} e : @calm A (Err e) -> @calm B (Err e).
Proof.
  intros (H1 & _ & _). split; [|split; discriminate]. intros [[= ->]|[= ->]]; apply H1; [left|right]; reflexivity.
Qed.
Lemma no_calm_panic {A} (P : Prop) : @calm A Panic -> P.
Proof. intros (_ & H & _). now destruct H. Qed.
Lemma no_calm_hang {A} (P : Prop) : @calm A Hang -> P.
Proof. intros (_ & _ & H). now destruct H. Qed.

Section CX.
Variable St : Type.
Variable cb : St -> obuf -> St * obuf * dres nat.
Variable g : St -> St.
Hypothesis cb_both : forall x sl sl' x1 ob r, length sl = length sl' -> cb x (OSlice sl) = (x1, ob, r) ->
  exists w, length w <= length sl /\ ob = wput w sl /\ cb (g x) (OSlice sl') = (g x1, wput w sl', r) /\
    match r with Ok n => length w = n | _ => True end.

Lemma skipn_put n (w sl : list N) : length w = n -> skipn n (w ++ skipn n sl) = skipn n sl.
Proof. intros <-. rewrite skipn_app, skipn_all, Nat.sub_diag. reflexivity. Qed.
Lemma firstn_put n (w sl : list N) : length w = n -> firstn n (w ++ sl) = w.
Proof. intros <-. rewrite firstn_app, firstn_all, Nat.sub_diag. cbn [firstn]. apply app_nil_r. Qed.
Lemma is_nil_length {A} (l : list A) : is_nil l = (length l =? 0).
Proof. destruct l; reflexivity. Qed.

Lemma fill_loop_both f pal : forall fuel1 fuel4 x c4 c1 done4 done1 buf4 buf1 x' c4' b4 r,
  crel c4 c1 -> effective_palette c4 f = pal -> length buf4 = 4 * length buf1 -> length buf1 < fuel1 ->
  fill_loop St cb fuel4 x c4 f done4 buf4 = (x', c4', b4, r) -> calm r ->
  exists b1, fill_loop St cb fuel1 (g x) c1 f done1 buf1 = (g x', c1, b1, r) /\ crel c4' c1 /\ effective_palette c4' f = pal /\
    forall t, r = Ok t -> exists px, length px <= length buf1 /\ (t = true -> length px = length buf1) /\
      b4 = done4 ++ expand pal (f_transparent f) px buf4 /\ b1 = done1 ++ px ++ skipn (length px) buf1.
Proof.
  induction fuel1 as [|fuel1 IH]; intros fuel4 x c4 c1 done4 done1 buf4 buf1 x' c4' b4 r Hc Hp Hl Hf H Hr; [lia|].
  destruct fuel4 as [|fuel4]; cbn [fill_loop] in H; [injection H as <- <- <- <-; exact (no_calm_hang _ Hr)|].
  cbn [fill_loop]. pose proof Hc as (C1 & C2 & C3 & C4). rewrite C1 in H. rewrite C2.
  assert (Hs : length buf4 / 4 = length buf1) by (rewrite Hl, Nat.mul_comm; apply Nat.div_mul; discriminate). rewrite Hs in H.
  destruct (Nat.eqb_spec (length buf1) 0) as [E0|E0].
  { injection H as <- <- <- <-. destruct Hr as (Hr & _). destruct Hr. right. reflexivity. }
  set (scratch := if length (cv_buffer c4) <? length buf1 then grow (cv_buffer c4) (length buf1) else cv_buffer c4) in *.
  assert (Hsc : length buf1 <= length scratch).
  { unfold scratch, grow. destruct (Nat.ltb_spec (length (cv_buffer c4)) (length buf1)); [rewrite app_length, repeat_length; lia|lia]. }
  clearbody scratch.
  destruct (cb x (OSlice (firstn (length buf1) scratch))) as [[x1 ob] y] eqn:E.
  assert (Hfs : length (firstn (length buf1) scratch) = length buf1) by (rewrite firstn_length; lia).
  destruct (cb_both _ _ buf1 _ _ _ Hfs E) as (w & W1 & -> & W2 & W3). rewrite W2. unfold wput in *. cbn [obuf_bytes] in *.
  set (c4b := with_cbuf c4 _) in *.
  assert (Hcb : crel c4b c1) by (split; [exact C1|split; [exact C2|split; assumption]]).
  assert (Hpb : effective_palette c4b f = pal) by exact Hp.
  destruct y as [n|e| |].
  2:{ injection H as <- <- <- <-. eexists. split; [reflexivity|]. split; [exact Hcb|]. split; [exact Hpb|]. discriminate. }
  2:{ injection H as <- <- <- <-. exact (no_calm_panic _ Hr). }
  2:{ injection H as <- <- <- <-. exact (no_calm_hang _ Hr). }
  destruct n as [|n].
  { injection H as <- <- <- <-. eexists. split; [reflexivity|]. split; [exact Hcb|]. split; [exact Hpb|].
    intros t [= <-]. exists []. destruct w; [|discriminate W3]. cbn [length app skipn expand]. split; [lia|]. split; [discriminate|]. auto. }
  rewrite Hfs in W1. replace (length buf4 <? Datatypes.S n * 4) with false in H by (symmetry; apply Nat.ltb_ge; lia).
  rewrite Hpb in H.
  assert (Hlen : length (w ++ skipn (length w) buf1) = length buf1) by (rewrite app_length, skipn_length; lia).
  rewrite Hlen. replace (length buf1 <? Datatypes.S n) with false by (symmetry; apply Nat.ltb_ge; lia).
  rewrite <- !app_assoc in H. rewrite (firstn_put (Datatypes.S n) w) in H by exact W3.
  rewrite W3. rewrite (firstn_put (Datatypes.S n) w) by exact W3. rewrite skipn_put by exact W3.
  set (m := Datatypes.S n) in *.
  assert (Hex : forall px, expand pal (f_transparent f) (w ++ px) buf4 =
     expand pal (f_transparent f) w (firstn (m * 4) buf4) ++ expand pal (f_transparent f) px (skipn (m * 4) buf4)).
  { intros px. rewrite <- W3. apply expand_app. lia. }
  assert (Hn4 : is_nil (skipn (m * 4) buf4) = is_nil (skipn m buf1)).
  { rewrite !is_nil_length, !skipn_length, Hl. destruct (Nat.eqb_spec (4 * length buf1 - m * 4) 0), (Nat.eqb_spec (length buf1 - m) 0); lia || reflexivity. }
  rewrite Hn4 in H. destruct (is_nil (skipn m buf1)) eqn:En.
  - injection H as <- <- <- <-. eexists. split; [reflexivity|]. split; [exact Hcb|]. split; [exact Hpb|].
    intros t [= <-]. exists w. rewrite is_nil_length, skipn_length in En. apply Nat.eqb_eq in En. split; [lia|]. split; [intros _; lia|].
    split; [|rewrite <- app_assoc, W3; reflexivity].
    f_equal. rewrite <- (app_nil_r w) at 2. rewrite Hex. reflexivity.
  - destruct (IH fuel4 x1 c4b c1 _ (done1 ++ w) (skipn (m * 4) buf4) (skipn m buf1) _ _ _ _ Hcb Hpb ltac:(rewrite !skipn_length; lia) ltac:(rewrite skipn_length; lia) H Hr)
      as (b1 & E1 & Q1 & Q2 & Q3).
    exists b1. split; [exact E1|]. split; [exact Q1|]. split; [exact Q2|]. intros t Ht. destruct (Q3 t Ht) as (px & P1 & P2 & P3 & P4).
    rewrite skipn_length in P1, P2. exists (w ++ px). rewrite app_length. split; [lia|]. split; [intros Hb; specialize (P2 Hb); lia|].
    split; [rewrite P3, Hex, <- app_assoc; reflexivity|]. rewrite P4, <- !app_assoc. do 3 f_equal. rewrite skipn_skipn. f_equal. lia.
Qed.
Lemma conv_fill_both f x c4 c1 buf4 buf1 x' c4' b4 r : crel c4 c1 -> length buf4 = 4 * length buf1 ->
  conv_fill_buffer St cb x c4 f buf4 = (x', c4', b4, r) -> calm r ->
  exists b1, conv_fill_buffer St cb (g x) c1 f buf1 = (g x', c1, b1, r) /\ crel c4' c1 /\ 
    forall t, r = Ok t -> exists px, length px <= length buf1 /\ (t = true -> length px = length buf1) /\
      b4 = expand (effective_palette c1 f) (f_transparent f) px buf4 /\ b1 = px ++ skipn (length px) buf1.
Proof.
  intros Hc Hl H Hr. unfold conv_fill_buffer in *.
  destruct (fill_loop_both f (effective_palette c1 f) (S (length buf1)) _ _ _ _ _ [] _ buf1 _ _ _ _ Hc (crel_pal _ _ _ Hc) Hl ltac:(lia) H Hr)
    as (b1 & E & Q1 & _ & Q3). exists b1. auto.
Qed.

Lemma nth_cell k (l : list N) : nth k l 0%N = hd 0%N (cell 1 k l).
Proof.
  unfold cell. rewrite Nat.mul_1_l. revert l. induction k as [|k IH]; intros [|a l]; cbn [nth skipn]; try reflexivity. apply IH.
Qed.
Lemma nth_expand pal tr px old k : k < length px -> length old = 4 * length px ->
  cell 4 k (expand pal tr px old) = expand_cell pal tr (nth k px 0%N) (cell 4 k old).
Proof. intros H1 H2. apply expand_cells; assumption. Qed.

(** The rows of an interlaced image. *)
Lemma rows_both f w : N.to_nat (f_width f) = w -> forall rows x c4 c1 buf4 buf1 x' c4' b4 r,
  NoDup rows -> crel c4 c1 -> length buf4 = 4 * length buf1 ->
  read_rows umax St cb rows x c4 f buf4 = (x', c4', b4, r) -> calm r ->
  exists b1, read_rows umax St cb rows (g x) c1 f buf1 = (g x', c1, b1, r) /\ crel c4' c1 /\
    (r = Ok tt -> length b1 = length buf1 /\ length b4 = length buf4 /\
       (forall k, k < length buf1 -> In (k / w) rows ->
          cell 4 k b4 = expand_cell (effective_palette c1 f) (f_transparent f) (nth k b1 0%N) (cell 4 k buf4)) /\
       (forall k, k < length buf1 -> ~ In (k / w) rows -> cell 4 k b4 = cell 4 k buf4 /\ nth k b1 0%N = nth k buf1 0%N) /\
       (forall row, In row rows -> 0 < w /\ (row + 1) * w <= length buf1)).
Proof.
  intros Ew. induction rows as [|row rows IH]; intros x c4 c1 buf4 buf1 x' c4' b4 r Hnd Hc Hl H Hr; cbn [read_rows] in *.
  { injection H as <- <- <- <-. exists buf1. split; [reflexivity|]. split; [exact Hc|]. intros _. split; [reflexivity|]. split; [reflexivity|].
    split; [intros k _ []|]. split; [auto|intros row []]. }
  inversion Hnd as [|? ? Hn1 Hn2]; subst x0 l.
  pose proof Hc as (C1 & C2 & _ & _).
  assert (L4 : line_length c4 f = N.of_nat (4 * w)) by (unfold line_length; rewrite C1; lia).
  assert (L1 : line_length c1 f = N.of_nat w) by (unfold line_length; rewrite C2; lia).
  rewrite L4, <- Nat2N.inj_mul in H. rewrite L1, <- Nat2N.inj_mul. unfold len in *.
  destruct (N.ltb_spec umax (N.of_nat (row * (4 * w)))) as [Hlt|Hlt]; [injection H as <- <- <- <-; exact (no_calm_panic _ Hr)|].
  destruct (N.ltb_spec umax (N.of_nat (row * w))) as [Hlt1|_]; [lia|].
  replace ((N.of_nat (row * w) <=? N.of_nat (length buf1)) && (N.of_nat (row * w) + N.of_nat w <=? N.of_nat (length buf1)))%N
    with ((N.of_nat (row * (4 * w)) <=? N.of_nat (length buf4)) && (N.of_nat (row * (4 * w)) + N.of_nat (4 * w) <=? N.of_nat (length buf4)))%N.
  2:{ rewrite Hl. f_equal; apply Bool.eq_iff_eq_true; rewrite !N.leb_le; lia. }
  destruct (_ && _)%N eqn:Eb.
  2:{ injection H as <- <- <- <-. exists buf1. split; [reflexivity|]. split; [exact Hc|discriminate]. }
  apply andb_prop in Eb as [_ Eb]. apply N.leb_le in Eb. rewrite !Nat2N.id in *.
  set (s4 := row * (4 * w)) in *. set (s1 := row * w) in *.
  assert (Es : s4 = 4 * s1) by (unfold s4, s1; lia).
  destruct (conv_fill_buffer St cb x c4 f (firstn (4 * w) (skipn s4 buf4))) as [[[x1 c4b] line4] y] eqn:E.
  assert (Hl4 : length (firstn (4 * w) (skipn s4 buf4)) = 4 * w) by (rewrite firstn_length, skipn_length; lia).
  assert (Hl1 : length (firstn w (skipn s1 buf1)) = w) by (rewrite firstn_length, skipn_length; lia).
  assert (Hy : calm y).
  { destruct y as [[]|e| |]; try (injection H as <- <- <- <-; first [exact (calm_err _ Hr)|exact (no_calm_panic _ Hr)|exact (no_calm_hang _ Hr)]);
      (split; [intros [?|?]; discriminate|split; discriminate]). }
  destruct (conv_fill_both f x c4 c1 (firstn (4 * w) (skipn s4 buf4)) (firstn w (skipn s1 buf1)) _ _ _ _ Hc ltac:(lia) E Hy) as (line1 & E1 & Hcb & Hok).
  rewrite E1. destruct y as [[|]|e| |].
  2,3: injection H as <- <- <- <-; eexists; split; [reflexivity|]; split; [exact Hcb|discriminate].
  2:{ exact (no_calm_panic _ Hy). }
  2:{ exact (no_calm_hang _ Hy). }
  destruct (Hok true eq_refl) as (px & P1 & P2 & P3 & P4). specialize (P2 eq_refl). rewrite Hl1 in *.
  rewrite P2, skipn_all2, app_nil_r in P4 by lia. subst line1.
  assert (Hll4 : length line4 = 4 * w) by (rewrite P3, expand_length; lia).
  assert (Hw : 0 < w).
  { destruct w as [|w]; [|lia]. exfalso. change (firstn (4 * 0) (skipn s4 buf4)) with (@nil N) in E.
    unfold conv_fill_buffer in E. cbn [length fill_loop] in E. rewrite C1 in E. cbn in E. discriminate E. }
  match type of H with read_rows _ _ _ _ _ _ _ ?b = _ => assert (B4 : b = put 4 s1 line4 buf4) by (unfold put; rewrite Hll4, <- Es; reflexivity) end.
  match goal with |- context [read_rows umax St cb rows (g x1) c1 f ?b] => assert (B1 : b = put 1 s1 px buf1) by (unfold put; rewrite P2, Nat.mul_1_l; reflexivity) end.
  rewrite B4 in H. rewrite B1. clear B4 B1.
  assert (G4 : length (put 4 s1 line4 buf4) = length buf4) by (apply (put_length 4 s1 w); lia).
  assert (G1 : length (put 1 s1 px buf1) = length buf1) by (apply (put_length 1 s1 w); lia).
  destruct (IH x1 c4b c1 (put 4 s1 line4 buf4) (put 1 s1 px buf1) _ _ _ _ Hn2 Hcb ltac:(lia) H Hr) as (b1 & E2 & Hc2 & Hres).
  exists b1. split; [exact E2|]. split; [exact Hc2|]. intros Hr'. specialize (Hres Hr'). rewrite G1, G4 in Hres.
  destruct Hres as (R1 & R2 & R3 & R4 & R5). split; [exact R1|]. split; [exact R2|].
  assert (Hin : forall k, k / w = row -> s1 <= k < s1 + w).
  { intros k <-. unfold s1. pose proof (Nat.div_mod_eq k w). pose proof (Nat.mod_upper_bound k w ltac:(lia)). lia. }
  assert (Hout : forall k, k / w <> row -> (s1 <=? k) && (k <? s1 + w) = false).
  { intros k Hk. destruct (Nat.leb_spec s1 k); [|reflexivity]. destruct (Nat.ltb_spec k (s1 + w)); [|reflexivity].
    exfalso. apply Hk. unfold s1 in *. symmetry. apply (Nat.div_unique k w row (k - row * w)); lia. }
  assert (O4 : forall k, k < length buf1 -> k / w <> row -> cell 4 k (put 4 s1 line4 buf4) = cell 4 k buf4).
  { intros k Hk Hne. rewrite (put_cell 4 s1 w) by lia. rewrite (Hout k Hne). reflexivity. }
  assert (O1 : forall k, k < length buf1 -> k / w <> row -> nth k (put 1 s1 px buf1) 0%N = nth k buf1 0%N).
  { intros k Hk Hne. rewrite !nth_cell. rewrite (put_cell 1 s1 w) by lia. rewrite (Hout k Hne). reflexivity. }
  split; [|split].
  - intros k Hk [Er|Hr2].
    + symmetry in Er. destruct (R4 k Hk) as [R6 R7]; [rewrite Er; exact Hn1|]. rewrite R6, R7. rewrite nth_cell.
      rewrite (put_cell 4 s1 w), (put_cell 1 s1 w) by lia. pose proof (Hin k Er) as Hk2.
      replace ((s1 <=? k) && (k <? s1 + w)) with true by (symmetry; apply andb_true_intro; split; [apply Nat.leb_le|apply Nat.ltb_lt]; lia).
      rewrite <- nth_cell, P3. rewrite nth_expand by lia. f_equal. rewrite Es, cell_slice by lia. f_equal. lia.
    + rewrite (R3 k Hk Hr2). f_equal. apply O4; [exact Hk|]. intros Heq. apply Hn1. rewrite <- Heq. exact Hr2.
  - intros k Hk Hni. assert (k / w <> row) by (intros Heq; apply Hni; left; congruence).
    destruct (R4 k Hk) as [R6 R7]; [intros Hi; apply Hni; right; exact Hi|]. rewrite R6, R7. auto.
  - intros row' [<-|Hi]; [|apply R5; exact Hi]. split; [exact Hw|]. unfold s4 in *. lia.
Qed.

(** From cells to the specification. *)
Lemma filled_expand pal tr px old4 old1 : length px <= length old1 -> length old4 = 4 * length old1 ->
  filled pal tr (length px) old4 old1 (expand pal tr px old4) (px ++ skipn (length px) old1).
Proof.
  intros H1 H2. unfold filled. split; [exact H1|]. split; [rewrite app_length, skipn_length; lia|].
  split; [rewrite skipn_app, skipn_all, Nat.sub_diag; reflexivity|].
  rewrite firstn_app, firstn_all, Nat.sub_diag. cbn [firstn]. rewrite app_nil_r. apply (paint_expand pal tr px old4). lia.
Qed.
Lemma nth_rest n i (l : list N) : nth i (skipn n l) 0%N = nth (n + i) l 0%N.
Proof. revert l. induction n as [|n IH]; intros [|a l]; cbn [skipn plus nth]; try reflexivity; [destruct i; reflexivity|apply IH]. Qed.
Lemma filled_cells pal tr n old4 old1 b4 b1 : n <= length old1 -> length old4 = 4 * length old1 -> length b1 = length old1 -> length b4 = length old4 ->
  (forall k, k < length old1 -> k < n -> cell 4 k b4 = expand_cell pal tr (nth k b1 0%N) (cell 4 k old4)) ->
  (forall k, k < length old1 -> n <= k -> cell 4 k b4 = cell 4 k old4 /\ nth k b1 0%N = nth k old1 0%N) ->
  filled pal tr n old4 old1 b4 b1.
Proof.
  intros H1 H2 H3 H4 Hw Hk. unfold filled. split; [exact H1|]. split; [exact H3|]. split.
  - apply (nth_ext _ _ 0%N 0%N); [rewrite !skipn_length; lia|]. intros i Hi. rewrite skipn_length in Hi. rewrite !nth_rest. apply Hk; lia.
  - assert (Hfl : length (firstn n b1) = n) by (rewrite firstn_length; lia).
    pose proof (shown_over_cells CRgba pal tr (firstn n b1) old4 b4) as Hs. cbn [px_bytes shown_over] in Hs. rewrite Hfl in Hs. apply Hs.
    + lia.
    + exact H4.
    + intros k Hkn. rewrite Hw by lia. f_equal. rewrite <- (firstn_skipn n b1) at 1. rewrite app_nth1 by lia. reflexivity.
    + apply (cells_eq 4 (length old1 - n)); [rewrite skipn_length; lia|rewrite skipn_length; lia|].
      intros k Hkk. unfold cell. rewrite !skipn_skipn. replace (4 * k + 4 * n) with (4 * (n + k)) by lia.
      apply (Hk (n + k)); lia.
Qed.

Lemma conv_into_both f x c4 c1 buf4 buf1 x' c4' b4 r : crel c4 c1 -> length buf4 = 4 * length buf1 -> (len buf4 <= umax)%N ->
  conv_read_into_buffer umax St cb x c4 f buf4 = (x', c4', b4, r) -> calm r ->
  exists b1, conv_read_into_buffer umax St cb (g x) c1 f buf1 = (g x', c1, b1, r) /\ crel c4' c1 /\
    (r = Ok tt -> filled (effective_palette c1 f) (f_transparent f) (N.to_nat (f_width f * f_height f)) buf4 buf1 b4 b1).
Proof.
  intros Hc Hl Hu H Hr. unfold conv_read_into_buffer in *. pose proof Hc as (C1 & C2 & _ & _).
  destruct (f_interlaced f).
  - destruct (rows_both f _ eq_refl (interlace_rows (f_height f)) x c4 c1 buf4 buf1 x' c4' b4 r) as (b1 & E & Hc2 & Hres); auto.
    { rewrite interlace_rows_order. apply gif_row_order_nodup. }
    exists b1. split; [exact E|]. split; [exact Hc2|]. intros Hr'. destruct (Hres Hr') as (R1 & R2 & R3 & R4 & R5).
    rewrite interlace_rows_order in R3, R4, R5. set (w := N.to_nat (f_width f)) in *. set (h := N.to_nat (f_height f)) in *.
    rewrite N2Nat.inj_mul. fold w h.
    assert (Hn : w * h <= length buf1).
    { destruct h as [|h]; [lia|]. destruct (R5 h) as [_ R6]; [apply gif_row_order_in; lia|]. lia. }
    assert (Hw : 0 < h -> 0 < w).
    { intros Hh. apply (R5 0). apply gif_row_order_in. exact Hh. }
    apply filled_cells; auto.
    + intros k Hk Hkn. apply R3; [exact Hk|]. apply gif_row_order_in. apply Nat.div_lt_upper_bound; lia.
    + intros k Hk Hkn. apply R4; [exact Hk|]. rewrite gif_row_order_in. intros Hlt.
      assert (Hh : 0 < h) by (eapply Nat.le_lt_trans; [apply Nat.le_0_l|exact Hlt]). specialize (Hw Hh). apply Nat.lt_nge in Hlt. apply Hlt. apply Nat.div_le_lower_bound; lia.
  - unfold buffer_size, line_length in *. rewrite C1 in H. rewrite C2. set (w := f_width f) in *. set (h := f_height f) in *. unfold len in *.
    destruct (N.leb_spec (w * 4 * h) umax) as [H4|H4].
    2:{ injection H as <- <- <- <-. exists buf1.
        assert (E : (if (w * h <=? umax)%N then Some (w * h)%N else None) = None \/
                    exists n, (if (w * h <=? umax)%N then Some (w * h)%N else None) = Some n /\ (n <=? N.of_nat (length buf1))%N = false).
        { destruct (N.leb_spec (w * h) umax); [right|left; reflexivity]. eexists. split; [reflexivity|]. apply N.leb_gt. lia. }
        destruct E as [->|(n & -> & ->)]; (split; [reflexivity|]; split; [exact Hc|discriminate]). }
    destruct (N.leb_spec (w * h) umax) as [H1|H1]; [|lia].
    replace (w * h <=? N.of_nat (length buf1))%N with (w * 4 * h <=? N.of_nat (length buf4))%N by (apply Bool.eq_iff_eq_true; rewrite !N.leb_le; lia).
    destruct (N.leb_spec (w * 4 * h) (N.of_nat (length buf4))) as [Hb|Hb].
    2:{ injection H as <- <- <- <-. exists buf1. split; [reflexivity|]. split; [exact Hc|discriminate]. }
    set (n := N.to_nat (w * h)). replace (N.to_nat (w * 4 * h)) with (4 * n) in H by (unfold n; lia).
    assert (Hn : n <= length buf1) by (unfold n; lia).
    destruct (conv_fill_buffer St cb x c4 f (firstn (4 * n) buf4)) as [[[x1 c4b] line4] y] eqn:E.
    assert (Hy : calm y).
    { destruct y as [[]|e| |]; try (injection H as <- <- <- <-; first [exact (calm_err _ Hr)|exact (no_calm_panic _ Hr)|exact (no_calm_hang _ Hr)]);
        (split; [intros [?|?]; discriminate|split; discriminate]). }
    assert (Hl4 : length (firstn (4 * n) buf4) = 4 * length (firstn n buf1)) by (rewrite !firstn_length; lia).
    destruct (conv_fill_both f x c4 c1 _ (firstn n buf1) _ _ _ _ Hc Hl4 E Hy) as (line1 & E1 & Hcb & Hok).
    rewrite E1. destruct y as [[|]|e| |].
    2,3: injection H as <- <- <- <-; eexists; split; [reflexivity|]; split; [exact Hcb|discriminate].
    2:{ exact (no_calm_panic _ Hy). }
    2:{ exact (no_calm_hang _ Hy). }
    injection H as <- <- <- <-. eexists. split; [reflexivity|]. split; [exact Hcb|]. intros _.
    destruct (Hok true eq_refl) as (px & P1 & P2 & P3 & P4). specialize (P2 eq_refl).
    assert (Hpx : length px = n) by (rewrite P2, firstn_length; lia).
    assert (S0 : skipn (length px) (firstn n buf1) = []) by (apply skipn_all2; rewrite firstn_length; lia).
    rewrite P4, S0, app_nil_r, P3. change (n + (n + (n + (n + 0)))) with (4 * n).
    pose proof (filled_expand (effective_palette c1 f) (f_transparent f) px buf4 buf1 ltac:(lia) Hl) as Hf. rewrite Hpx in Hf.
    replace (expand (effective_palette c1 f) (f_transparent f) px (firstn (4 * n) buf4) ++ skipn (4 * n) buf4) with (expand (effective_palette c1 f) (f_transparent f) px buf4); [exact Hf|].
    rewrite <- (app_nil_r px) at 1. rewrite expand_app by lia. cbn [expand]. rewrite Hpx, Nat.mul_comm. reflexivity.
Qed.

Lemma conv_frame_both f x c4 c1 x' c4' f4 r : crel c4 c1 -> f_buffer f = [] ->
  conv_read_frame umax St cb x c4 f = (x', c4', f4, r) -> calm r ->
  exists f1, conv_read_frame umax St cb (g x) c1 f = (g x', c1, f1, r) /\ crel c4' c1 /\
    recoloured false (effective_palette c1 f) f4 f1 /\ f_palette f1 = f_palette f.
Proof.
  intros Hc Hb H Hr. unfold conv_read_frame, check_buffer_size, limit_buffer_size, buffer_size, line_length in *.
  pose proof Hc as (C1 & C2 & C3 & C4). rewrite C1, C3 in H. rewrite C2.
  set (w := f_width f) in *. set (h := f_height f) in *.
  destruct (N.leb_spec (w * h * 4) umax) as [H4|H4].
  2:{ injection H as <- <- <- <-. destruct Hr as (Hr & _). destruct Hr. left. reflexivity. }
  destruct (N.leb_spec (w * h * 1) umax) as [H1|H1]; [|lia].
  destruct (N.leb_spec (w * 4 * h) umax) as [_|]; [|lia]. destruct (N.leb_spec (w * h) umax) as [_|]; [|lia].
  assert (Hlim : match cv_limit c1 with None => True | Some n => (n <? w * h * 4)%N = false end).
  { destruct (cv_limit c1) as [n|]; [|exact I]. destruct (n <? w * h * 4)%N; [|reflexivity].
    injection H as <- <- <- <-. destruct Hr as (Hr & _). destruct Hr. left. reflexivity. }
  assert (E4 : (match match cv_limit c1 with None => Some (w * h * 4)%N | Some n => if (n <? w * h * 4)%N then None else Some (w * h * 4)%N end with
     | None => Err (DIo OutOfMemory) | Some n => if (n =? w * 4 * h)%N then Ok n else Panic end : dres N) = Ok (w * h * 4)%N).
  { assert (Hq : (w * h * 4 =? w * 4 * h)%N = true) by (apply N.eqb_eq; lia).
    destruct (cv_limit c1); [rewrite Hlim|]; rewrite Hq; reflexivity. }
  rewrite E4 in H. clear E4.
  assert (E1 : (match match cv_limit c1 with None => Some (w * h * 1)%N | Some n => if (n <? w * h * 1)%N then None else Some (w * h * 1)%N end with
     | None => Err (DIo OutOfMemory) | Some n => if (n =? w * h)%N then Ok n else Panic end : dres N) = Ok (w * h)%N).
  { assert (Hq : (w * h * 1 =? w * h)%N = true) by (apply N.eqb_eq; lia).
    destruct (cv_limit c1) as [n|]; [replace (n <? w * h * 1)%N with false by (symmetry; apply N.ltb_ge; apply N.ltb_ge in Hlim; lia)|]; rewrite Hq; f_equal; lia. }
  rewrite E1. clear E1.
  destruct (N.ltb_spec (umax / 2) (w * h * 4)) as [Hv|Hv]; [injection H as <- <- <- <-; exact (no_calm_panic _ Hr)|].
  destruct (N.ltb_spec (umax / 2) (w * h)) as [Hv1|_]; [lia|].
  rewrite Hb in *. unfold grow in *. rewrite !firstn_nil in *. cbn [app length] in *. rewrite !Nat.sub_0_r in *.
  destruct (conv_read_into_buffer umax St cb x c4 (set_buffer f []) (repeat 0%N (N.to_nat (w * h * 4)))) as [[[x1 c4b] b4] y] eqn:E.
  assert (Hy : calm y).
  { destruct y as [[]|e| |]; injection H as <- <- <- <-; exact Hr. }
  destruct (conv_into_both (set_buffer f []) x c4 c1 (repeat 0%N (N.to_nat (w * h * 4))) (repeat 0%N (N.to_nat (w * h))) x1 c4b b4 y Hc) as (b1 & E1 & Hcb & Hok).
  { rewrite !repeat_length. lia. }
  { unfold len. rewrite repeat_length. lia. }
  { exact E. }
  { exact Hy. }
  rewrite E1. destruct y as [u|e| |].
  - injection H as <- <- <- <-. eexists. split; [reflexivity|]. split; [exact Hcb|]. split; [|reflexivity].
    destruct u. destruct (Hok eq_refl) as (F1 & F2 & F3 & F4). change (f_width (set_buffer f [])) with w in *. change (f_height (set_buffer f [])) with h in *.
    rewrite repeat_length in *. rewrite firstn_all2 in F4 by lia. rewrite skipn_all2, app_nil_r in F4 by (rewrite repeat_length; lia).
    unfold recoloured. cbn [f_buffer f_transparent set_buffer set_interlaced shown].
    rewrite F4. change (f_transparent (set_buffer f [])) with (f_transparent f). change (effective_palette c1 (set_buffer f [])) with (effective_palette c1 f).
    unfold set_buffer, set_interlaced. cbn. f_equal.
    apply paint_zeros; [apply Forall_forall; intros z Hz; eapply repeat_spec; exact Hz|rewrite repeat_length; lia].
  - injection H as <- <- <- <-. eexists. split; [reflexivity|]. split; [exact Hcb|]. split; [|reflexivity]. reflexivity.
  - exact (no_calm_panic _ Hy).
  - exact (no_calm_hang _ Hy).
Qed.
End CX.

(** The stored pixels of the frame do not matter for the conversion. *)
Section SB.
Variable St : Type.
Variable cb : St -> obuf -> St * obuf * dres nat.
Lemma fill_loop_buffer b fuel : forall x c f done buf, fill_loop St cb fuel x c (set_buffer f b) done buf = fill_loop St cb fuel x c f done buf.
Proof.
  induction fuel as [|fuel IH]; intros x c f done buf; cbn [fill_loop]; [reflexivity|].
  change (f_transparent (set_buffer f b)) with (f_transparent f).
  destruct (cv_color c).
  - destruct (_ =? 0); [reflexivity|]. destruct (cb x _) as [[x1 ob] r]. destruct r as [[|n]|e| |]; try reflexivity.
    destruct (_ <? _); [reflexivity|]. destruct (is_nil _); [reflexivity|]. rewrite IH. reflexivity.
  - destruct (cb x _) as [[x1 ob] r]. destruct r as [[|n]|e| |]; try reflexivity.
    destruct (_ <? _); [reflexivity|]. destruct (is_nil _); [reflexivity|]. rewrite IH. reflexivity.
Qed.
Lemma conv_fill_buffer_buffer b x c f buf : conv_fill_buffer St cb x c (set_buffer f b) buf = conv_fill_buffer St cb x c f buf.
Proof. apply fill_loop_buffer. Qed.
Lemma read_rows_buffer b f rows : forall x c buf, read_rows umax St cb rows x c (set_buffer f b) buf = read_rows umax St cb rows x c f buf.
Proof.
  induction rows as [|row rows IH]; intros x c buf; cbn [read_rows]; [reflexivity|].
  change (line_length c (set_buffer f b)) with (line_length c f). destruct (_ <? _)%N; [reflexivity|]. destruct (_ && _); [|reflexivity].
  rewrite conv_fill_buffer_buffer. destruct (conv_fill_buffer St cb x c f _) as [[[x1 c1] line] y]. destruct y as [[|]|e| |]; try reflexivity. apply IH.
Qed.
Lemma conv_into_buffer b x c f buf : conv_read_into_buffer umax St cb x c (set_buffer f b) buf = conv_read_into_buffer umax St cb x c f buf.
Proof.
  unfold conv_read_into_buffer. change (f_interlaced (set_buffer f b)) with (f_interlaced f). change (f_height (set_buffer f b)) with (f_height f).
  change (buffer_size umax c (set_buffer f b)) with (buffer_size umax c f).
  destruct (f_interlaced f); [apply read_rows_buffer|]. destruct (buffer_size umax c f) as [n|]; [|reflexivity].
  destruct (n <=? len buf)%N; [|reflexivity]. rewrite conv_fill_buffer_buffer. reflexivity.
Qed.
End SB.

(** ** The decoder *)
Variable skip : bool.
Definition drel (d4 d1 : dcd) : Prop :=
  dc_rd L d1 = rrecol (dc_rd L d4) /\ crel (dc_conv L d4) (dc_conv L d1) /\ dc_bg L d4 = dc_bg L d1 /\
  dc_repeat L d4 = dc_repeat L d1 /\ dc_ty L d4 = dc_ty L d1 /\
  recoloured skip (pal_now L d1) (dc_cur L d4) (dc_cur L d1).
Definition ready (d : dcd) : Prop := dcd_good L d /\ o_skip_frame_decoding (dopts L d) = skip.

Lemma pal_now_eff d : pal_now L d = effective_palette (dc_conv L d) (dc_cur L d).
Proof. unfold pal_now, dec_palette, effective_palette. destruct (f_palette _); [reflexivity|]. destruct (cv_gpal _); reflexivity. Qed.
Lemma recoloured_nil pal f : f_buffer f = [] -> recoloured skip pal f f.
Proof.
  intros H. unfold recoloured. destruct f. cbn in H. subst. unfold set_buffer. cbn. destruct skip; reflexivity.
Qed.

Lemma drel_look d4 d1 : drel d4 d1 -> same_look L umax skip d4 d1.
Proof.
  intros (R1 & (C1 & C2 & C3 & C4) & R3 & R4 & R5 & R6). unfold same_look. split; [exact R6|].
  assert (Ep : f_palette (dc_cur L d4) = f_palette (dc_cur L d1)) by (rewrite R6; reflexivity).
  assert (Ew : f_width (dc_cur L d4) = f_width (dc_cur L d1)) by (rewrite R6; reflexivity).
  assert (Eh : f_height (dc_cur L d4) = f_height (dc_cur L d1)) by (rewrite R6; reflexivity).
  unfold dec_palette, dec_global_palette, dec_width, dec_height, dec_bg_color, dec_repeat, dec_into_inner, dec_line_length, dec_buffer_size,
    buffer_size, line_length.
  rewrite Ep, Ew, Eh, C1, C2, C4, R1. do 7 (split; [first [assumption|reflexivity]|]). split; [lia|].
  destruct (N.leb_spec (f_width (dc_cur L d1) * 4 * f_height (dc_cur L d1)) umax); [|exact I].
  destruct (N.leb_spec (f_width (dc_cur L d1) * f_height (dc_cur L d1)) umax); [|lia]. eexists. split; [reflexivity|lia].
Qed.

Lemma rfuel_recol r : ev_fuel L (rrecol r) = ev_fuel L r.
Proof. reflexivity. Qed.

Definition irel (d4 d1 : dcd) : Prop :=
  dc_rd L d1 = rrecol (dc_rd L d4) /\ crel (dc_conv L d4) (dc_conv L d1) /\ dc_bg L d4 = dc_bg L d1 /\
  dc_repeat L d4 = dc_repeat L d1 /\ dc_ty L d4 = dc_ty L d1 /\ dc_cur L d4 = dc_cur L d1 /\ f_buffer (dc_cur L d1) = [].
Lemma irel_drel d4 d1 : irel d4 d1 -> drel d4 d1.
Proof. intros (R1 & R2 & R3 & R4 & R5 & R6 & R7). unfold drel. do 5 (split; [assumption|]). rewrite R6. apply recoloured_nil. exact R7. Qed.

Lemma init_loop_both fuel : forall d4 d1, irel d4 d1 ->
  match init_loop L fuel d4 with
  | Ok e4 => exists e1, init_loop L fuel d1 = Ok e1 /\ irel e4 e1
  | Err e => init_loop L fuel d1 = Err e | Panic => init_loop L fuel d1 = Panic | Hang => init_loop L fuel d1 = Hang
  end.
Proof.
  induction fuel as [|fuel IH]; intros d4 d1 Hd; cbn [init_loop]; [reflexivity|]. pose proof Hd as (R1 & R2 & R3 & R4 & R5 & R6 & R7).
  rewrite R1, decode_next_recol. destruct (decode_next L (dc_rd L d4) ONone) as [[r ob] y]. cbn [rrec3].
  destruct y as [[ev|]|e| |]; try reflexivity.
  assert (Hs : irel (set_rd L d4 r) (set_rd L d1 (rrecol r))) by (unfold irel; cbn; auto 10).
  destruct R2 as (C1 & C2 & C3 & C4).
  destruct ev; try exact (IH (set_rd L d4 r) (set_rd L d1 (rrecol r)) Hs).
  - eapply (IH (set_conv L _ _) (set_conv L _ _)). unfold irel, crel. cbn. auto 10.
  - eapply (IH (set_bg L _ _) (set_bg L _ _)). unfold irel, crel. cbn. auto 10.
  - eapply (IH (set_rep L _ _) (set_rep L _ _)). unfold irel, crel. cbn. auto 10.
  - exists (fix_bg L (set_rd L d1 (rrecol r))). split; [reflexivity|]. unfold fix_bg. cbn [set_rd dc_conv dc_bg].
    rewrite C4, R3. destruct (cv_gpal (dc_conv L d1)) eqn:Eg; [|exact Hs]. destruct (_ <=? _)%N; [|exact Hs].
    unfold irel, crel. cbn. rewrite Eg. auto 10.
Qed.
Theorem read_info_both src o : o_color o = CRgba ->
  match read_info L src o with
  | Ok d4 => exists d1, read_info L src (indexed o) = Ok d1 /\ drel d4 d1
  | Err e => read_info L src (indexed o) = Err e | Panic => read_info L src (indexed o) = Panic | Hang => read_info L src (indexed o) = Hang
  end.
Proof.
  intros Ho. unfold read_info. change (ev_fuel L (dc_rd L (with_no_init L src (indexed o)))) with (ev_fuel L (dc_rd L (with_no_init L src o))).
  assert (Hi : irel (with_no_init L src o) (with_no_init L src (indexed o))).
  { unfold irel, with_no_init, crel. cbn. unfold rrecol, recol. cbn. auto 10. }
  pose proof (init_loop_both (ev_fuel L (dc_rd L (with_no_init L src o))) _ _ Hi) as H.
  destruct (init_loop L _ (with_no_init L src o)); try exact H. destruct H as (d1 & H1 & H2). exists d1. split; [exact H1|]. apply irel_drel. exact H2.
Qed.

Lemma next_info_both fuel : forall d4 d1 d4' x, drel d4 d1 -> rd_good L (dc_rd L d4) -> o_skip_frame_decoding (dopts L d4) = skip ->
  next_frame_info_loop L fuel d4 = (d4', x) ->
  exists d1', next_frame_info_loop L fuel d1 = (d1', x) /\ drel d4' d1' /\ dc_conv L d1' = dc_conv L d1 /\
    (x = Ok true -> dc_cur L d4' = dc_cur L d1' /\ (match dc_ty L d4' with FPixels => false | FLzw _ => true end = skip) /\
       (f_palette (dc_cur L d1') = None -> cv_gpal (dc_conv L d1') <> None)).
Proof.
  induction fuel as [|fuel IH]; intros d4 d1 d4' x Hd Hr Hk H; cbn [next_frame_info_loop] in *.
  { injection H as <- <-. exists d1. split; [reflexivity|]. split; [exact Hd|]. split; [reflexivity|discriminate]. }
  pose proof Hd as (R1 & R2 & R3 & R4 & R5 & R6).
  rewrite R1, decode_next_recol. destruct (decode_next L (dc_rd L d4) ONone) as [[r ob] y] eqn:E. cbn [rrec3].
  assert (Hs : drel (set_rd L d4 r) (set_rd L d1 (rrecol r))) by (unfold drel; cbn; auto 10).
  destruct (decode_next_all L safe _ _ _ _ _ Hr E) as (Hr2 & (_ & Ho & _) & _ & Hmeta).
  assert (Hk2 : o_skip_frame_decoding (sd_opts L (rd_dec L r)) = skip) by (rewrite Ho; exact Hk).
  destruct y as [[ev|]|e| |]; try (injection H as <- <-; eexists; split; [reflexivity|]; split; [exact Hs|split; [reflexivity|discriminate]]).
  destruct ev; try exact (IH _ _ _ _ Hs Hr2 Hk2 H).
  destruct (Hmeta t eq_refl) as (_ & k & Hst).
  change (sd_current L (rd_dec L (rrecol r))) with (sd_current L (rd_dec L r)).
  assert (Hb : match sd_current L (rd_dec L r) with Some f => f_buffer f = [] | None => True end).
  { destruct Hr2 as (_ & _ & Hok). destruct Hok as (_ & _ & _ & _ & _ & _ & Hcok & _).
    destruct (sd_current L (rd_dec L r)); [apply Hcok|exact I]. }
  destruct (sd_current L (rd_dec L r)) as [f|] eqn:Ef; [|injection H as <- <-; eexists; split; [reflexivity|]; split; [exact Hs|split; [reflexivity|discriminate]]].
  cbn [frame_take] in *. cbn [f_palette set_cur set_rd dc_conv] in *.
  assert (C4 : cv_gpal (dc_conv L d4) = cv_gpal (dc_conv L d1)) by apply R2. rewrite <- C4.
  match type of H with context [set_cur L ?a ?b t] => set (e4 := set_cur L a b t) in * end.
  match goal with |- context [set_cur L ?a ?b t] => set (e1 := set_cur L a b t) in * end.
  assert (He : drel e4 e1).
  { unfold drel, e4, e1. cbn [set_cur set_rd dc_rd dc_conv dc_bg dc_repeat dc_ty dc_cur]. split; [reflexivity|].
    split; [exact R2|]. do 3 (split; [first [assumption|reflexivity]|]). apply recoloured_nil. exact Hb. }
  assert (Ht : match t with FPixels => false | FLzw _ => true end = skip).
  { destruct Hr2 as ((Hw & _) & _ & _). destruct Hw as (_ & _ & _ & Hm). unfold mode_wf in Hm.
    destruct Hst as [[Es ->]|(m & Es & ->)]; rewrite Es in Hm; [destruct Hm as [Hm _]|]; congruence. }
  exists e1. destruct (f_palette f) as [p|] eqn:Ep; [|destruct (cv_gpal (dc_conv L d4)) eqn:Eg]; injection H as <- <-;
    (split; [reflexivity|]; split; [exact He|]; split; [reflexivity|]); intros Hx; try discriminate Hx; (split; [reflexivity|]; split; [exact Ht|]).
  - unfold e1. cbn. congruence.
  - unfold e1. cbn. congruence.
Qed.

Lemma copy_lzw_loop_recol fuel : forall r v, copy_lzw_loop L fuel (rrecol r) v = rrec3 (copy_lzw_loop L fuel r v).
Proof.
  induction fuel as [|fuel IH]; intros r v; cbn [copy_lzw_loop]; [reflexivity|]. rewrite decode_next_recol.
  destruct (decode_next L r (OVec v)) as [[r1 ob] y]. cbn [rrec3]. destruct y as [[ev|]|e| |]; try reflexivity. destruct ev; try reflexivity. apply IH.
Qed.

Lemma set_buffer_self f : set_buffer f (f_buffer f) = f.
Proof. destruct f. reflexivity. Qed.

Lemma read_frame_both d4 d1 d4' x : drel d4 d1 -> dcd_good L d4 -> o_skip_frame_decoding (dopts L d4) = skip ->
  read_next_frame L umax d4 = (d4', x) -> calm x ->
  exists d1', read_next_frame L umax d1 = (d1', x) /\ drel d4' d1' /\ dc_conv L d1' = dc_conv L d1 /\
    (x = Ok true -> f_palette (dc_cur L d1') = None -> cv_gpal (dc_conv L d1') <> None).
Proof.
  intros Hd Hg Hk H Hx. unfold read_next_frame in *. destruct (next_frame_info L d4) as [e4 y] eqn:E.
  unfold next_frame_info in E. pose proof E as E0.
  destruct (next_info_both _ _ _ _ _ Hd (proj1 Hg) Hk E) as (e1 & E1 & He & Ecv & Hok).
  assert (Efi : next_frame_info L d1 = (e1, y)).
  { unfold next_frame_info. destruct Hd as (-> & _). rewrite rfuel_recol. exact E1. }
  rewrite Efi. apply (next_frame_info_returns L safe umax Humax) in E0; [|exact Hg]. destruct E0 as (_ & _ & _ & Hb).
  destruct y as [[|]|e| |]; try (injection H as <- <-; exists e1; split; [reflexivity|]; split; [exact He|split; [exact Ecv|discriminate]]).
  destruct (Hok eq_refl) as (Q1 & Q2 & Q3). destruct (Hb eq_refl) as [Q4 _].
  pose proof He as (R1 & R2 & R3 & R4 & R5 & R6). rewrite <- R5, <- Q1, R1. destruct (dc_ty L e4) as [|m] eqn:Et.
  - destruct (conv_read_frame umax rd (decode_next_bytes L) (dc_rd L e4) (dc_conv L e4) (dc_cur L e4)) as [[[r c] f] z] eqn:Ec.
    assert (Hz : calm z).
    { destruct z as [u|e| |]; try (injection H as <- <-; first [exact (calm_err _ Hx)|exact (no_calm_panic _ Hx)|exact (no_calm_hang _ Hx)]).
      split; [intros [?|?]; discriminate|split; discriminate]. }
    destruct (conv_frame_both rd (decode_next_bytes L) rrecol decode_next_bytes_both _ _ _ _ _ _ _ _ R2 Q4 Ec Hz) as (f1 & E2 & C & Hf & Hp).
    rewrite E2. exists (set_cur L (set_conv L (set_rd L e1 (rrecol r)) (dc_conv L e1)) f1 FPixels).
    assert (Hrel : drel (set_cur L (set_conv L (set_rd L e4 r) c) f FPixels) (set_cur L (set_conv L (set_rd L e1 (rrecol r)) (dc_conv L e1)) f1 FPixels)).
    { unfold drel. cbn [set_cur set_conv set_rd dc_rd dc_conv dc_bg dc_repeat dc_ty dc_cur]. split; [reflexivity|]. split; [exact C|].
      do 3 (split; [first [assumption|reflexivity]|]). rewrite pal_now_eff. cbn [set_cur set_conv set_rd dc_conv dc_cur].
      replace (effective_palette (dc_conv L e1) f1) with (effective_palette (dc_conv L e1) (dc_cur L e4)) by (unfold effective_palette; rewrite Hp; reflexivity).
      rewrite <- Q2. exact Hf. }
    destruct z as [u|e| |]; injection H as <- <-; (split; [reflexivity|]; split; [exact Hrel|]; split; [exact Ecv|]); try discriminate.
    intros _. cbn [set_cur set_conv set_rd dc_conv dc_cur]. rewrite Hp, Q1. exact Q3.
  - unfold copy_lzw_into_buffer in *. rewrite rfuel_recol, copy_lzw_loop_recol.
    destruct (copy_lzw_loop L (ev_fuel L (dc_rd L e4)) (dc_rd L e4) ([] ++ [m])) as [[r v] z]. cbn [rrec3].
    assert (Hrel : forall b, drel (set_cur L (set_rd L e4 r) (set_buffer (set_buffer (dc_cur L e4) []) b) (FLzw m))
      (set_cur L (set_rd L e1 (rrecol r)) (set_buffer (set_buffer (dc_cur L e4) []) b) (FLzw m))).
    { intros b. unfold drel. cbn [set_cur set_conv set_rd dc_rd dc_conv dc_bg dc_repeat dc_ty dc_cur]. split; [reflexivity|]. split; [exact R2|].
      do 3 (split; [first [assumption|reflexivity]|]). unfold recoloured. rewrite <- Q2. symmetry. apply set_buffer_self. }
    destruct z as [u|e| |]; injection H as <- <-; eexists; (split; [reflexivity|]; split; [first [apply Hrel|exact (Hrel [])]|]; split; [exact Ecv|]); try discriminate.
    intros _. cbn [set_cur set_conv set_rd dc_conv dc_cur set_buffer f_palette]. rewrite Q1. exact Q3.
Qed.

Lemma cur_back d4 d1 : drel d4 d1 -> exists b, dc_cur L d4 = set_buffer (dc_cur L d1) b.
Proof. intros (_ & _ & _ & _ & _ & R6). eexists. exact R6. Qed.

Lemma drel_after d4 d1 r c : drel d4 d1 -> crel c (dc_conv L d1) ->
  drel (set_conv L (set_rd L d4 r) c) (set_conv L (set_rd L d1 (rrecol r)) (dc_conv L d1)).
Proof.
  intros (R1 & R2 & R3 & R4 & R5 & R6) C. unfold drel. cbn [set_cur set_conv set_rd dc_rd dc_conv dc_bg dc_repeat dc_ty dc_cur].
  split; [reflexivity|]. split; [exact C|]. auto.
Qed.

Definition out_calm (y : dout) : Prop := match y with OutBool x => calm x | OutInto _ x => calm x | OutFill _ x => calm x end.
Lemma run_dop_both d4 d1 op4 op1 d4' y4 : drel d4 d1 -> dcd_good L d4 -> o_skip_frame_decoding (dopts L d4) = skip ->
  same_call op4 op1 -> op_ok umax op4 -> run_dop L umax d4 op4 = (d4', y4) -> out_calm y4 ->
  exists d1' y1, run_dop L umax d1 op1 = (d1', y1) /\ drel d4' d1' /\ same_answer (pal_now L d1) (dc_cur L d1) op4 op1 y4 y1.
Proof.
  intros Hd Hg Hk Hop Hsz H Hy. inversion Hop as [| |b4 b1 Hl|b4 b1 Hl]; subst op4 op1; cbn [run_dop op_ok] in *.
  - destruct (next_frame_info L d4) as [e4 y] eqn:E. injection H as <- <-. unfold next_frame_info in E.
    destruct (next_info_both _ _ _ _ _ Hd (proj1 Hg) Hk E) as (e1 & E1 & He & _).
    assert (Efi : next_frame_info L d1 = (e1, y)) by (unfold next_frame_info; destruct Hd as (-> & _); rewrite rfuel_recol; exact E1).
    rewrite Efi. eexists _, _. split; [reflexivity|]. split; [exact He|constructor].
  - destruct (read_next_frame L umax d4) as [e4 y] eqn:E. injection H as <- <-.
    destruct (read_frame_both _ _ _ _ Hd Hg Hk E Hy) as (e1 & E1 & He & _). rewrite E1.
    eexists _, _. split; [reflexivity|]. split; [exact He|constructor].
  - destruct (read_into_buffer L umax d4 b4) as [[e4 b] y] eqn:E. injection H as <- <-. unfold read_into_buffer in *.
    destruct (cur_back _ _ Hd) as [bb Eb]. rewrite Eb, conv_into_buffer in E.
    destruct (conv_read_into_buffer umax rd (decode_next_bytes L) (dc_rd L d4) (dc_conv L d4) (dc_cur L d1) b4) as [[[r c] bo] z] eqn:Ec.
    injection E as <- <- <-. pose proof Hd as (R1 & R2 & _).
    destruct (conv_into_both rd (decode_next_bytes L) rrecol decode_next_bytes_both _ _ _ _ _ b1 _ _ _ _ R2 Hl ltac:(lia) Ec Hy) as (o1 & E2 & C & Hok).
    rewrite R1, E2. eexists _, _. split; [reflexivity|]. split; [apply drel_after; assumption|]. constructor. rewrite pal_now_eff. exact Hok.
  - destruct (fill_buffer L d4 b4) as [[e4 b] y] eqn:E. injection H as <- <-. unfold fill_buffer in *.
    destruct (cur_back _ _ Hd) as [bb Eb]. rewrite Eb, conv_fill_buffer_buffer in E.
    destruct (conv_fill_buffer rd (decode_next_bytes L) (dc_rd L d4) (dc_conv L d4) (dc_cur L d1) b4) as [[[r c] bo] z] eqn:Ec.
    injection E as <- <- <-. pose proof Hd as (R1 & R2 & _).
    destruct (conv_fill_both rd (decode_next_bytes L) rrecol decode_next_bytes_both _ _ _ _ _ b1 _ _ _ _ R2 Hl Ec Hy) as (o1 & E2 & C & Hok).
    rewrite R1, E2. eexists _, _. split; [reflexivity|]. split; [apply drel_after; assumption|]. rewrite pal_now_eff. constructor; intros ->.
    + destruct (Hok true eq_refl) as (px & P1 & P2 & -> & ->). rewrite <- (P2 eq_refl). apply (filled_expand rd (decode_next_bytes L) rrecol decode_next_bytes_both); [lia|exact Hl].
    + destruct (Hok false eq_refl) as (px & P1 & P2 & -> & ->). exists (length px). apply (filled_expand rd (decode_next_bytes L) rrecol decode_next_bytes_both); [lia|exact Hl].
Qed.

Lemma watch_both os4 os1 : Forall2 same_call os4 os1 -> forall d4 d1, drel d4 d1 -> dcd_good L d4 -> alloc_ok L umax d4 ->
  o_skip_frame_decoding (dopts L d4) = skip -> Forall (op_ok umax) os4 ->
  Forall (fun p => ~ rgba_only_out (snd (fst p))) (watch L umax d4 os4) ->
  Forall2 (same_step L umax skip) (watch L umax d4 os4) (watch L umax d1 os1).
Proof.
  induction 1 as [|o4 o1 os4 os1 Ho Hos IH]; intros d4 d1 Hd Hg Ha Hk Hsz Hcalm; [constructor|].
  cbn [watch] in *. apply Forall_cons_iff in Hsz as [Hsz Hsz2].
  destruct (run_dop L umax d4 o4) as [e4 y4] eqn:E. apply Forall_cons_iff in Hcalm as [H1 H2]. cbn [fst snd] in H1.
  destruct (run_dop_returns L safe umax Humax _ _ _ _ Hg Ha Hsz E) as (Hret & Hg2 & Hkept).
  assert (Hy : out_calm y4).
  { destruct y4 as [x|b x|b x]; cbn [out_calm rgba_only_out out_returns] in *; (split; [exact H1|]; destruct x; try destruct Hret; split; discriminate). }
  destruct (run_dop_both _ _ _ _ _ _ Hd Hg Hk Ho Hsz E Hy) as (e1 & y1 & E1 & He & Hans). rewrite E1.
  constructor; [split; [exact Hans|apply drel_look; exact He]|].
  apply IH; auto; [eapply alloc_ok_kept; eassumption|]. destruct Hkept as [-> _]. exact Hk.
Qed.

(** ** The iterator *)
Definition item_calm (x : item) : Prop := match x with IErr e => ~ rgba_only (@Err derr unit e) | _ => True end.
Lemma shown_nil pal tr px : is_nil (shown CRgba pal tr px) = is_nil px.
Proof. destruct px as [|p px]; [reflexivity|]. cbn [shown flat_map]. unfold rgba_of. destruct (_ <=? _); reflexivity. Qed.
Lemma iter_next_both it4 it1 it4' x : drel (it_dec L it4) (it_dec L it1) -> it_ended L it4 = it_ended L it1 ->
  dcd_good L (it_dec L it4) -> alloc_ok L umax (it_dec L it4) -> o_skip_frame_decoding (dopts L (it_dec L it4)) = skip ->
  iter_next L umax it4 = (it4', x) -> item_calm x ->
  exists it1' x1, iter_next L umax it1 = (it1', x1) /\ drel (it_dec L it4') (it_dec L it1') /\ it_ended L it4' = it_ended L it1' /\
    dc_conv L (it_dec L it1') = dc_conv L (it_dec L it1) /\ same_item skip (cv_gpal (dc_conv L (it_dec L it1))) x x1.
Proof.
  intros Hd He Hg Ha Hk H Hx. unfold iter_next in *. rewrite <- He. destruct (it_ended L it4) eqn:Ee.
  { injection H as <- <-. exists it1, INone. rewrite Ee. split; [reflexivity|]. split; [exact Hd|]. split; [exact He|]. split; [reflexivity|constructor]. }
  destruct (read_next_frame L umax (it_dec L it4)) as [d4 y] eqn:E. pose proof E as E0.
  apply (read_next_frame_returns L safe umax Humax) in E0; [|exact Hg|exact Ha]. destruct E0 as (Hret & _).
  assert (Hy : calm y).
  { destruct y as [b|e| |]; try destruct Hret; (split; [|split; discriminate]); [intros [?|?]; discriminate|].
    injection H as <- <-. cbn [item_calm] in Hx. intros [[= ->]|[= ->]]; apply Hx; [left|right]; reflexivity. }
  destruct (read_frame_both _ _ _ _ Hd Hg Hk E Hy) as (d1 & E1 & Hr & Ecv & Hp). rewrite E1.
  destruct y as [[|]|e| |]; try destruct Hret; [|injection H as <- <-; eexists _, _; split; [reflexivity|]; split; [exact Hr|];
    split; [reflexivity|]; split; [exact Ecv|constructor]..].
  pose proof Hr as (R1 & R2 & R3 & R4 & R5 & R6).
  assert (En : is_nil (f_buffer (dc_cur L d4)) = is_nil (f_buffer (dc_cur L d1))).
  { rewrite R6. cbn [set_buffer f_buffer]. destruct skip; [reflexivity|apply shown_nil]. }
  rewrite En in H. destruct (is_nil (f_buffer (dc_cur L d1))).
  { injection H as <- <-; eexists _, _; split; [reflexivity|]; split; [exact Hr|]; split; [reflexivity|]; split; [exact Ecv|constructor]. }
  destruct (frame_take (dc_cur L d4)) as [t4 l4] eqn:E4. destruct (frame_take (dc_cur L d1)) as [t1 l1] eqn:E5.
  injection H as <- <-. unfold frame_take in E4, E5. rewrite R6 in E4. cbn in E4.
  injection E4 as <- <-. injection E5 as <- <-.
  eexists _, _. split; [reflexivity|]. cbn [it_dec it_ended]. split; [|split; [reflexivity|split; [exact Ecv|]]].
  - unfold drel. cbn [set_cur dc_rd dc_conv dc_bg dc_repeat dc_ty dc_cur]. do 5 (split; [assumption|]). apply recoloured_nil. reflexivity.
  - apply (si_frame _ _ (pal_now L d1)).
    + unfold recoloured. cbn. reflexivity.
    + cbn [f_palette]. rewrite <- Ecv. unfold pal_now, dec_palette. destruct (f_palette (dc_cur L d1)) eqn:Ep; [reflexivity|].
      specialize (Hp eq_refl eq_refl). destruct (cv_gpal (dc_conv L d1)); [reflexivity|congruence].
Qed.
Lemma iter_all_both n : forall it4 it1, drel (it_dec L it4) (it_dec L it1) -> it_ended L it4 = it_ended L it1 ->
  dcd_good L (it_dec L it4) -> alloc_ok L umax (it_dec L it4) -> o_skip_frame_decoding (dopts L (it_dec L it4)) = skip ->
  Forall item_calm (snd (iter_all L umax n it4)) ->
  Forall2 (same_item skip (cv_gpal (dc_conv L (it_dec L it1)))) (snd (iter_all L umax n it4)) (snd (iter_all L umax n it1)).
Proof.
  induction n as [|n IH]; intros it4 it1 Hd He Hg Ha Hk Hx; cbn [iter_all] in *; [constructor|].
  destruct (iter_next L umax it4) as [i4 x4] eqn:E.
  destruct (iter_all L umax n i4) as [j4 xs4] eqn:E2. cbn [snd] in *. apply Forall_cons_iff in Hx as [X1 X2].
  destruct (iter_next_both _ _ _ _ Hd He Hg Ha Hk E X1) as (i1 & x1 & E1 & Hd2 & He2 & Ecv & Hitem). rewrite E1.
  destruct (iter_next_returns L safe umax Humax _ _ _ Hg Ha E) as (_ & Hg2 & Hkept).
  pose proof (IH i4 i1 Hd2 He2 Hg2 (alloc_ok_kept L umax _ _ Hkept Ha)) as H. rewrite E2, Ecv in H. cbn [snd] in H.
  destruct (iter_all L umax n i1) as [j1 xs1]. cbn [snd] in *. constructor; [exact Hitem|]. apply H; [|exact X2].
  destruct Hkept as [-> _]. exact Hk.
Qed.

(** ** [FrameDecoder] *)
Lemma wput_length (w sl : list N) : length w <= length sl -> length (w ++ skipn (length w) sl) = length sl.
Proof. intros H. rewrite app_length, skipn_length. lia. Qed.
Lemma fd_loop_same fuel : forall x sl sl' x1 ob r, length sl = length sl' -> fd_loop L fuel x (OSlice sl) = (x1, ob, r) ->
  exists w, length w <= length sl /\ ob = wput w sl /\ fd_loop L fuel x (OSlice sl') = (x1, wput w sl', r) /\
    match r with Ok n => length w = n | _ => True end.
Proof.
  induction fuel as [|fuel IH]; intros x sl sl' x1 ob r Hl H; cbn [fd_loop] in *.
  { injection H as <- <- <-. exists []. split; [cbn; lia|]. auto. }
  destruct (lr_decode_same (fst x) (snd x) sl sl' Hl) as (r1 & w & y & E1 & E2 & Hw & Hk). rewrite E1 in H. rewrite E2.
  destruct y as [[n k]|e| |]; try (injection H as <- <- <-; exists w; split; [exact Hw|]; auto).
  destruct (0 <? k) eqn:Ek; cbn [orb] in *; [injection H as <- <- <-; exists w; split; [exact Hw|]; auto|].
  apply Nat.ltb_ge in Ek. assert (k = 0) by lia. subst k. destruct w; [|discriminate].
  destruct (_ || _); [injection H as <- <- <-; exists []; split; [exact Hw|]; auto|].
  exact (IH _ _ _ _ _ _ Hl H).
Qed.
Definition fdrel (f4 f1 : fdec L) : Prop := fd_lzw L f4 = fd_lzw L f1 /\ crel (fd_conv L f4) (fd_conv L f1).
Lemma fd_into_both f4 f1 f buf4 buf1 f4' b4 r : fdrel f4 f1 -> length buf4 = 4 * length buf1 -> (len buf4 <= umax)%N ->
  decode_lzw_encoded_frame_into_buffer L umax f4 f buf4 = (f4', b4, r) -> calm r ->
  exists f1' b1, decode_lzw_encoded_frame_into_buffer L umax f1 f buf1 = (f1', b1, r) /\ fdrel f4' f1' /\ fd_conv L f1' = fd_conv L f1 /\
    (r = Ok tt -> filled (effective_palette (fd_conv L f1) f) (f_transparent f) (N.to_nat (f_width f * f_height f)) buf4 buf1 b4 b1).
Proof.
  intros [Hz Hc] Hl Hu H Hr. unfold decode_lzw_encoded_frame_into_buffer in *.
  destruct (match f_buffer f with [] => _ | _ => _ end) as [m data]. rewrite <- Hz.
  destruct (lr_reset L (fd_lzw L f4) m) as [r0 x].
  destruct x as [u|e| |]; try (injection H as <- <- <-; eexists _, _; split; [reflexivity|]; split; [split; [reflexivity|exact Hc]|]; split; [reflexivity|discriminate]).
  destruct (conv_read_into_buffer umax _ (fd_callback L) (r0, data) (fd_conv L f4) f buf4) as [[[[r1 d1] c] b] y] eqn:E.
  injection H as <- <- <-.
  destruct (conv_into_both _ (fd_callback L) (fun x => x) (fun x sl sl' x1 ob r => fd_loop_same _ x sl sl' x1 ob r) f _ _ _ _ buf1 _ _ _ _ Hc Hl Hu E Hr) as (b1 & E1 & C & Hok).
  rewrite E1. eexists _, _. split; [reflexivity|]. split; [split; [reflexivity|exact C]|]. split; [reflexivity|exact Hok].
Qed.
Lemma fd_frame_both f4 f1 f f4' g4 r : fdrel f4 f1 ->
  decode_lzw_encoded_frame L umax f4 f = (f4', g4, r) -> calm r ->
  exists f1' g1, decode_lzw_encoded_frame L umax f1 f = (f1', g1, r) /\ fdrel f4' f1' /\ fd_conv L f1' = fd_conv L f1 /\
    same_decoded (cv_gpal (fd_conv L f1)) (g4, r) (g1, r).
Proof.
  intros Hd H Hr. pose proof Hd as [Hz Hc]. unfold decode_lzw_encoded_frame, check_buffer_size, limit_buffer_size, buffer_size, line_length in *.
  pose proof Hc as (C1 & C2 & C3 & C4). rewrite C1, C3 in H. rewrite C2.
  set (w := f_width f) in *. set (h := f_height f) in *.
  destruct (N.leb_spec (w * h * 4) umax) as [H4|H4].
  2:{ injection H as <- <- <-. destruct Hr as (Hr & _). destruct Hr. left. reflexivity. }
  destruct (N.leb_spec (w * h * 1) umax) as [H1|H1]; [|lia].
  destruct (N.leb_spec (w * 4 * h) umax) as [_|]; [|lia]. destruct (N.leb_spec (w * h) umax) as [_|]; [|lia].
  assert (Hlim : match cv_limit (fd_conv L f1) with None => True | Some n => (n <? w * h * 4)%N = false end).
  { destruct (cv_limit (fd_conv L f1)) as [n|]; [|exact I]. destruct (n <? w * h * 4)%N; [|reflexivity].
    injection H as <- <- <-. destruct Hr as (Hr & _). destruct Hr. left. reflexivity. }
  assert (E4 : (match match cv_limit (fd_conv L f1) with None => Some (w * h * 4)%N | Some n => if (n <? w * h * 4)%N then None else Some (w * h * 4)%N end with
     | None => Err (DIo OutOfMemory) | Some n => if (n =? w * 4 * h)%N then Ok n else Panic end : dres N) = Ok (w * h * 4)%N).
  { assert (Hq : (w * h * 4 =? w * 4 * h)%N = true) by (apply N.eqb_eq; lia).
    destruct (cv_limit (fd_conv L f1)); [rewrite Hlim|]; rewrite Hq; reflexivity. }
  rewrite E4 in H. clear E4.
  assert (E1 : (match match cv_limit (fd_conv L f1) with None => Some (w * h * 1)%N | Some n => if (n <? w * h * 1)%N then None else Some (w * h * 1)%N end with
     | None => Err (DIo OutOfMemory) | Some n => if (n =? w * h)%N then Ok n else Panic end : dres N) = Ok (w * h)%N).
  { assert (Hq : (w * h * 1 =? w * h)%N = true) by (apply N.eqb_eq; lia).
    destruct (cv_limit (fd_conv L f1)) as [n|]; [replace (n <? w * h * 1)%N with false by (symmetry; apply N.ltb_ge; apply N.ltb_ge in Hlim; lia)|]; rewrite Hq; f_equal; lia. }
  rewrite E1. clear E1.
  destruct (N.ltb_spec (umax / 2) (w * h * 4)) as [Hv|Hv]; [injection H as <- <- <-; exact (no_calm_panic _ Hr)|].
  destruct (N.ltb_spec (umax / 2) (w * h)) as [Hv1|_]; [lia|].
  destruct (decode_lzw_encoded_frame_into_buffer L umax f4 f (repeat 0%N (N.to_nat (w * h * 4)))) as [[fd b4] y] eqn:E.
  assert (Hy : calm y).
  { destruct y as [[]|e| |]; injection H as <- <- <-; exact Hr. }
  destruct (fd_into_both f4 f1 f (repeat 0%N (N.to_nat (w * h * 4))) (repeat 0%N (N.to_nat (w * h))) fd b4 y Hd) as (fd1 & b1 & E1 & Hfd & Ecv & Hok).
  { rewrite !repeat_length. lia. }
  { unfold len. rewrite repeat_length. lia. }
  { exact E. }
  { exact Hy. }
  rewrite E1. destruct y as [u|e| |].
  - injection H as <- <- <-. eexists _, _. split; [reflexivity|]. split; [exact Hfd|]. split; [exact Ecv|].
    split; [reflexivity|]. cbn [fst snd]. exists (effective_palette (fd_conv L f1) f). split.
    + destruct u. destruct (Hok eq_refl) as (F1 & F2 & F3 & F4). fold w h in F1, F2, F3, F4.
      rewrite repeat_length in *. rewrite firstn_all2 in F4 by lia. rewrite skipn_all2, app_nil_r in F4 by (rewrite repeat_length; lia).
      unfold recoloured. cbn [f_buffer f_transparent set_buffer set_interlaced shown].
      rewrite F4. unfold set_buffer, set_interlaced. cbn. f_equal.
      apply paint_zeros; [apply Forall_forall; intros z Hz0; eapply repeat_spec; exact Hz0|rewrite repeat_length; lia].
    + cbn [f_palette set_buffer set_interlaced]. unfold effective_palette. destruct (f_palette f); [reflexivity|]. reflexivity.
  - injection H as <- <- <-. eexists _, _. split; [reflexivity|]. split; [exact Hfd|]. split; [exact Ecv|]. split; reflexivity.
  - exact (no_calm_panic _ Hy).
  - exact (no_calm_hang _ Hy).
Qed.
Lemma fd_frames_both fs : forall f4 f1, fdrel f4 f1 -> Forall (fun y => calm (snd y)) (fd_frames L umax f4 fs) ->
  Forall2 (same_decoded (cv_gpal (fd_conv L f1))) (fd_frames L umax f4 fs) (fd_frames L umax f1 fs).
Proof.
  induction fs as [|f fs IH]; intros f4 f1 Hd Hc; cbn [fd_frames] in *; [constructor|].
  destruct (decode_lzw_encoded_frame L umax f4 f) as [[g4 h4] r] eqn:E. apply Forall_cons_iff in Hc as [X1 X2]. cbn [snd] in X1.
  destruct (fd_frame_both _ _ _ _ _ _ Hd E X1) as (g1 & h1 & E1 & Hd2 & Ecv & Hs). rewrite E1.
  constructor; [exact Hs|]. rewrite <- Ecv. apply IH; assumption.
Qed.
End RC.

(** ** Theorems *)
Section RT.
Variable L : lzw_codec.
Hypothesis safe : lzw_safe L.
Variable umax : N.
Hypothesis Humax : (2 ^ 32 - 1 <= umax)%N.
Variable src : list revent.
Hypothesis Hsrc : src_ok src.
Variable o : options.
Hypothesis Hrgba : o_color o = CRgba.
Hypothesis Hlim : limit_ok umax (o_limit o).

Lemma opened d : read_info L src o = Ok d -> dcd_good L d /\ alloc_ok L umax d /\ o_skip_frame_decoding (dopts L d) = o_skip_frame_decoding o.
Proof.
  intros E. destruct (read_info_returns L safe umax Humax src o Hsrc) as [_ H]. destruct (H d E) as [H1 H2]. split; [exact H1|].
  unfold alloc_ok. rewrite H2. auto.
Qed.

Theorem same_open :
  match read_info L src o with
  | Ok d4 => exists d1, read_info L src (indexed o) = Ok d1 /\ same_look L umax (o_skip_frame_decoding o) d4 d1
  | Err e => read_info L src (indexed o) = Err e
  | Panic => read_info L src (indexed o) = Panic
  | Hang => read_info L src (indexed o) = Hang
  end.
Proof.
  pose proof (read_info_both L (o_skip_frame_decoding o) src o Hrgba) as H. destruct (read_info L src o); try exact H.
  destruct H as (d1 & H1 & H2). exists d1. split; [exact H1|]. apply drel_look; assumption.
Qed.
Theorem same_calls d4 d1 os4 os1 : read_info L src o = Ok d4 -> read_info L src (indexed o) = Ok d1 ->
  Forall2 same_call os4 os1 -> Forall (op_ok umax) os4 ->
  Forall (fun p => ~ rgba_only_out (snd (fst p))) (watch L umax d4 os4) ->
  Forall2 (same_step L umax (o_skip_frame_decoding o)) (watch L umax d4 os4) (watch L umax d1 os1).
Proof.
  intros E4 E1 Hop Hsz Hc. pose proof (read_info_both L (o_skip_frame_decoding o) src o Hrgba) as H. rewrite E4, E1 in H.
  destruct H as (d & [= <-] & H). destruct (opened _ E4) as (G1 & G2 & G3).
  apply watch_both; auto.
Qed.
Theorem same_items d4 d1 n : read_info L src o = Ok d4 -> read_info L src (indexed o) = Ok d1 ->
  Forall (fun x => match x with IErr e => ~ rgba_only (@Err derr unit e) | _ => True end) (snd (iter_all L umax n (mk_iter L d4 false))) ->
  Forall2 (same_item (o_skip_frame_decoding o) (dec_global_palette L d1))
    (snd (iter_all L umax n (mk_iter L d4 false))) (snd (iter_all L umax n (mk_iter L d1 false))).
Proof.
  intros E4 E1 Hc. pose proof (read_info_both L (o_skip_frame_decoding o) src o Hrgba) as H. rewrite E4, E1 in H.
  destruct H as (d & [= <-] & H). destruct (opened _ E4) as (G1 & G2 & G3).
  apply (iter_all_both L safe umax Humax (o_skip_frame_decoding o) n (mk_iter L d4 false) (mk_iter L d1 false)); auto.
Qed.
End RT.
Theorem same_frame_decoder L umax : lzw_safe L -> (2 ^ 32 - 1 <= umax)%N -> forall o gp fs, o_color o = CRgba -> limit_ok umax (o_limit o) ->
  Forall (fun f => u16_ok (f_width f) /\ u16_ok (f_height f)) fs ->
  let fd p := match gp with Some g => fd_set_global_palette L (fd_new L p) g | None => fd_new L p end in
  Forall (fun y => ~ rgba_only (snd y)) (fd_frames L umax (fd o) fs) ->
  Forall2 (same_decoded gp) (fd_frames L umax (fd o) fs) (fd_frames L umax (fd (indexed o)) fs).
Proof.
  intros safe Humax o gp fs Ho Hlim Hfs fd Hc.
  assert (Hrel : fdrel L (fd o) (fd (indexed o))).
  { unfold fd, fdrel, crel. destruct gp; cbn; auto. }
  assert (Hg : forall y4 y1, same_decoded (cv_gpal (fd_conv L (fd (indexed o)))) y4 y1 -> same_decoded gp y4 y1).
  { intros y4 y1 [S1 S2]. split; [exact S1|]. destruct (snd y1); try exact S2. destruct S2 as (pal & S2 & S3). exists pal. split; [exact S2|].
    destruct (f_palette (fst y1)); [exact S3|]. rewrite S3. unfold fd. destruct gp as [[|b l]|]; reflexivity. }
  assert (Hl : limit_ok umax (cv_limit (fd_conv L (fd o)))) by (unfold fd; destruct gp; exact Hlim).
  assert (Hf2 : forall l l', Forall2 (same_decoded (cv_gpal (fd_conv L (fd (indexed o))))) l l' -> Forall2 (same_decoded gp) l l').
  { induction 1; constructor; auto. }
  apply Hf2. apply fd_frames_both; auto. clear Hrel Hg Hf2.
  revert Hl Hc. generalize (fd o) as f0. induction Hfs as [|f fs [Hw Hh] Hfs IH]; intros f0 Hl Hc; cbn [fd_frames] in *; [constructor|].
  destruct (decode_lzw_encoded_frame L umax f0 f) as [[g4 h4] r] eqn:E. apply Forall_cons_iff in Hc as [X1 X2]. cbn [snd] in X1.
  destruct (decode_lzw_encoded_frame_returns L umax safe Humax _ _ _ _ _ Hw Hh Hl E) as (Hret & Hs & _).
  constructor.
  - cbn [snd]. split; [exact X1|]. destruct r; try destruct Hret; split; discriminate.
  - apply IH; [|exact X2]. destruct Hs as (-> & _). exact Hl.
Qed.
