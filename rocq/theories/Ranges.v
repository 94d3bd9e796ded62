(** Value ranges kept by the streaming decoder: bytes, 16-bit fields, palette sizes. *)
From Verif Require Import Base Common Lzw Encoder Stream StreamInv Steps.
Open Scope N_scope.

Definition obyte_ok (o : option N) : Prop := match o with Some b => byte_ok b | None => True end.
Definition opal_ok (o : option (list N)) : Prop := match o with Some p => bytes_ok p | None => True end.

(** A frame whose fields fit their Rust types (its pixel buffer apart). *)
Definition frame_ok (f : frame) : Prop :=
  u16_ok (f_delay f) /\ obyte_ok (f_transparent f) /\ u16_ok (f_top f) /\ u16_ok (f_left f) /\
  u16_ok (f_width f) /\ u16_ok (f_height f) /\ opal_ok (f_palette f).

(** Sizes that a colour table can declare: 3 * 2^(k+1) bytes, k = 0..7. *)
Definition pal_size (n : nat) : Prop := exists k, (k < 8)%nat /\ n = (3 * 2 ^ (k + 1))%nat.

Lemma bytes_ok_app a b : bytes_ok (a ++ b) <-> bytes_ok a /\ bytes_ok b.
Proof. apply Forall_app. Qed.
Lemma bytes_ok_firstn n l : bytes_ok l -> bytes_ok (firstn n l).
Proof. revert l. induction n; intros [|x l] H; cbn; constructor; inversion H; subst; auto. apply IHn. assumption. Qed.
Lemma bytes_ok_skipn n l : bytes_ok l -> bytes_ok (skipn n l).
Proof. revert l. induction n; intros [|x l] H; cbn; auto. inversion H. apply IHn. assumption. Qed.
Lemma at_ok l n : bytes_ok l -> byte_ok (at_ l n).
Proof.
  intros H. unfold at_. destruct (lt_dec n (length l)) as [Hn|Hn].
  - pose proof (proj1 (Forall_forall _ _) H) as Hf. apply Hf. now apply nth_In.
  - rewrite nth_overflow by lia. unfold byte_ok. lia.
Qed.

Lemma table_bytes_size flags : pal_size (table_bytes flags).
Proof.
  unfold table_bytes, pal_size. exists (N.to_nat (N.land flags 7)). split.
  - assert (N.land flags 7 < 8); [|lia].
    change 7 with (N.ones 3). rewrite N.land_ones. apply N.mod_lt. discriminate.
  - f_equal. rewrite N.shiftl_mul_pow2, N.mul_1_l, N2Nat.inj_pow. f_equal. lia.
Qed.

Section Ranges.
Variable L : lzw_codec.
Hypothesis safe : lzw_safe L.
Notation sd := (sd L).

Definition cur_pal_ok (s : sd) : Prop :=
  match sd_state L s with
  | LocalPalette k =>
    match sd_current L s with
    | Some f => match f_palette f with
                | Some p => pal_size (k + length p)
                | None => k = O
                end
    | None => True
    end
  | LzwInit _ | DecodeSubBlock _ | CopySubBlock _ | FrameDecoded =>
    match sd_current L s with
    | Some f => match f_palette f with Some p => pal_size (length p) | None => True end
    | None => True
    end
  | _ => match sd_current L s with Some f => f_palette f = None | None => True end
  end.

Definition gct_pal_ok (s : sd) : Prop :=
  match sd_state L s with
  | GlobalPalette k => (k = O /\ sd_gct L s = []) \/ pal_size (k + length (sd_gct L s))
  | _ => True
  end.

Definition sd_ok (s : sd) : Prop :=
  bytes_ok (sd_ibuf L s) /\ u16_ok (sd_width L s) /\ u16_ok (sd_height L s) /\
  bytes_ok (sd_gct L s) /\ byte_ok (sd_ext_id L s) /\ bytes_ok (sd_ext_data L s) /\
  (match sd_current L s with Some f => frame_ok f /\ f_buffer f = [] | None => True end) /\
  (match sd_state L s with BlockStart t => byte_ok t | LzwInit m => byte_ok m | _ => True end) /\
  cur_pal_ok s /\ gct_pal_ok s.

Definition event_ok (d : decoded) : Prop :=
  match d with
  | DGlobalPalette p => bytes_ok p /\ (p = [] \/ pal_size (length p))
  | DBackgroundColor c => byte_ok c
  | DRepetitions (RFinite n) => u16_ok n /\ n <> 0
  | DFrameMetadata (FLzw m) => 1 <= m <= 11
  | _ => True
  end.

Lemma sd_new_ok o : sd_ok (sd_new L o).
Proof. unfold sd_ok, cur_pal_ok, gct_pal_ok, u16_ok, byte_ok, bytes_ok. cbn. repeat split; auto; lia. Qed.

Lemma frame_default_ok : frame_ok frame_default.
Proof. unfold frame_ok, u16_ok, bytes_ok. cbn. repeat split; auto; lia. Qed.

Lemma img_frame_ok f v : frame_ok f -> bytes_ok v -> frame_ok (img_frame f v).
Proof.
  unfold frame_ok, img_frame. intros (H1 & H2 & H3 & H4 & H5 & H6 & H7) Hv.
  cbn [f_delay f_transparent f_top f_left f_width f_height f_palette f_buffer set_geometry].
  repeat split; auto; apply rd16_u16; apply at_ok; assumption.
Qed.

Lemma ctl_frame_ok f v : frame_ok f -> bytes_ok v -> frame_ok (ctl_frame f v).
Proof.
  unfold frame_ok, ctl_frame. intros (H1 & H2 & H3 & H4 & H5 & H6 & H7) Hv.
  cbn [f_delay f_transparent f_top f_left f_width f_height f_palette f_buffer set_control].
  repeat split; auto.
  - apply rd16_u16; apply at_ok; assumption.
  - destruct (N.land _ _ =? 0); cbn; [exact I|]. apply at_ok. assumption.
Qed.

Lemma set_palette_ok f p : frame_ok f -> opal_ok p -> frame_ok (set_palette f p).
Proof.
  unfold frame_ok. intros (H1 & H2 & H3 & H4 & H5 & H6 & H7) Hv.
  cbn [f_delay f_transparent f_top f_left f_width f_height f_palette f_buffer set_palette].
  repeat split; auto.
Qed.

Lemma hdr_ok s buf : bytes_ok (sd_ibuf L s) -> bytes_ok buf -> bytes_ok (hdr L s buf).
Proof. intros. apply bytes_ok_app. split; [|apply bytes_ok_firstn]; assumption. Qed.

Lemma cur_default_ok s : (match sd_current L s with Some f => frame_ok f /\ f_buffer f = [] | None => True end) ->
  frame_ok (cur_or_default L s) /\ f_buffer (cur_or_default L s) = [].
Proof. unfold cur_or_default. destruct (sd_current L s); auto using frame_default_ok. Qed.

Ltac prep :=
  unfold sd_ok, cur_pal_ok, gct_pal_ok; sdcbn;
  repeat match goal with |- _ /\ _ => split | |- True => exact I end; try assumption.

Lemma nst_ok s buf ob s' ob' r :
  sd_ok s -> bytes_ok buf -> sd_wf L s -> nst L s buf ob s' ob' r ->
  sd_ok s' /\ (forall n d, r = Ok (n, d) -> event_ok d).
Proof.
  intros Hok Hb Hwf Hn.
  destruct Hok as (K1 & K2 & K3 & K4 & K5 & K6 & K7 & K8 & K9 & K10).
  pose proof (hdr_ok s buf K1 Hb) as Hh.
  pose proof (cur_default_ok s K7) as [Hcd1 Hcd2].
  unfold cur_pal_ok in K9. unfold gct_pal_ok in K10.
  assert (Hbf : forall n, bytes_ok (firstn n buf)) by (intros; now apply bytes_ok_firstn).
  assert (Hbh : forall b t, buf = b :: t -> byte_ok b) by (intros b t ->; now inversion Hb).
  destruct Hn; try match goal with H : sd_state L s = _ |- _ => rename H into Est; rewrite Est in K8, K9, K10 end.
  - (* more *)
    split; [|intros ? ? E; injection E as <- <-; exact I].
    destruct (sd_state L s) eqn:Est; try discriminate; prep; rewrite ?Est; auto;
      try (apply bytes_ok_app; split; assumption).
  - split; [prep; constructor|intros ? ? E; injection E as <- <-; exact I].
  - split; [prep; rewrite ?Est; auto; constructor|discriminate].
  - (* screen *)
    split; [|intros ? ? E; injection E as <- <-; apply at_ok; assumption].
    destruct Hwf as (_ & Hg & _). unfold gct_wf in Hg. rewrite Est in Hg. destruct Hg as [Hg1 Hg2].
    unfold after_screen. cbn zeta. destruct (negb _); prep; try apply rd16_u16; try apply at_ok; auto;
      try solve [constructor].
    right. rewrite Nat.add_0_r. apply table_bytes_size.
  - (* image *)
    split; [|intros ? ? E; injection E as <- <-; exact I].
    rewrite H1 in *. destruct K7 as [K7 K7b].
    unfold after_image. cbn zeta. rewrite K9. destruct (negb _); prep; cbn [length Nat.add]; auto; try solve [constructor].
    + apply set_palette_ok; [apply img_frame_ok; assumption|constructor].
    + cbn [f_palette set_palette length]. rewrite Nat.add_0_r. apply table_bytes_size.
    + apply img_frame_ok; assumption.
    + cbn. rewrite K9. reflexivity.
  - (* image oob *)
    split; [|discriminate]. rewrite H1 in *. destruct K7 as [K7 K7b].
    prep; rewrite ?Est; auto; try solve [constructor]; apply img_frame_ok; assumption.
  - (* gp *)
    split; [|intros ? ? E; injection E as <- <-; exact I].
    prep.
    + apply bytes_ok_app; auto.
    + rewrite app_length, firstn_length. destruct K10 as [K10|K10]; [lia|].
      right. replace (k - n + (length (sd_gct L s) + Nat.min n (length buf)))%nat
        with (k + length (sd_gct L s))%nat by lia. exact K10.
  - (* gp end *)
    split.
    + prep; [constructor|eauto].
    + intros ? ? E. injection E as <- <-. cbn. split; [assumption|]. tauto.
  - split; [prep|intros ? ? E; injection E as <- <-; exact I].
  - (* bs image *)
    split; [|intros ? ? E; injection E as <- <-; exact I].
    prep. unfold cur_or_default. destruct (sd_current L s); [exact K9|reflexivity].
  - split; [prep; eauto; constructor|intros ? ? E; injection E as <- <-; exact I].
  - split; [prep; rewrite ?Est; eauto; constructor|discriminate].
  - split; [prep; auto|intros ? ? E; injection E as <- <-; exact I].
  - split; [prep; auto|intros ? ? E; injection E as <- <-; exact I].
  - split; [prep; rewrite ?Est; auto|discriminate].
  - split; [prep; auto; unfold byte_ok; lia|intros ? ? E; injection E as <- <-; exact I].
  - split; [prep; eauto|intros ? ? E; injection E as <- <-; exact I].
  - split; [prep; auto|intros ? ? E; injection E as <- <-; exact I].
    apply bytes_ok_app. split; [assumption|]. repeat constructor; eauto.
  - split; [prep; auto|intros ? ? E; injection E as <- <-; exact I].
    apply bytes_ok_app; auto.
  - split; [prep; rewrite ?Est; auto|discriminate].
  - split; [prep; auto|intros ? ? E; injection E as <- <-; exact I].
  - split; [prep; auto|intros ? ? E; injection E as <- <-; exact I].
  - (* control *)
    split; [prep; auto|intros ? ? E; injection E as <- <-; exact I].
    + apply ctl_frame_ok; [assumption|]. apply bytes_ok_skipn. assumption.
    + cbn. unfold cur_or_default. destruct (sd_current L s); [exact K9|reflexivity].
  - split; [prep; rewrite ?Est; auto|discriminate].
  - split; [prep; auto|intros ? ? E; injection E as <- <-; exact I].
  - (* app *)
    split; [prep; auto|]. intros ? ? E; injection E as <- <-. subst d.
    destruct (is_netscape _); [|exact I]. cbn zeta.
    destruct (N.eqb_spec (rd16 (at_ (sd_ext_data L s) 13) (at_ (sd_ext_data L s) 14)) 0); [exact I|].
    cbn. split; [|assumption]. apply rd16_u16; apply at_ok; assumption.
  - (* lp *)
    split; [|intros ? ? E; injection E as <- <-; exact I].
    rewrite H2, H3 in *. destruct K7 as [K7 K7b].
    prep.
    + apply set_palette_ok; [assumption|]. cbn. apply bytes_ok_app. split; [|auto].
      destruct K7 as (_ & _ & _ & _ & _ & _ & K). rewrite H3 in K. exact K.
    + cbn [f_palette set_palette]. rewrite app_length, firstn_length.
      replace (k - n + (length p + Nat.min n (length buf)))%nat with (k + length p)%nat by lia. exact K9.
  - (* lp end *)
    split; [|intros ? ? E; injection E as <- <-; exact I].
    prep; eauto. destruct (sd_current L s) as [f|]; [|exact I]. destruct (f_palette f); [exact K9|exact I].
  - split; [prep; auto|intros ? ? E; injection E as <- <-; exact I].
  - split; [prep; auto|]. intros ? ? E; injection E as <- <-. cbn.
    unfold check_code_size in *. lia.
  - split; [prep; rewrite ?Est; auto|discriminate].
  - split; [prep; auto|intros ? ? E; injection E as <- <-; exact I].
  - split; [prep; rewrite ?Est; auto|discriminate].
  - split; [prep; auto|intros ? ? E; injection E as <- <-; exact I].
  - split; [prep; auto|intros ? ? E; injection E as <- <-; exact I].
  - split; [prep; auto|intros ? ? E; injection E as <- <-; exact I].
  - split; [prep; auto|intros ? ? E; injection E as <- <-; destruct (w =? 0)%nat; exact I].
  - split; [prep; rewrite ?Est; auto|discriminate].
  - split; [prep; auto|intros ? ? E; injection E as <- <-; exact I].
  - split; [|intros ? ? E; injection E as <- <-; destruct (w =? 0)%nat; exact I].
    destruct (w =? 0)%nat; prep; auto.
  - split; [prep; rewrite ?Est; auto|discriminate].
  - split; [prep; auto|intros ? ? E; injection E as <- <-; exact I].
  - split; [prep; auto|intros ? ? E; injection E as <- <-; exact I].
Qed.

End Ranges.
