(** Invariants of the streaming decoder: every step keeps them, never panics, and makes progress. *)
From Verif Require Import Base Common Lzw Encoder Stream.
Open Scope N_scope.

Ltac sdcbn := cbn [sd_state sd_ibuf sd_lzw sd_opts sd_version sd_width sd_height sd_gct sd_gct_cap
  sd_ext_id sd_ext_data sd_ext_end sd_current sd_pal_cap sd_header_end
  set_state set_ibuf set_lzw set_version set_screen set_gct set_ext set_current set_header_end
  lr_decoder lr_check lr_min_code_size].
Ltac sdcbn_in H := cbn [sd_state sd_ibuf sd_lzw sd_opts sd_version sd_width sd_height sd_gct sd_gct_cap
  sd_ext_id sd_ext_data sd_ext_end sd_current sd_pal_cap sd_header_end
  set_state set_ibuf set_lzw set_version set_screen set_gct set_ext set_current set_header_end
  lr_decoder lr_check lr_min_code_size] in H.

Section Inv.
Variable L : lzw_codec.
Hypothesis safe : lzw_safe L.
Notation sd := (sd L).

(** Bytes collected before a fixed-size header can be parsed. *)
Definition need (st : state) : nat :=
  match st with Magic => 6 | ScreenDescriptor => 7 | ImageBlockStart => 9 | _ => 1 end.

(** States entered without consuming the zero byte that led to them. *)
Definition late (st : state) : bool :=
  match st with ApplicationExtension | FrameDecoded => true | _ => false end.
Definition zero_ok (s : sd) (buf : list N) : Prop :=
  late (sd_state L s) = true -> exists t, buf = 0 :: t.

Definition gct_wf (s : sd) : Prop :=
  match sd_state L s with
  | Magic | ScreenDescriptor => sd_gct L s = [] /\ sd_gct_cap L s = O
  | GlobalPalette lft => (lft <= sd_gct_cap L s - length (sd_gct L s))%nat
  | _ => True
  end.
Definition cur_wf (s : sd) : Prop :=
  match sd_state L s with
  | ImageBlockStart | LzwInit _ | DecodeSubBlock _ | CopySubBlock _ | FrameDecoded =>
    sd_current L s <> None
  | LocalPalette lft =>
    exists f, sd_current L s = Some f /\
      ((0 < lft)%nat -> exists p, f_palette f = Some p /\ (lft <= sd_pal_cap L s - length p)%nat)
  | _ => True
  end.
Definition mode_wf (s : sd) : Prop :=
  match sd_state L s with
  | DecodeSubBlock _ =>
    o_skip_frame_decoding (sd_opts L s) = false /\ lr_decoder L (sd_lzw L s) <> None
  | CopySubBlock _ => o_skip_frame_decoding (sd_opts L s) = true
  | _ => True
  end.
Definition sd_wf (s : sd) : Prop :=
  (length (sd_ibuf L s) < need (sd_state L s))%nat /\ gct_wf s /\ cur_wf s /\ mode_wf s.

Lemma sd_new_wf o : sd_wf (sd_new L o).
Proof. repeat split; simpl; lia. Qed.

(** Progress measures. *)
Definition erank (s : sd) : nat :=
  match sd_state L s with
  | BlockStart _ => if sd_header_end L s then 1 else 2
  | BlockEnd | DecodeSubBlock _ | CopySubBlock _ | ExtensionDataBlock _ => 3
  | _ => 0
  end.
Definition meas (s : sd) (buf : list N) : nat := (4 * length buf + erank s)%nat.

Lemma skipn_lt {A} n (l : list A) : (0 < n)%nat -> l <> [] -> (length (skipn n l) < length l)%nat.
Proof. intros Hn Hl. rewrite skipn_length. destruct l; [congruence|]. cbn [length]. lia. Qed.

Definition is_slice (ob : obuf) : bool := match ob with OSlice _ => true | _ => false end.

(** The destination keeps its kind; a slice keeps its length, a vector only grows. *)
Definition same_shape (ob ob' : obuf) : Prop :=
  match ob with
  | OSlice s => exists s', ob' = OSlice s' /\ length s' = length s
  | OVec v => exists v', ob' = OVec (v ++ v')
  | ONone => ob' = ONone
  end.

(** The effect of [lr_decode_bytes] that matters here. *)
Lemma lr_decode_bytes_safe r data ob r' ob' x :
  lr_decode_bytes L r data ob = (r', ob', x) -> lr_decoder L r <> None ->
  lr_decoder L r' <> None /\ lr_check L r' = lr_check L r /\ same_shape ob ob' /\
  match x with
  | Ok (n, k) => (n <= length data)%nat /\
      (match ob with OSlice s => (k <= length s)%nat | _ => k = O end)
  | Err _ => True
  | Panic | Hang => False
  end.
Proof.
  unfold lr_decode_bytes. intros H Hd.
  destruct (lr_decoder L r) as [d|] eqn:Ed; [|congruence]. rewrite <- Ed in Hd.
  assert (Hv : forall v, ob = OVec v -> same_shape ob ob).
  { intros v ->. exists []. now rewrite app_nil_r. }
  destruct ob as [s|v|].
  - destruct (lz_decode L d data (length s)) as [d' [[n w] st]] eqn:E.
    apply safe in E. destruct E as [E1 E2].
    assert (Hs : same_shape (OSlice s) (OSlice (w ++ skipn (length w) s))).
    { eexists. split; [reflexivity|]. rewrite app_length, skipn_length. lia. }
    destruct st; try destruct (lr_check L r); injection H as <- <- <-; cbn;
      repeat split; try discriminate; try assumption; auto.
  - injection H as <- <- <-. split; [exact Hd|]. repeat split. eapply Hv. reflexivity.
  - destruct (lz_decode L d data (length [])) as [d' [[n w] st]] eqn:E.
    apply safe in E. destruct E as [E1 E2]. simpl in E2.
    destruct st; try destruct (lr_check L r); injection H as <- <- <-; cbn;
      repeat split; try discriminate; try assumption; lia.
Qed.

(** The outcome of a step, as it should be. *)
Definition good_step (s : sd) (buf : list N) (ob : obuf) (y : sd * obuf * dres (nat * decoded)) : Prop :=
  let '(s', ob', r) := y in
  sd_opts L s' = sd_opts L s /\ same_shape ob ob' /\
  match r with
  | Ok (n, d) =>
    (n <= length buf)%nat /\ sd_wf s' /\ zero_ok s' (skipn n buf) /\
    (sd_state L s' = Trailer -> sd_state L s = Trailer \/ d = DBlockStart BkTrailer) /\
    (sd_state L s <> Trailer ->
       (is_slice ob = false \/ d = DNothing) -> (meas s' (skipn n buf) < meas s buf)%nat) /\
    (forall k, d = DBytesDecoded k -> exists s0, ob = OSlice s0 /\ (0 < k <= length s0)%nat)
  | Err e => sd_wf s' /\ late (sd_state L s') = false /\ sd_state L s' <> Trailer
  | Panic | Hang => False
  end.

Lemma same_shape_refl ob : same_shape ob ob.
Proof. destruct ob; simpl; eauto. exists []. now rewrite app_nil_r. Qed.

Lemma set_ibuf_id s x : sd_ibuf L s = x -> set_ibuf L s x = s.
Proof. intros <-. destruct s; reflexivity. Qed.

Lemma ensure_min_ok s buf req :
  (length (sd_ibuf L s) < req)%nat -> (req <= 9)%nat -> buf <> [] ->
  match ensure_min L s buf req with
  | GotPanic _ => False
  | GotMore _ s1 n =>
    n = length buf /\ s1 = set_ibuf L s (sd_ibuf L s ++ buf) /\
    (length (sd_ibuf L s ++ buf) < req)%nat
  | GotAll _ s1 n d =>
    s1 = set_ibuf L s [] /\ n = (req - length (sd_ibuf L s))%nat /\ (n <= length buf)%nat /\
    d = sd_ibuf L s ++ firstn n buf /\ length d = req
  end.
Proof.
  intros Hi Hr Hb. unfold ensure_min.
  destruct ((req <=? length buf)%nat && is_nil (sd_ibuf L s)) eqn:E.
  - apply andb_true_iff in E as [E1 E2]. apply Nat.leb_le in E1. apply is_nil_true in E2.
    rewrite E2 in *. cbn [length app] in *. rewrite set_ibuf_id by exact E2.
    rewrite Nat.sub_0_r. repeat split; try lia. rewrite firstn_length. lia.
  - rewrite (proj2 (Nat.ltb_lt _ _) Hi).
    set (has := length (sd_ibuf L s)) in *.
    destruct (Nat.ltb_spec 9 (has + Nat.min (length buf) (req - has))) as [H9|H9]; [lia|].
    destruct (Nat.ltb_spec (has + Nat.min (length buf) (req - has)) req) as [Hn|Hn].
    + rewrite Nat.min_l by lia. rewrite firstn_all. rewrite app_length. fold has. repeat split. lia.
    + rewrite Nat.min_r by lia.
      assert (Hl : length (sd_ibuf L s ++ firstn (req - has) buf) = req).
      { rewrite app_length, firstn_length. fold has. lia. }
      rewrite firstn_all2 by lia. repeat split; try lia; assumption.
Qed.

Lemma rest_meas (s s' : sd) n buf : (0 < n)%nat -> buf <> [] ->
  (meas s' (skipn n buf) < meas s buf)%nat.
Proof.
  intros Hn Hb. unfold meas. pose proof (skipn_lt n buf Hn Hb).
  assert (erank s' <= 3)%nat by (unfold erank; destruct (sd_state L s'); try destruct (sd_header_end L s'); lia).
  lia.
Qed.

Ltac split_all := repeat match goal with |- _ /\ _ => split | |- True => exact I end.
Ltac wfsolve Est :=
  unfold sd_wf, gct_wf, cur_wf, mode_wf; sdcbn; try rewrite Est; cbn [need length f_palette set_palette set_geometry];
  split_all; try assumption; try discriminate; try congruence; try tauto;
  rewrite ?app_length, ?firstn_length in *; try lia;
  try match goal with
      | |- exists f, _ /\ ((0 < _)%nat -> _) =>
        eexists; split; [reflexivity|]; cbn [f_palette set_palette];
        let H := fresh in intro H;
        first [ lia
              | eexists; split; [reflexivity|]; rewrite ?app_length, ?firstn_length; cbn [length]; lia ]
      end.
Ltac measolve Est Hb :=
  let H1 := fresh in let H2 := fresh in
  intros H1 H2;
  first [ congruence
        | apply rest_meas; [rewrite ?firstn_length; lia | exact Hb]
        | unfold meas, erank; sdcbn; rewrite Est; cbn [skipn];
          repeat match goal with H : sd_header_end _ _ = _ |- _ => rewrite H end;
          repeat match goal with |- context [if ?c then _ else _] => destruct c end; lia
        | destruct H2 as [H2|H2]; discriminate ].
Ltac okstep0 Est Hb :=
  unfold goto, good_step; cbn iota zeta beta;
  split; [sdcbn; congruence | split; [first [assumption
    | cbn [same_shape]; eexists; split; [reflexivity|rewrite ?app_length, ?firstn_length, ?skipn_length; lia]
    | cbn [same_shape]; eexists; reflexivity ] | split; [
    rewrite ?app_length, ?firstn_length in *; lia |
    split; [wfsolve Est | split; [
      unfold zero_ok; sdcbn; try rewrite Est; cbn [late]; intros; first [discriminate | subst; eexists; reflexivity]
    | split; [ sdcbn; try rewrite Est; intros; first [discriminate | now left | now right]
    | split; [ measolve Est Hb
    | let k := fresh "k" in let Hk := fresh "Hk" in
      intros k Hk; first [ discriminate | injection Hk as <-; eexists; split; [reflexivity|lia] ] ]]]]]]].
Ltac errstep0 Est :=
  unfold good_step; cbn iota zeta beta;
  split; [sdcbn; congruence | split; [first [assumption
    | cbn [same_shape]; eexists; split; [reflexivity|rewrite ?app_length, ?firstn_length, ?skipn_length; lia]
    | cbn [same_shape]; eexists; reflexivity ] | split; [
    wfsolve Est | split; [sdcbn; try rewrite Est; reflexivity | sdcbn; try rewrite Est; discriminate]]]].

Lemma next_state_good s buf ob :
  sd_wf s -> zero_ok s buf -> buf <> [] -> good_step s buf ob (next_state L s buf ob).
Proof.
  intros Hwf Hz Hb.
  destruct buf as [|b buf']; [congruence|].
  remember (b :: buf') as buf eqn:Ebuf.
  assert (Hlen : (0 < length buf)%nat) by (subst; simpl; lia).
  pose proof Hwf as (Hi & Hg & Hc & Hm).
  unfold next_state. rewrite Ebuf. rewrite <- Ebuf.
  pose proof (same_shape_refl ob) as Hsh.
  unfold gct_wf, cur_wf, mode_wf in Hg, Hc, Hm.
  unfold zero_ok in Hz.
  destruct (sd_state L s) as [ | | | lft | t | | | lft | | lft | m | lft | lft | | ] eqn:Est;
    cbn [need late] in Hi, Hz.
  - (* Magic *)
    pose proof (ensure_min_ok s buf 6 Hi ltac:(lia) Hb) as He.
    destruct (ensure_min L s buf 6) as [ |s1 n|s1 n v]; [easy| | ].
    + destruct He as (-> & -> & Hl). okstep0 Est Hb.
    + destruct He as (-> & -> & Hn & Hv & Hl).
      destruct (list_eqb v GIF87a); [okstep0 Est Hb|].
      destruct (list_eqb v GIF89a); [okstep0 Est Hb|]. errstep0 Est.
  - (* ScreenDescriptor *)
    pose proof (ensure_min_ok s buf 7 Hi ltac:(lia) Hb) as He.
    destruct (ensure_min L s buf 7) as [ |s1 n|s1 n v]; [easy| | ].
    + destruct He as (-> & -> & Hl). okstep0 Est Hb.
    + destruct He as (-> & -> & Hn & Hv & Hl). cbn zeta.
      destruct Hg as [Hg1 Hg2].
      destruct (negb (N.land (at_ v 4) 128 =? 0)); okstep0 Est Hb.
  - (* ImageBlockStart *)
    pose proof (ensure_min_ok s buf 9 Hi ltac:(lia) Hb) as He.
    destruct (ensure_min L s buf 9) as [ |s1 n|s1 n v]; [easy| | ].
    + destruct He as (-> & -> & Hl). okstep0 Est Hb.
    + destruct He as (-> & -> & Hn & Hv & Hl). sdcbn.
      destruct (sd_current L s) as [f|] eqn:Ec; [|congruence]. cbn zeta. sdcbn.
      destruct (_ && _); [errstep0 Est|].
      destruct (negb _); [|okstep0 Est Hb].
      destruct (f_palette _) as [p|] eqn:Ep; okstep0 Est Hb.
  - (* GlobalPalette *)
    destruct (Nat.ltb_spec 0 lft) as [Hl|Hl]; [|okstep0 Est Hb].
    cbn zeta.
    destruct (Nat.leb_spec (Nat.min lft (length buf)) (sd_gct_cap L s - length (sd_gct L s))); [|lia].
    okstep0 Est Hb.
  - (* BlockStart *)
    destruct (sd_header_end L s) eqn:Eh; cbn [negb andb].
    + destruct (block_from_u8 t) as [[ | | ]|].
      * unfold add_frame. destruct (sd_current L s) eqn:Ec; okstep0 Est Hb.
      * cbn zeta. destruct (extension_from_u8 b); [okstep0 Est Hb|errstep0 Est].
      * okstep0 Est Hb.
      * destruct (o_allow_unknown_blocks _); [okstep0 Est Hb|errstep0 Est].
    + destruct (negb (t =? block_u8 BkExtension)); [okstep0 Est Hb|].
      destruct (block_from_u8 t) as [[ | | ]|].
      * unfold add_frame. destruct (sd_current L s) eqn:Ec; okstep0 Est Hb.
      * cbn zeta. destruct (extension_from_u8 b); [okstep0 Est Hb|errstep0 Est].
      * okstep0 Est Hb.
      * destruct (o_allow_unknown_blocks _); [okstep0 Est Hb|errstep0 Est].
  - (* BlockEnd *)
    destruct (b =? block_u8 BkTrailer); okstep0 Est Hb.
  - (* ExtensionBlockStart *)
    okstep0 Est Hb.
  - (* ExtensionDataBlock *)
    destruct (Nat.ltb_spec 0 lft) as [Hl|Hl].
    + cbn zeta. destruct (check_size _ _); [okstep0 Est Hb|errstep0 Est].
    + destruct (N.eqb_spec b 0) as [->|Hb0].
      * cbn zeta. sdcbn.
        destruct (extension_from_u8 (sd_ext_id L s)) as [[ | | | ]|]; try okstep0 Est Hb.
        unfold read_control_extension. sdcbn.
        destruct (negb _); [errstep0 Est|]. cbn zeta. okstep0 Est Hb.
      * okstep0 Est Hb.
  - (* ApplicationExtension *)
    destruct (Hz eq_refl) as [tl Htl]. assert (b = 0) by congruence. subst b.
    cbn [N.eqb negb]. destruct (is_netscape _); okstep0 Est Hb.
  - (* LocalPalette *)
    destruct Hc as (f & Hf & Hp).
    destruct (Nat.ltb_spec 0 lft) as [Hl|Hl].
    + destruct (Hp Hl) as (p & Hp1 & Hp2). rewrite Hf, Hp1. cbn zeta.
      destruct (Nat.leb_spec (Nat.min lft (length buf)) (sd_pal_cap L s - length p)); [|lia].
      okstep0 Est Hb.
    + okstep0 Est Hb.
  - (* LzwInit *)
    destruct (o_skip_frame_decoding (sd_opts L s)) eqn:Es; cbn [negb].
    + destruct (check_code_size m); [okstep0 Est Hb|errstep0 Est].
    + unfold lr_reset. destruct (check_code_size m).
      * destruct (lr_decoder L (sd_lzw L s)); [destruct (negb _)|]; okstep0 Est Hb.
      * errstep0 Est.
  - (* DecodeSubBlock *)
    destruct Hm as [Hm1 Hm2]. rewrite Hm1.
    destruct (Nat.ltb_spec 0 lft) as [Hl|Hl].
    + cbn zeta. destruct (_ || _) eqn:Eo; [okstep0 Est Hb|].
      destruct (lr_decode_bytes L (sd_lzw L s) (firstn (Nat.min lft (length buf)) buf) ob)
        as [[r1 ob1] x] eqn:El.
      apply lr_decode_bytes_safe in El; [|exact Hm2].
      destruct El as (Hd & Hck & Hsh1 & Hx).
      destruct x as [[n k]|e| | ]; try easy.
      * destruct Hx as [Hx1 Hx2]. rewrite firstn_length in Hx1.
        destruct ((n =? 0)%nat && (k =? 0)%nat) eqn:Enk.
        -- apply andb_true_iff in Enk as [En Ek]. apply Nat.eqb_eq in En, Ek. subst n k.
           cbn [Nat.eqb andb].
           destruct (Nat.ltb_spec lft (Nat.min lft (length buf))); [lia|]. okstep0 Est Hb.
        -- destruct (Nat.ltb_spec lft n); [lia|].
           destruct (Nat.eqb_spec k 0) as [->|Hk].
           ++ rewrite andb_true_r in Enk. apply Nat.eqb_neq in Enk. okstep0 Est Hb.
           ++ destruct ob as [sl|v| ]; try lia. okstep0 Est Hb.
      * errstep0 Est.
    + destruct (N.eqb_spec b 0) as [->|Hb0]; cbn [negb].
      * destruct (lr_decode_bytes L (sd_lzw L s) [] ob) as [[r1 ob1] x] eqn:El.
        apply lr_decode_bytes_safe in El; [|exact Hm2].
        destruct El as (Hd & Hck & Hsh1 & Hx).
        destruct x as [[n k]|e| | ]; try easy; [|errstep0 Est].
        destruct Hx as [Hx1 Hx2].
        destruct (Nat.eqb_spec k 0) as [->|Hk].
        -- okstep0 Est Hb.
        -- destruct ob as [sl|v| ]; try lia. okstep0 Est Hb.
      * okstep0 Est Hb.
  - (* CopySubBlock *)
    rewrite Hm. cbn [negb].
    destruct (Nat.ltb_spec 0 lft) as [Hl|Hl].
    + cbn zeta. destruct ob as [sl|v| ]; cbn [obuf_append].
      * destruct (Nat.ltb_spec lft (Nat.min (length (firstn (Nat.min lft (length buf)) buf)) (length sl)))
          as [H|H]; rewrite firstn_length in H; [lia|].
        okstep0 Est Hb.
      * destruct (check_size _ _); [|errstep0 Est].
        destruct (Nat.ltb_spec lft (length (firstn (Nat.min lft (length buf)) buf)))
          as [H|H]; rewrite firstn_length in H; [lia|]. okstep0 Est Hb.
      * destruct (Nat.ltb_spec lft (length (firstn (Nat.min lft (length buf)) buf)))
          as [H|H]; rewrite firstn_length in H; [lia|]. okstep0 Est Hb.
    + destruct (N.eqb_spec b 0) as [->|Hb0]; cbn [negb]; okstep0 Est Hb.
  - (* FrameDecoded *)
    destruct (Hz eq_refl) as [tl Htl]. assert (b = 0) by congruence. subst b.
    cbn [N.eqb negb]. okstep0 Est Hb.
  - (* Trailer *)
    okstep0 Est Hb.
Qed.

End Inv.
