(** How damage is reported that follows an intact beginning of a file, under every read schedule. *)
From Verif Require Import Base Common Lzw Encoder Stream Converter Reader StreamInv Steps StepsRev
  ReaderInv Interlace Ranges ConvInv DecoderSafe Canon CanonReader SpecGif DocTrace DocBlocks SpecPixels
  Pixels PixelRead DocRead DocAll SpecDamage.
Open Scope N_scope.

(** ** Prefixes of the input *)
Section Prefix.
Variable L : lzw_codec.
Notation sd := (sd L).
Notation cn := (cn L).

Lemma cn_prefix s str ob y : cn s str ob y -> forall p q, str = p ++ q ->
  cn s p ob (CStuck L) \/
  match y with
  | CEv _ s1 str1 ob1 d => exists str2, str1 = str2 ++ q /\ cn s p ob (CEv L s1 str2 ob1 d)
  | CErr _ e => cn s p ob (CErr L e)
  | CStuck _ => False
  end.
Proof.
  induction 1 as [s ob|s b t ob s1 ob1 n d H Hs|s b t ob s1 ob1 n d x H Hs Hc IH|s b t ob s1 ob1 e H]; intros p q E.
  - destruct p; [left; constructor|discriminate].
  - destruct p as [|b' p]; [left; constructor|]. injection E as <- ->. right. exists (skipn n [b] ++ p).
    split; [apply app_assoc|]. now apply cn_ev.
  - destruct p as [|b' p]; [left; constructor|]. injection E as <- ->.
    destruct (IH (skipn n [b] ++ p) q ltac:(apply app_assoc)) as [Hx|Hx].
    + left. eapply cn_silent; eassumption.
    + right. destruct x as [s2 str2 ob2 d2|e| ].
      * destruct Hx as (str3 & E3 & Hx). exists str3. split; [exact E3|]. eapply cn_silent; eassumption.
      * eapply cn_silent; eassumption.
      * exact Hx.
  - destruct p as [|b' p]; [left; constructor|]. injection E as <- ->. right. eapply cn_err. exact H.
Qed.

Lemma cinfo_prefix s str y : cinfo L s str y -> forall p q, str = p ++ q ->
  match y with
  | IMeta _ _ str1 _ | IEnd _ _ str1 => (length str1 < length q)%nat
  | IErr' _ _ => False
  | IStuck _ => True
  end -> cinfo L s p (IStuck L).
Proof.
  induction 1 as [s str s1 str1 ob t H|s str s1 str1 ob H|s str e H|s str H|s str s1 str1 ob d x H Hd1 Hd2 Hc IH];
    intros p q E Hl; destruct (cn_prefix _ _ _ _ H p q E) as [Hx|Hx]; try (apply ci_stuck; exact Hx).
  - destruct Hx as (str2 & -> & _). rewrite app_length in Hl. lia.
  - destruct Hx as (str2 & -> & _). rewrite app_length in Hl. lia.
  - easy.
  - easy.
  - destruct Hx as (str2 & E2 & Hx). eapply ci_skip; [exact Hx|exact Hd1|exact Hd2|]. eapply IH; eassumption.
Qed.

Lemma cini_prefix h s str y : cini L h s str y -> forall p q, str = p ++ q ->
  match y with NDone _ _ str1 _ => (length str1 < length q)%nat | NErr _ _ => False | NStuck _ => True end ->
  cini L h s p (NStuck L).
Proof.
  induction 1 as [h s str s1 str1 ob H|h s str s1 str1 ob H|h s str e H|h s str H|h s str s1 str1 ob d x H Hd1 Hd2 Hc IH];
    intros p q E Hl; destruct (cn_prefix _ _ _ _ H p q E) as [Hx|Hx]; try (apply cini_stuck; exact Hx).
  - destruct Hx as (str2 & -> & _). rewrite app_length in Hl. lia.
  - easy.
  - easy.
  - easy.
  - destruct Hx as (str2 & E2 & Hx). eapply cini_step; [exact Hx|exact Hd1|exact Hd2|]. eapply IH; eassumption.
Qed.
End Prefix.

Section DM.
Variable L : lzw_codec.
Variable S : lzw_spec L.
Notation safe := (lz_is_safe L S).
Notation sd := (sd L).
Notation cn := (cn L).
Notation run := (run L).

(** ** Faults *)
(** The reader gets into the error [e], after events of no interest. *)
Definition fault (s : sd) (str : list N) (e : derr) : Prop :=
  exists evs s1 str1, Forall boring evs /\ Forall in_header evs /\ run s str evs s1 str1 /\ cn s1 str1 ONone (CErr L e).
Lemma fault_info s str e : fault s str e -> cinfo L s str (IErr' L e).
Proof.
  intros (evs & s1 & str1 & H1 & _ & R & H2). eapply cinfo_ctr; [apply R|exact H1|]. now apply ci_err.
Qed.
Lemma fault_ini h s str e : fault s str e -> cini L h s str (NErr L e).
Proof.
  intros (evs & s1 & str1 & _ & H1 & R & H2). eapply cini_ctr; [apply R|exact H1|]. now apply cini_err.
Qed.
Lemma fault_run s str evs s1 str1 e : Forall boring evs -> Forall in_header evs -> run s str evs s1 str1 ->
  (sd_wf L s1 -> fault s1 str1 e) -> fault s str e.
Proof.
  intros H1 H2 R Hf. destruct (Hf (proj2 R)) as (evs' & s2 & str2 & H3 & H4 & R2 & H5).
  exists (evs ++ evs'), s2, str2. split; [now apply Forall_app|]. split; [now apply Forall_app|].
  split; [|exact H5]. eapply run_trans; [exact R|intros _; exact R2].
Qed.
Lemma fault_step s buf tl s' e : sd_wf L s -> zero_ok L s buf -> buf <> [] ->
  nst L s buf ONone s' ONone (Err e) -> fault s (buf ++ tl) e.
Proof.
  intros Hw Hz Hb Hn. exists [], s, (buf ++ tl). split; [constructor|]. split; [constructor|].
  split; [now apply run_refl|]. exact (absorb L safe s buf ONone s' ONone _ tl Hw Hz Hb eq_refl Hn).
Qed.
Lemma fault_byte s b tl s' e : sd_wf L s -> late (sd_state L s) = false \/ b = 0 ->
  nst L s [b] ONone s' ONone (Err e) -> fault s (b :: tl) e.
Proof.
  intros Hw Hl Hn. apply (fault_step s [b] tl s' e Hw); [|discriminate|exact Hn].
  intros E. destruct Hl as [Hl| ->]; [congruence|eauto].
Qed.

(** *** Extensions *)
Lemma fault_control s tl : sd_wf L s -> sd_state L s = ExtensionDataBlock 0 -> sd_ext_id L s = 0xF9 ->
  length (sd_ext_data L s) <> 5%nat -> fault s (0 :: tl) (DFormat ControlWrongLength).
Proof.
  intros Hw Hst Hid Hd. eapply fault_byte; [exact Hw|right; reflexivity|].
  eapply (N_xd_ctl_bad L s [0]); [exact Hst|reflexivity|rewrite Hid; reflexivity|exact Hd].
Qed.

Lemma unfit_check lim n : ~ fits lim n -> check_size lim n = false.
Proof. destruct lim; cbn; [lia|intros H; exfalso; apply H; exact I]. Qed.
Lemma fits_dec lim n : fits lim n \/ ~ fits lim n.
Proof. destruct lim as [l|]; cbn; [destruct (N.leb_spec n l); [left; lia|right; lia]|left; exact I]. Qed.

(** Sub-blocks, the last of which need not be whole: they are taken in, or exceed the memory limit. *)
Lemma begun_head subs n b : Forall sub_ok subs -> 0 < n -> exists n0 rest, begun subs n b = n0 :: rest /\ 0 < n0.
Proof.
  intros Hs Hn. destruct subs as [|b1 subs]; [exists n, b; split; [reflexivity|exact Hn]|].
  apply Forall_cons_iff in Hs as [[H1 _] _].
  exists (N.of_nat (length b1)), (b1 ++ begun subs n b). split; [|lia].
  unfold begun. cbn [map concat]. unfold ser_sub at 1. cbn [app]. rewrite <- app_assoc. reflexivity.
Qed.
Lemma part_run s k b tl : sd_wf L s -> sd_state L s = ExtensionDataBlock k -> (0 < k)%nat -> (length b <= k)%nat ->
  fits (o_limit (sd_opts L s)) (len (sd_ext_data L s) + len b) -> exists s', run s (b ++ tl) [] s' tl.
Proof.
  intros Hw Hst Hk Hb Hf. destruct b as [|x b]; [exists s; now apply run_refl|]. set (y := x :: b) in *.
  exists (set_state L (set_ext L s (sd_ext_id L s) (sd_ext_data L s ++ firstn (length y) y) (sd_ext_end L s)) (ExtensionDataBlock (k - length y))).
  pose proof (run_step L safe s y tl
    (set_state L (set_ext L s (sd_ext_id L s) (sd_ext_data L s ++ firstn (length y) y) (sd_ext_end L s)) (ExtensionDataBlock (k - length y)))
    (length y) DNothing Hw) as R.
  rewrite skipn_all in R. apply R; [intros E; rewrite Hst in E; discriminate|discriminate|].
  apply N_xd; [exact Hst|exact Hk|lia|apply fits_check; exact Hf].
Qed.
Lemma part_fault s k b tl : sd_wf L s -> sd_state L s = ExtensionDataBlock k -> (0 < k)%nat -> (length b <= k)%nat -> b <> [] ->
  ~ fits (o_limit (sd_opts L s)) (len (sd_ext_data L s) + len b) -> fault s (b ++ tl) (DFormat MemoryLimitReached).
Proof.
  intros Hw Hst Hk Hb Hne Hf. eapply fault_step; [exact Hw|intros E; rewrite Hst in E; discriminate|exact Hne|].
  eapply N_xd_limit; [exact Hst|exact Hk|reflexivity|]. rewrite Nat.min_r by exact Hb. now apply unfit_check.
Qed.
Lemma begun_data subs n b tl : Forall sub_ok subs -> 0 < n -> len b <= n ->
  forall s n0 rest, begun subs n b = n0 :: rest -> sd_wf L s -> sd_state L s = ExtensionDataBlock (N.to_nat n0) ->
  let size := len (sd_ext_data L s) + len (payload subs) + len b in
  (fits (o_limit (sd_opts L s)) size -> exists evs s', Forall boring evs /\ Forall in_header evs /\ run s (rest ++ tl) evs s' tl) /\
  (~ fits (o_limit (sd_opts L s)) size -> payload subs ++ b <> [] \/ fits (o_limit (sd_opts L s)) (len (sd_ext_data L s)) ->
     fault s (rest ++ tl) (DFormat MemoryLimitReached)).
Proof.
  intros Hs Hn Hb. induction Hs as [|b1 subs [H1 _] Hs IH]; intros s n0 rest E Hw Hst; cbv zeta.
  - injection E as <- <-. unfold len in Hb. cbn [payload concat length] in *. change (len []) with 0. rewrite N.add_0_r. split.
    + intros Hf. destruct (part_run s (N.to_nat n) b tl Hw Hst ltac:(lia) ltac:(lia) Hf) as (s' & R).
      exists [], s'. split; [constructor|]. split; [constructor|exact R].
    + intros Hf H0. apply (part_fault s (N.to_nat n)); [exact Hw|exact Hst|lia|lia| |exact Hf].
      intros ->. destruct H0 as [H0|H0]; [apply H0; reflexivity|]. change (len []) with 0 in Hf. rewrite N.add_0_r in Hf. contradiction.
  - assert (E' : begun (b1 :: subs) n b = N.of_nat (length b1) :: b1 ++ begun subs n b).
    { unfold begun. cbn [map concat]. unfold ser_sub at 1. cbn [app]. rewrite <- app_assoc. reflexivity. }
    rewrite E' in E. injection E as <- <-. rewrite Nat2N.id in Hst. rewrite <- app_assoc.
    assert (Hne : b1 <> []) by (intros ->; cbn in H1; lia).
    assert (Hp : len (payload (b1 :: subs)) = len b1 + len (payload subs)).
    { unfold payload, len. cbn [concat]. rewrite app_length. lia. }
    rewrite Hp.
    destruct (fits_dec (o_limit (sd_opts L s)) (len (sd_ext_data L s) + len b1)) as [Hfb|Hfb].
    + pose proof (run_body L safe s b1 (begun subs n b ++ tl) Hw Hst Hne Hfb) as R1.
      match type of R1 with run _ _ _ ?x _ => set (s1 := x) in * end.
      destruct (begun_head subs n b Hs Hn) as (n1 & rest1 & E1 & Hn1). rewrite E1 in R1 |- *. cbn [app] in R1.
      set (s2 := set_state L (set_ext L s1 (sd_ext_id L s1) (sd_ext_data L s1) false) (ExtensionDataBlock (N.to_nat n1))).
      assert (R2 : run s1 (n1 :: rest1 ++ tl) [DSubBlockFinished (sd_ext_id L s1)] s2 (rest1 ++ tl)).
      { apply (run_byte L safe s1 _ _ s2 (DSubBlockFinished (sd_ext_id L s1))); [apply R1|reflexivity|].
        eapply N_xd_next; [reflexivity|reflexivity|lia]. }
      destruct (IH s2 n1 rest1 E1 (proj2 R2) eq_refl) as [IH1 IH2].
      change (sd_opts L s2) with (sd_opts L s) in IH1, IH2.
      assert (Hl : len (sd_ext_data L s2) = len (sd_ext_data L s) + len b1).
      { change (sd_ext_data L s2) with (sd_ext_data L s ++ b1). unfold len. rewrite app_length. lia. }
      rewrite Hl in IH1, IH2.
      assert (B : Forall boring [DSubBlockFinished (sd_ext_id L s1)] /\ Forall in_header [DSubBlockFinished (sd_ext_id L s1)]).
      { split; repeat constructor; try discriminate. }
      destruct B as [B1 B2]. split.
      * intros Hf. destruct IH1 as (evs & s' & V1 & V2 & R3).
        { replace (len (sd_ext_data L s) + len b1 + len (payload subs) + len b)
            with (len (sd_ext_data L s) + (len b1 + len (payload subs)) + len b) by lia. exact Hf. }
        exists ([DSubBlockFinished (sd_ext_id L s1)] ++ evs), s'. split; [now apply Forall_app|]. split; [now apply Forall_app|].
        apply (run_trans L _ _ [] _ _ _ _ _ R1). intros _.
        apply (run_trans L _ _ [DSubBlockFinished (sd_ext_id L s1)] _ _ evs _ _ R2). intros _. exact R3.
      * intros Hf _. eapply fault_run; [constructor|constructor|exact R1|]. intros W1.
        eapply fault_run; [exact B1|exact B2|exact R2|]. intros W2. apply IH2; [|right; exact Hfb].
        replace (len (sd_ext_data L s) + len b1 + len (payload subs) + len b)
          with (len (sd_ext_data L s) + (len b1 + len (payload subs)) + len b) by lia. exact Hf.
    + split.
      * intros Hf. contradict Hfb. eapply fits_mono; [|exact Hf]. lia.
      * intros _ _. apply (part_fault s (length b1)); [exact Hw|exact Hst|lia|lia|exact Hne|exact Hfb].
Qed.

Section At.
Variable o : options.
Variable g : gif.
Notation docst := (docst L S o g).
Notation pos := (pos L).

Lemma ser_subs_cons b subs tl : ser_subs (b :: subs) ++ tl = N.of_nat (length b) :: b ++ concat (map ser_sub subs) ++ 0 :: tl.
Proof. unfold ser_subs. cbn [map concat]. unfold ser_sub at 1. cbn [app]. rewrite <- !app_assoc. reflexivity. Qed.

Lemma at_ext s str l r c x : docst s c x -> pos s str [] (0x21 :: l :: r) ->
  exists s0, run s str [] s0 (l :: r) /\ docst s0 c x /\ sd_state L s0 = BlockStart 0x21.
Proof.
  intros Hd Hp. destruct (pos_take _ _ _ _ _ _ _ _ _ _ _ _ Hd Hp (eq_refl : ser_blocks [] ++ 0x21 :: l :: r = 0x21 :: l :: r) ltac:(discriminate))
    as (s0 & R & D & E & _). eauto.
Qed.

Lemma at_label s str l r c x : docst s c x -> pos s str [] (0x21 :: l :: r) -> ~ known_label l ->
  fault s str (DFormat UnknownBlockType).
Proof.
  intros Hd Hp Hl. destruct (at_ext _ _ _ _ _ _ Hd Hp) as (s0 & R & D & E).
  eapply fault_run; [constructor|constructor|exact R|]. intros W.
  eapply fault_byte; [exact W|left; rewrite E; reflexivity|].
  eapply N_bs_ext_bad; [exact E|reflexivity|]. unfold known_label in Hl. unfold extension_from_u8.
  destruct (N.eqb_spec l 0x01), (N.eqb_spec l 0xF9), (N.eqb_spec l 0xFE), (N.eqb_spec l 0xFF); try reflexivity; exfalso; tauto.
Qed.

Lemma data_events l n : Forall boring (DBlockStart BkExtension :: repeat (DSubBlockFinished l) n) /\
  Forall in_header (DBlockStart BkExtension :: repeat (DSubBlockFinished l) n).
Proof.
  split; constructor; try apply repeat_boring; try apply repeat_in_header; split; try discriminate.
Qed.

Lemma blob_length subs : subs <> [] -> length (ext_blob subs) = Datatypes.S (length (payload subs)).
Proof. destruct subs; [congruence|reflexivity]. Qed.

Lemma at_control s str subs r c x : docst s c x -> pos s str [] (0x21 :: 0xF9 :: ser_subs subs ++ r) ->
  subs_ok subs -> length (payload subs) <> 4%nat -> fits (o_limit o) (1 + N.of_nat (length (payload subs))) ->
  fault s str (DFormat ControlWrongLength).
Proof.
  intros Hd Hp Hs H4 Hf. destruct (at_ext _ _ _ _ _ _ Hd Hp) as (s0 & R & D & E).
  eapply fault_run; [constructor|constructor|exact R|]. intros W.
  destruct (run_ext_data L safe s0 0xF9 subs r W E ltac:(unfold known_label; auto) Hs) as (e & R1).
  { rewrite (ds_opts _ _ _ _ _ _ _ D). exact Hf. }
  destruct (data_events 0xF9 (length subs - 1)) as [B1 B2].
  eapply fault_run; [exact B1|exact B2|exact R1|]. intros W1.
  apply fault_control; [exact W1|reflexivity|reflexivity|].
  change (length (ext_blob subs) <> 5%nat). rewrite blob_length by apply Hs. lia.
Qed.

Lemma ext_begun s str l subs n b tl c x : docst s c x -> pos s str [] (0x21 :: l :: begun subs n b ++ tl) ->
  known_label l -> begun_ok subs n b ->
  exists evs s2 n0 rest, Forall boring evs /\ Forall in_header evs /\ run s str evs s2 (rest ++ tl) /\
    begun subs n b = n0 :: rest /\ sd_state L s2 = ExtensionDataBlock (N.to_nat n0) /\ sd_opts L s2 = o /\ len (sd_ext_data L s2) = 1.
Proof.
  intros Hd Hp Hl (Hs & Hn & Hb). destruct (at_ext _ _ _ _ _ _ Hd Hp) as (s0 & R & D & E).
  destruct (begun_head subs n b Hs (proj1 Hn)) as (n0 & rest & E0 & _). rewrite E0 in *. cbn [app] in *.
  assert (Hx : exists x, extension_from_u8 l = Some x).
  { destruct Hl as [->|[->|[->| ->]]]; cbn; eauto. }
  destruct Hx as (y & Hx).
  set (s1 := set_state L (set_ext L s0 l [] (sd_ext_end L s0)) ExtensionBlockStart).
  assert (R1 : run s0 (l :: n0 :: rest ++ tl) [DBlockStart BkExtension] s1 (n0 :: rest ++ tl)).
  { apply (run_byte L safe s0 l _ s1 (DBlockStart BkExtension)); [apply R|rewrite E; reflexivity|].
    eapply N_bs_ext; [exact E|reflexivity|exact Hx]. }
  set (s2 := set_state L (set_ext L s1 (sd_ext_id L s1) (sd_ext_data L s1 ++ [n0]) (sd_ext_end L s1)) (ExtensionDataBlock (N.to_nat n0))).
  assert (R2 : run s1 (n0 :: rest ++ tl) [] s2 (rest ++ tl)).
  { apply (run_byte L safe s1 _ _ s2 DNothing); [apply R1|reflexivity|]. eapply N_xb; reflexivity. }
  destruct (data_events l 0) as [B1 B2].
  exists [DBlockStart BkExtension], s2, n0, rest. split; [exact B1|]. split; [exact B2|]. split; [|split; [reflexivity|]].
  - apply (run_trans L _ _ [] _ _ [DBlockStart BkExtension] _ _ R). intros _.
    apply (run_trans L _ _ [DBlockStart BkExtension] _ _ [] _ _ R1). intros _. exact R2.
  - split; [reflexivity|]. split; [|reflexivity]. change (sd_opts L s2) with (sd_opts L s0). apply (ds_opts _ _ _ _ _ _ _ D).
Qed.

Lemma at_memory s str l subs n b r c x : docst s c x -> pos s str [] (0x21 :: l :: begun subs n b ++ r) ->
  known_label l -> begun_ok subs n b -> payload subs ++ b <> [] -> ~ fits (o_limit o) (1 + len (payload subs) + len b) ->
  fault s str (DFormat MemoryLimitReached).
Proof.
  intros Hd Hp Hl Hok Hne Hf. destruct (ext_begun _ _ _ _ _ _ _ _ _ Hd Hp Hl Hok) as (evs & s2 & n0 & rest & B1 & B2 & R & E & Hst & Ho & H1).
  destruct Hok as (Hs & Hn & Hb).
  eapply fault_run; [exact B1|exact B2|exact R|]. intros W2.
  apply (begun_data subs n b r Hs (proj1 Hn) Hb s2 n0 rest E W2 Hst); [rewrite Ho, H1; exact Hf|left; exact Hne].
Qed.

(** *** Unknown blocks *)
Lemma at_start s str t r c x : docst s c x -> pos s str [] (t :: r) -> t <> 0x3B -> sd_header_end L s = true ->
  exists s0, run s str [] s0 r /\ docst s0 c x /\ sd_state L s0 = BlockStart t /\ sd_header_end L s0 = true.
Proof.
  intros Hd Hp Ht Hh. destruct (pos_take _ _ _ _ _ _ _ _ _ _ _ _ Hd Hp (eq_refl : ser_blocks [] ++ t :: r = t :: r) Ht)
    as (s0 & R & D & E & H0). exists s0. split; [exact R|]. split; [exact D|]. split; [exact E|congruence].
Qed.

Lemma at_block s str t b r c x : docst s c x -> pos s str [] (t :: b :: r) -> sd_header_end L s = true ->
  o_allow_unknown_blocks o = false -> not_a_block t -> fault s str (DFormat UnknownBlockType).
Proof.
  intros Hd Hp Hh Ho (T1 & T2 & T3). destruct (at_start _ _ _ _ _ _ Hd Hp T3 Hh) as (s0 & R & D & E & H0).
  eapply fault_run; [constructor|constructor|exact R|]. intros W.
  eapply fault_byte; [exact W|left; rewrite E; reflexivity|].
  eapply N_bs_unknown_bad; try eassumption. rewrite (ds_opts _ _ _ _ _ _ _ D). exact Ho.
Qed.

Lemma at_tolerated s str t subs r c x : docst s c x -> pos s str [] (t :: ser_subs subs ++ r) -> sd_header_end L s = true ->
  o_allow_unknown_blocks o = true -> not_a_block t -> subs_ok subs -> fst x = 0xF9 -> (4 < length (snd x))%nat ->
  fits (o_limit o) (len (snd x) + N.of_nat (length (payload subs))) -> fault s str (DFormat ControlWrongLength).
Proof.
  intros Hd Hp Hh Ho (T1 & T2 & T3) Hs Hx Hx4 Hf. destruct (at_start _ _ _ _ _ _ Hd Hp T3 Hh) as (s0 & R & D & E & H0).
  eapply fault_run; [constructor|constructor|exact R|]. intros W.
  destruct (run_unk_data L safe s0 x t subs r W E H0 T1 T2 T3) as (e & R1); try assumption.
  { rewrite (ds_opts _ _ _ _ _ _ _ D). exact Ho. }
  { apply D. }
  { rewrite (ds_opts _ _ _ _ _ _ _ D). exact Hf. }
  eapply fault_run; [apply repeat_boring|apply repeat_in_header|exact R1|]. intros W1.
  apply fault_control; [exact W1|reflexivity|exact Hx|].
  change (length (snd x ++ payload subs) <> 5%nat). rewrite app_length.
  destruct Hs as (Hne & Hs). destruct subs as [|b subs]; [congruence|]. apply Forall_cons_iff in Hs as [[Hb _] _].
  unfold payload. cbn [concat]. rewrite app_length. lia.
Qed.

Lemma unk_begun s str t subs n b tl c x : docst s c x -> pos s str [] (t :: begun subs n b ++ tl) -> sd_header_end L s = true ->
  o_allow_unknown_blocks o = true -> not_a_block t -> begun_ok subs n b ->
  exists s2 n0 rest, run s str [] s2 (rest ++ tl) /\ begun subs n b = n0 :: rest /\
    sd_state L s2 = ExtensionDataBlock (N.to_nat n0) /\ sd_opts L s2 = o /\ sd_ext_data L s2 = snd x.
Proof.
  intros Hd Hp Hh Ho (T1 & T2 & T3) (Hs & Hn & Hb). destruct (at_start _ _ _ _ _ _ Hd Hp T3 Hh) as (s0 & R & D & E & H0).
  destruct (begun_head subs n b Hs (proj1 Hn)) as (n0 & rest & E0 & _). rewrite E0 in *. cbn [app] in *.
  set (s2 := set_state L s0 (ExtensionDataBlock (N.to_nat n0))).
  assert (R2 : run s0 (n0 :: rest ++ tl) [] s2 (rest ++ tl)).
  { apply (run_byte L safe s0 _ _ s2 DNothing); [apply R|rewrite E; reflexivity|]. eapply N_bs_unknown; eauto.
    rewrite (ds_opts _ _ _ _ _ _ _ D). exact Ho. }
  exists s2, n0, rest. split; [|split; [reflexivity|]].
  - apply (run_trans L _ _ [] _ _ [] _ _ R). intros _. exact R2.
  - split; [reflexivity|]. split; [exact (ds_opts _ _ _ _ _ _ _ D)|].
    pose proof (ds_ext _ _ _ _ _ _ _ D) as Ex. rewrite <- Ex. reflexivity.
Qed.

Lemma at_tolerated_memory s str t subs n b r c x : docst s c x -> pos s str [] (t :: begun subs n b ++ r) -> sd_header_end L s = true ->
  o_allow_unknown_blocks o = true -> not_a_block t -> begun_ok subs n b -> payload subs ++ b <> [] ->
  ~ fits (o_limit o) (len (snd x) + len (payload subs) + len b) -> fault s str (DFormat MemoryLimitReached).
Proof.
  intros Hd Hp Hh Ho Ht Hok Hne Hf. destruct (unk_begun _ _ _ _ _ _ _ _ _ Hd Hp Hh Ho Ht Hok) as (s2 & n0 & rest & R & E & Hst & Hop & Hx).
  destruct Hok as (Hs & Hn & Hb).
  eapply fault_run; [constructor|constructor|exact R|]. intros W2.
  apply (begun_data subs n b r Hs (proj1 Hn) Hb s2 n0 rest E W2 Hst); [rewrite Hop, Hx; exact Hf|left; exact Hne].
Qed.

(** *** Images *)
Lemma image_events : Forall boring [DBlockStart BkImage] /\ Forall in_header [DBlockStart BkImage].
Proof. split; (constructor; [split; discriminate|constructor]). Qed.

Lemma at_bounds s str i r c x : docst s c x -> pos s str [] (0x2C :: descriptor i ++ r) -> sd_header_end L s = true ->
  o_check_frame_consistency o = true -> descriptor_ok i -> ~ inside g i -> fault s str (DFormat FrameOutOfBounds).
Proof.
  intros Hd Hp Hh Ho Hi Hin. destruct (at_start _ _ _ _ _ _ Hd Hp ltac:(discriminate) Hh) as (s0 & R & D & E & H0).
  eapply fault_run; [constructor|constructor|exact R|]. intros W.
  destruct (image_start L S o g s0 c x i r D E H0) as (s1 & R1 & S1 & S2 & S3 & S4 & S5 & S6 & S7 & S8 & Ehd & Ehn).
  destruct image_events as [B1 B2].
  eapply fault_run; [exact B1|exact B2|exact R1|]. intros W1.
  change (descriptor i) with (img_head i).
  eapply fault_step; [exact W1|intros E2; rewrite S1 in E2; discriminate E2|discriminate|].
  pose proof (N_image_oob L s1 (img_head i) ONone (ctl_only c) S1) as Q. rewrite Ehn, Ehd in Q.
  apply Q; [cbn; lia|exact S5|].
  rewrite (img_head_frame c i Hi). unfold img_oob, placed. rewrite S2, S3, S4, Ho.
  cbn [set_geometry f_width f_left f_height f_top andb]. unfold inside in Hin. unfold out_of_bounds.
  destruct (g_w g <? im_w i) eqn:E1, (g_h g <? im_h i) eqn:E2; lia.
Qed.

Lemma at_code_size s str i b r c x : docst s c x -> pos s str [] (0x2C :: descriptor i ++ im_lct i ++ im_mcs i :: b :: r) ->
  sd_header_end L s = true -> descriptor_ok i -> table_ok (im_flags i) (im_lct i) ->
  (o_check_frame_consistency o = true -> inside g i) -> ~ (1 <= im_mcs i <= 11) ->
  fault s str (DFormat InvalidMinimalCodeSize).
Proof.
  intros Hd Hp Hh Hi Ht Hin Hm. destruct (at_start _ _ _ _ _ _ Hd Hp ltac:(discriminate) Hh) as (s0 & R & D & E & H0).
  eapply fault_run; [constructor|constructor|exact R|]. intros W.
  destruct (image_head L S o g s0 c x i (b :: r) D E H0 Hi Ht Hin) as (s1 & R1 & S1 & _).
  destruct image_events as [B1 B2].
  eapply fault_run; [exact B1|exact B2|exact R1|]. intros W1.
  eapply fault_byte; [exact W1|left; rewrite S1; reflexivity|].
  eapply N_init_bad; [exact S1|]. unfold check_code_size. lia.
Qed.

(** ** The end of the input *)
Lemma run_stuck s str s0 : run s str [] s0 [] -> cn s str ONone (CStuck L).
Proof. intros [R _]. inversion R as [? ? ? ? Hs|]; subst. apply Hs. constructor. Qed.
Lemma at_nothing s str c x : docst s c x -> pos s str [] [] -> cn s str ONone (CStuck L).
Proof.
  intros Hd [[_ ->]|[(b & _ & _ & E)|(_ & _ & _ & (tl & E))]]; [constructor|discriminate|discriminate].
Qed.
Lemma at_one s str t c x : docst s c x -> pos s str [] [t] -> t <> 0x3B -> cn s str ONone (CStuck L).
Proof.
  intros Hd Hp Ht. destruct (pos_take _ _ _ _ _ _ _ _ _ _ _ _ Hd Hp (eq_refl : ser_blocks [] ++ [t] = [t]) Ht) as (s0 & R & _).
  eapply run_stuck. exact R.
Qed.

(** More input at the end. *)
Lemma pos_more s str p q b tz : pos s str [] p -> p ++ q = ser_blk b -> lead b <> 0x3B -> pos s (str ++ q ++ tz) [b] tz.
Proof.
  intros Hp E Hl.
  assert (Eb : ser_blocks [b] ++ tz = p ++ q ++ tz).
  { unfold ser_blocks. cbn [map concat]. rewrite app_nil_r, <- E, <- app_assoc. reflexivity. }
  destruct Hp as [[Hst ->]|[(b0 & Hst & Hb & E1)|(Hst & _ & -> & (tl & ->))]].
  - left. split; [exact Hst|]. rewrite Eb. reflexivity.
  - right. left. exists b0. split; [exact Hst|]. split; [left; discriminate|]. rewrite Eb. cbn [ser_blocks map concat app] in E1.
    rewrite <- E1. reflexivity.
  - exfalso. rewrite ser_blk_lead in E. injection E as E _. congruence.
Qed.

Lemma pos_length s str tz : pos s str [] tz -> (length str <= length tz)%nat.
Proof.
  intros [[_ ->]|[(b0 & _ & _ & E1)|(_ & _ & -> & _)]]; cbn [ser_blocks map concat app] in *; [lia| |lia].
  rewrite <- E1. cbn [length]. lia.
Qed.

Lemma at_label_end s str l c x : docst s c x -> pos s str [] [0x21; l] -> known_label l ->
  exists s1, run s str [DBlockStart BkExtension] s1 [].
Proof.
  intros Hd Hp Hl. destruct (at_ext _ _ _ _ _ _ Hd Hp) as (s0 & R & D & E).
  assert (Hx : exists x, extension_from_u8 l = Some x).
  { destruct Hl as [->|[->|[->| ->]]]; cbn; eauto. }
  destruct Hx as (y & Hx).
  exists (set_state L (set_ext L s0 l [] (sd_ext_end L s0)) ExtensionBlockStart).
  apply (run_trans L _ _ [] _ _ [DBlockStart BkExtension] _ _ R). intros W.
  apply (run_byte L safe s0 l [] _ (DBlockStart BkExtension)); [exact W|rewrite E; reflexivity|].
  eapply N_bs_ext; [exact E|reflexivity|exact Hx].
Qed.
Lemma at_data_end s str l subs n b c x : docst s c x -> pos s str [] (0x21 :: l :: begun subs n b) -> known_label l -> begun_ok subs n b ->
  fits (o_limit o) (1 + len (payload subs) + len b) ->
  exists evs s1, Forall boring evs /\ Forall in_header evs /\ run s str evs s1 [].
Proof.
  intros Hd Hp Hl Hok Hf. rewrite <- (app_nil_r (begun subs n b)) in Hp.
  destruct (ext_begun _ _ _ _ _ _ _ _ _ Hd Hp Hl Hok) as (evs & s2 & n0 & rest & B1 & B2 & R & E & Hst & Ho & H1).
  destruct Hok as (Hs & Hn & Hb).
  destruct (begun_data subs n b [] Hs (proj1 Hn) Hb s2 n0 rest E (proj2 R) Hst) as [H _]. rewrite Ho, H1 in H.
  destruct (H Hf) as (evs' & s' & V1 & V2 & R'). exists (evs ++ evs'), s'.
  split; [now apply Forall_app|]. split; [now apply Forall_app|]. eapply run_trans; [exact R|intros _; exact R'].
Qed.
Lemma at_tolerated_end s str t subs n b c x : docst s c x -> pos s str [] (t :: begun subs n b) -> sd_header_end L s = true ->
  o_allow_unknown_blocks o = true -> not_a_block t -> begun_ok subs n b ->
  fits (o_limit o) (len (snd x) + len (payload subs) + len b) ->
  exists evs s1, Forall boring evs /\ Forall in_header evs /\ run s str evs s1 [].
Proof.
  intros Hd Hp Hh Ho Ht Hok Hf. rewrite <- (app_nil_r (begun subs n b)) in Hp.
  destruct (unk_begun _ _ _ _ _ _ _ _ _ Hd Hp Hh Ho Ht Hok) as (s2 & n0 & rest & R & E & Hst & Hop & Hx).
  destruct Hok as (Hs & Hn & Hb).
  destruct (begun_data subs n b [] Hs (proj1 Hn) Hb s2 n0 rest E (proj2 R) Hst) as [H _]. rewrite Hop, Hx in H.
  destruct (H Hf) as (evs' & s' & V1 & V2 & R'). exists evs', s'.
  split; [exact V1|]. split; [exact V2|]. apply (run_trans L _ _ [] _ _ _ _ _ R). intros _. exact R'.
Qed.
Lemma run_end_info s str evs s1 : Forall boring evs -> run s str evs s1 [] -> cinfo L s str (IStuck L).
Proof. intros B R. eapply cinfo_ctr; [apply R|exact B|]. apply ci_stuck. constructor. Qed.
Lemma run_end_ini h s str evs s1 : Forall in_header evs -> run s str evs s1 [] -> cini L h s str (NStuck L).
Proof. intros B R. eapply cini_ctr; [apply R|exact B|]. apply cini_stuck. constructor. Qed.

Lemma pos_longer s str p q : pos s str [] p -> (forall t r, p = t :: r -> t <> 0x3B) -> pos s (str ++ q) [] (p ++ q).
Proof.
  intros Hp Hl. destruct Hp as [[Hst ->]|[(b0 & Hst & Hb & E1)|(Hst & _ & _ & (tl & E1))]].
  - left. split; [exact Hst|reflexivity].
  - right. left. exists b0. split; [exact Hst|]. cbn [ser_blocks map concat app] in E1 |- *. rewrite <- E1 in Hl |- *.
    split; [right; exact (Hl _ _ eq_refl)|reflexivity].
  - exfalso. exact (Hl _ _ E1 eq_refl).
Qed.

Lemma cut_img_info s str i p q c x : docst s c x -> pos s str [] p -> sd_header_end L s = true ->
  descriptor_ok i -> table_ok (im_flags i) (im_lct i) -> (o_check_frame_consistency o = true -> inside g i) ->
  p ++ q = 0x2C :: descriptor i ++ im_lct i ++ [im_mcs i] -> cinfo L s str (IStuck L).
Proof.
  intros Hd Hp Hh Hi Ht Hin E.
  assert (P1 : pos s (str ++ q) [] (0x2C :: descriptor i ++ im_lct i ++ [im_mcs i])).
  { rewrite <- E. apply pos_longer; [exact Hp|]. intros t r ->. injection E as -> _. discriminate. }
  destruct (at_start _ _ _ _ _ _ Hd P1 ltac:(discriminate) Hh) as (s0 & R & D & E0 & H0).
  destruct (image_head L S o g s0 c x i [] D E0 H0 Hi Ht Hin) as (s1 & R1 & _).
  destruct image_events as [B1 _].
  assert (Hc : cinfo L s (str ++ q) (IStuck L)).
  { eapply cinfo_ctr; [apply R|constructor|]. exact (run_end_info _ _ _ _ B1 R1). }
  eapply cinfo_prefix; [exact Hc|reflexivity|exact I].
Qed.
End At.
End DM.

(** ** What is known behind the blocks *)
Lemma last_ext o g bs : forall x, follow o g x bs -> (fst x = 0xF9 -> (4 < length (snd x))%nat) ->
  let y := fold_left ext_next bs x in
  fst y = last_label (fst x) bs /\ len (snd y) = last_size (len (snd x)) bs /\ (fst y = 0xF9 -> (4 < length (snd y))%nat).
Proof.
  induction bs as [|[l subs|i|t subs] bs IH]; intros x Hf Hx; cbn [fold_left last_label last_size ext_next].
  - auto.
  - apply follow_ext in Hf as [Hb Hf']. destruct Hb as (_ & (Hne & _) & Hctl & _).
    pose proof (blob_length subs Hne) as Hl. specialize (IH _ Hf'). cbn [fst snd] in IH.
    replace (1 + N.of_nat (length (payload subs))) with (len (ext_blob subs)) by (unfold len; lia).
    apply IH. intros E. rewrite Hl, (Hctl E). lia.
  - apply follow_img in Hf as [_ Hf']. exact (IH _ Hf' Hx).
  - apply follow_unk in Hf as (_ & H9 & _ & Hf'). specialize (IH _ Hf'). cbn [unk_next fst snd] in IH.
    replace (len (snd x) + N.of_nat (length (payload subs))) with (len (snd x ++ payload subs)) by (unfold len; rewrite app_length; lia).
    apply IH. intros E. contradiction.
Qed.

Lemma damage_lead o g tz e : damage o g tz e -> match tz with [] => True | t :: _ => t <> 0x3B end.
Proof.
  assert (H : forall t, not_a_block t -> t <> 0x3B) by (intros t (_ & _ & H); exact H).
  intros Hd. destruct Hd; try discriminate; try exact I; try (apply H; assumption).
  destruct p as [|b p]; [exact I|]. match goal with E : _ ++ _ = _ |- _ => injection E as -> _ end. discriminate.
Qed.

Section Lift.
Variable L : lzw_codec.
Variable S : lzw_spec L.
Variable umax : N.
Hypothesis Humax : 2 ^ 32 - 1 <= umax.
Notation safe := (lz_is_safe L S).
Variable o : options.
Variable g : gif.
Variable tz : list N.
Variable e : derr.
Notation ez := (cut_off (g_blocks g) tz).
Hypothesis Hg : part_ok o g.
Hypothesis Hdmg : damage o g tz e.

Lemma end_ext : fst (en_ext ez) = last_label 0 (g_blocks g) /\ len (snd (en_ext ez)) = last_size 0 (g_blocks g) /\
  (fst (en_ext ez) = 0xF9 -> (4 < length (snd (en_ext ez)))%nat).
Proof.
  destruct Hg as (_ & _ & _ & _ & _ & _ & H1 & H2).
  apply (last_ext o g (g_blocks g) (0, [])); [split; assumption|discriminate].
Qed.

Lemma damage_faulty : e <> DFormat NoColorTable -> faulty L S o g ez e.
Proof.
  intros Hne s str D P Hh. destruct end_ext as (X1 & X2 & X3). cbn [cut_off en_bytes] in P.
  destruct Hdmg; try congruence;
    first [right; split; [reflexivity|]|left; apply fault_info].
  - eapply at_block; eassumption.
  - eapply at_label; eassumption.
  - eapply at_control; eassumption.
  - eapply at_memory; eassumption.
  - eapply at_tolerated; try eassumption; [congruence|apply X3; congruence|]. rewrite X2. assumption.
  - eapply at_tolerated_memory; try eassumption. rewrite X2. assumption.
  - eapply at_bounds; eassumption.
  - eapply at_code_size; eassumption.
  - apply ci_stuck. eapply at_nothing; eassumption.
  - apply ci_stuck. eapply at_one; [exact D|exact P|discriminate].
  - edestruct at_label_end as (s1 & R); [exact D|exact P|eassumption|].
    destruct (data_events l 0) as [B1 _]. exact (run_end_info _ _ _ _ _ B1 R).
  - edestruct at_data_end as (evs & s1 & B1 & _ & R); [exact D|exact P|eassumption..|]. exact (run_end_info _ _ _ _ _ B1 R).
  - edestruct at_tolerated_end as (evs & s1 & B1 & _ & R); [exact D|exact P|exact Hh|eassumption..| |].
    { rewrite X2. assumption. }
    exact (run_end_info _ _ _ _ _ B1 R).
  - eapply cut_img_info; eassumption.
  - match goal with H : not_a_block t |- _ => destruct H as (_ & _ & T3) end.
    apply ci_stuck. eapply at_one; eassumption.
Qed.

(** The image without a colour table. *)
Lemma damage_colors d i r : tz = ser_img i ++ r -> descriptor_ok i -> byte_ok (im_flags i) -> table_ok (im_flags i) (im_lct i) ->
  (o_check_frame_consistency o = true -> inside g i) -> 1 <= im_mcs i <= 11 -> subs_ok (im_subs i) ->
  has_table (im_flags i) = false -> has_table (g_flags g) = false ->
  reached L S o g ez d -> exists d', next_frame_info L d = (d', Err (DFormat NoColorTable)).
Proof.
  intros Etz (U1 & U2 & U3 & U4) Hfl Ht Hin Hm Hs Hi0 Hg0 (F & evs & s1 & str1 & Hb & R & D & P & He).
  cbn [cut_off en_bytes] in P.
  set (g' := mk_gif (g_89a g) (g_w g) (g_h g) 128 (g_bg g) (g_aspect g) (g_gct g) (g_blocks g)).
  assert (D' : docst L S o g' s1 (en_ctl ez) (en_ext ez)) by (destruct D; constructor; assumption).
  assert (P' : pos L s1 str1 [BImg i] r).
  { subst tz. pose proof (pos_more L s1 str1 (ser_img i ++ r) [] (BImg i) r P) as _.
    destruct P as [[Hst ->]|[(b0 & Hst & Hb0 & E1)|(Hst & _ & _ & (tl & E1))]].
    - left. split; [exact Hst|]. unfold ser_blocks. cbn [map concat app ser_blk]. rewrite app_nil_r. reflexivity.
    - right. left. exists b0. split; [exact Hst|]. split; [left; discriminate|]. rewrite E1.
      unfold ser_blocks. cbn [map concat app ser_blk]. rewrite app_nil_r. reflexivity.
    - discriminate E1. }
  assert (Hok : img_ok o g' i).
  { unfold img_ok. split; [exact U1|]. split; [exact U2|]. split; [exact U3|]. split; [exact U4|]. split; [exact Hfl|].
    split; [exact Ht|]. split; [exact Hm|]. split; [exact Hs|]. split; [exact Hin|]. right. reflexivity. }
  destruct (pos_meta L S o g' _ _ _ _ _ _ _ D' P' He Hok) as (s2 & str2 & Hc & _ & Hcur & _).
  apply (cinfo_ctr L) with (2 := Hb) (1 := proj1 R) in Hc.
  destruct (next_frame_info L d) as [d' x] eqn:E. pose proof F as [[G Q] Feof Fo Fw Fh Fg Fb Fr].
  pose proof (next_frame_info_returns L safe umax Humax _ _ _ G E) as (Rt & G' & [Ko Ks] & _).
  pose proof (info_rel_of L safe d d' x G Feof E) as I.
  destruct I as (I1 & I2 & I3 & I4).
  destruct x as [[|]|e'| | ]; try easy.
  - exfalso. destruct I4 as [(sx & f & Hf & Hc2 & _ & _ & Hcc) I5].
    pose proof (cinfo_det _ _ _ _ Hc2 _ Hc) as Eq. injection Eq as -> _ _.
    rewrite Hcur in Hf. injection Hf as <-. rewrite Hcc in I5. cbn [meta_frame f_palette] in I5. rewrite Hi0, Fg in I5.
    unfold gif_palette in I5. rewrite Hg0 in I5. destruct I5 as [I5|I5]; congruence.
  - destruct I4 as (_ & _ & _ & Hc2). pose proof (cinfo_det _ _ _ _ Hc2 _ Hc). discriminate.
  - exists d'. f_equal. f_equal. destruct I4 as [(E' & _)|[[Hc2 _]|[(_ & _ & Hc2)|(Hc2 & _)]]]; [exact E'|exfalso ..].
    + pose proof (cinfo_det _ _ _ _ Hc2 _ Hc). discriminate.
    + pose proof (cinfo_det _ _ _ _ Hc2 _ Hc). discriminate.
    + eapply cut_good; eassumption.
Qed.

Lemma damage_over d : reached L S o g ez d -> over L (Err e) (fun _ => True) d.
Proof.
  intros Hr.
  assert (Hc : e <> DFormat NoColorTable \/ (e = DFormat NoColorTable /\ exists i r, tz = ser_img i ++ r /\ descriptor_ok i /\
    byte_ok (im_flags i) /\ table_ok (im_flags i) (im_lct i) /\ (o_check_frame_consistency o = true -> inside g i) /\
    1 <= im_mcs i <= 11 /\ subs_ok (im_subs i) /\ has_table (im_flags i) = false /\ has_table (g_flags g) = false)).
  { clear Hr. destruct Hdmg; try (left; discriminate). right. split; [reflexivity|]. exists i, r. auto 12. }
  assert (H : exists d', next_frame_info L d = (d', Err e)).
  { destruct Hc as [Hc|(Ee & i & r & Hc)].
    - apply (reached_fault L S umax Humax o g ez); [exact Hr|]. now apply damage_faulty.
    - rewrite Ee. destruct Hc as (C1 & C2 & C3 & C4 & C5 & C6 & C7 & C8 & C9). eapply damage_colors; eassumption. }
  destruct H as (d' & E). exists d'. auto.
Qed.

(** ** Damage that [read_info] notices *)
Lemma ext_ini bs : Forall is_extension bs -> forall s str c x, docst L S o g s c x -> pos L s str bs tz ->
  sd_header_end L s = false -> follow o g x bs -> leads ez c x bs ->
  exists evs s1 str1, Forall in_header evs /\ run L s str evs s1 str1 /\ docst L S o g s1 (en_ctl ez) (en_ext ez) /\
    pos L s1 str1 [] tz /\ sd_header_end L s1 = false.
Proof.
  induction 1 as [|[l subs|i|t subs] bs Hb _ IH]; intros s str c x D P Hh Hf Hl; try easy.
  - destruct Hl as [<- <-]. exists [], s, str. split; [constructor|]. split; [apply run_refl; apply D|]. auto.
  - apply follow_ext in Hf as [Hok Hf'].
    destruct (pos_ext _ _ _ _ _ _ _ _ _ _ _ _ D P Hok) as (s' & str' & R & D' & P' & E').
    destruct (IH s' str' _ _ D' P' ltac:(congruence) Hf' Hl) as (evs & s1 & str1 & H1 & R1 & H2).
    exists (ext_events l subs ++ evs), s1, str1. split; [apply Forall_app; split; [apply ext_events_in_header|exact H1]|].
    split; [|exact H2]. eapply run_trans; [exact R|intros _; exact R1].
Qed.

Lemma damage_ini h s str c : docst L S o g s c (en_ext ez) -> pos L s str [] tz -> sd_header_end L s = false ->
  ((length tz < 2)%nat \/ nth 0 tz 0 = 0x21) ->
  cini L h s str (NErr L e) \/ (e = DIo UnexpectedEof /\ cini L h s str (NStuck L)).
Proof.
  intros D P Hh Hn. pose proof (damage_lead _ _ _ _ Hdmg) as Hlead.
  assert (Hshort : e = DIo UnexpectedEof -> (length tz < 2)%nat -> cini L h s str (NStuck L)).
  { intros _ Hl. apply cini_stuck. destruct tz as [|t [|b r]]; [eapply at_nothing; eassumption|eapply at_one; eassumption|cbn in Hl; lia]. }
  assert (Hnb : forall t r, not_a_block t -> tz = t :: r -> (length tz < 2)%nat).
  { intros t r (_ & H & _) ->. destruct Hn as [Hn|Hn]; [exact Hn|contradiction]. }
  assert (Hlong : forall t n b subs r, not_a_block t -> tz = t :: begun subs n b ++ r -> False).
  { intros t n b subs r H E. pose proof (Hnb _ _ H E) as Hl. rewrite E in Hl. unfold begun in Hl. cbn [length] in Hl.
    rewrite !app_length in Hl. cbn [length] in Hl. lia. }
  destruct Hdmg as [t b r _ H|l r Hl|subs r Hs H4 Hf|l subs n b r Hl Hs He Hf|t subs r _ H Hs _ _|t subs n b r _ H Hs _ _
    |i r _ _ _|i b r _ _ _ _|i r _ _ _ _ _ _ _ _| | |l Hl|l subs n b Hl Hs Hf|t subs n b _ H Hs _|i p q _ _ _ E|t H].
  - exfalso. specialize (Hnb _ _ H eq_refl). cbn [length] in Hnb. lia.
  - left. apply fault_ini. eapply at_label; eassumption.
  - left. apply fault_ini. eapply at_control; eassumption.
  - left. apply fault_ini. eapply at_memory; eassumption.
  - exfalso. specialize (Hnb _ _ H eq_refl). cbn [length] in Hnb.
    unfold ser_subs in Hnb. rewrite !app_length in Hnb. cbn [length] in Hnb. lia.
  - exfalso. exact (Hlong _ _ _ _ _ H eq_refl).
  - exfalso. cbn [length nth] in Hn. destruct Hn as [Hn|Hn]; [|discriminate].
    rewrite !app_length in Hn. cbn [descriptor word app length] in Hn. lia.
  - exfalso. cbn [length nth] in Hn. destruct Hn as [Hn|Hn]; [|discriminate].
    rewrite !app_length in Hn. cbn [descriptor word app length] in Hn. lia.
  - exfalso. unfold ser_img in Hn. cbn [app length nth] in Hn. destruct Hn as [Hn|Hn]; [|discriminate].
    cbn [word app length] in Hn. lia.
  - right. split; [reflexivity|]. apply Hshort; [reflexivity|cbn; lia].
  - right. split; [reflexivity|]. apply Hshort; [reflexivity|cbn; lia].
  - right. split; [reflexivity|]. edestruct at_label_end as (s1 & R); [exact D|exact P|exact Hl|].
    destruct (data_events l 0) as [_ B2]. exact (run_end_ini _ _ _ _ _ _ B2 R).
  - right. split; [reflexivity|]. edestruct at_data_end as (evs & s1 & _ & B2 & R); [exact D|exact P|exact Hl|exact Hs|exact Hf|].
    exact (run_end_ini _ _ _ _ _ _ B2 R).
  - exfalso. apply (Hlong t n b subs [] H). rewrite app_nil_r. reflexivity.
  - right. split; [reflexivity|]. apply Hshort; [reflexivity|]. destruct Hn as [Hn|Hn]; [exact Hn|].
    destruct p as [|b p]; [cbn; lia|]. injection E as E _. subst b. cbn [nth] in Hn. discriminate.
  - right. split; [reflexivity|]. apply Hshort; [reflexivity|cbn; lia].
Qed.

Notation conv0 := (conv_new (o_color o) (o_limit o)).
Lemma noticed_start src : noticed_by_read_info g tz -> starts ez (g_blocks g) -> delivers src (ser_cut g tz) ->
  read_info L src o = Err e.
Proof.
  intros [Hx Hn] Hst (S1 & S2 & S3).
  destruct (start_cini L S o g ez Hg Hst) as (s & str & D & P & Hh & Hc).
  pose proof Hg as (_ & _ & _ & _ & _ & _ & K8 & K9).
  destruct (ext_ini (g_blocks g) Hx s str _ _ D P Hh (conj K8 K9) (conj eq_refl eq_refl)) as (evs & s1 & str1 & H1 & R & D1 & P1 & Hh1).
  apply (read_info_refused L S umax Humax o src (ser_cut g tz) e S1 S2 S3).
  destruct (damage_ini (fold_left init_upd evs (set_global_palette conv0 (g_gct g), Some (g_bg g), RFinite 0)) s1 str1 _ D1 P1 Hh1 Hn) as [Hi|[Ee Hi]].
  - left. apply Hc. eapply cini_ctr; [apply R|exact H1|exact Hi].
  - right. split; [exact Ee|]. apply Hc. eapply cini_ctr; [apply R|exact H1|exact Hi].
Qed.
End Lift.

(** ** The results *)
Section Results.
Variable L : lzw_codec.
Variable S : lzw_spec L.
Variable umax : N.
Hypothesis Humax : 2 ^ 32 - 1 <= umax.
Notation conv0 o := (conv_new (o_color o) (o_limit o)).

(** A file cut off in its header. *)
Theorem header_cut o g p q src : part_ok o g -> p ++ q = ser_head g -> delivers src p ->
  read_info L src o = Err (DIo UnexpectedEof).
Proof.
  intros Hg E (S1 & S2 & S3).
  apply (read_info_refused L S umax Humax o src p _ S1 S2 S3). right. split; [reflexivity|].
  set (g0 := mk_gif (g_89a g) (g_w g) (g_h g) (g_flags g) (g_bg g) (g_aspect g) (g_gct g) []).
  assert (Hg0 : part_ok o g0).
  { destruct Hg as (K1 & K2 & K3 & K4 & K5 & K6 & _). unfold part_ok. do 6 (split; [assumption|]). split; [constructor|exact I]. }
  destruct (start_cini L S o g0 (cut_off [] [0x2C]) Hg0) as (s & str & D & P & Hh & Hc).
  { right. exists 0x2C, []. split; [reflexivity|discriminate]. }
  assert (H1 : cini L (set_global_palette (conv0 o) (g_gct g0), Some (g_bg g0), RFinite 0) s str (NStuck L)).
  { apply cini_stuck. eapply at_one; [exact D|exact P|discriminate]. }
  apply Hc in H1. eapply (cini_prefix L _ _ _ _ H1 p (q ++ [0x2C])); [|exact I].
  rewrite (app_assoc p q), E. reflexivity.
Qed.

(** Anything that does not begin like a GIF file. *)
Theorem bad_signature o bytes src : (6 <= length bytes)%nat -> firstn 6 bytes <> GIF87a -> firstn 6 bytes <> GIF89a ->
  delivers src bytes -> read_info L src o = Err (DFormat MalformedHeader).
Proof.
  intros Hn N1 N2 (S1 & S2 & S3).
  apply (read_info_refused L S umax Humax o src bytes _ S1 S2 S3). left. apply fault_ini.
  rewrite <- (firstn_skipn 6 bytes).
  assert (H6 : length (firstn 6 bytes) = 6%nat) by (rewrite firstn_length; lia).
  eapply (fault_step L S (sd_new L o)); [apply sd_new_wf|discriminate| |].
  - intros E. rewrite E in H6. discriminate.
  - apply (N_magic_bad L (sd_new L o)); [reflexivity|change (6 <= length (firstn 6 bytes))%nat; lia| |];
      change (hdr L (sd_new L o) (firstn 6 bytes)) with (firstn 6 (firstn 6 bytes)); rewrite firstn_all2 by lia; assumption.
Qed.

Section D.
Variable o : options.
Variable g : gif.
Variable tz : list N.
Variable e : derr.
Hypothesis Hg : part_ok o g.
Hypothesis Hdmg : damage o g tz e.
Variable src : list revent.
Hypothesis Hsrc : delivers src (ser_cut g tz).

Theorem damage_refused : noticed_by_read_info g tz -> read_info L src o = Err e.
Proof.
  intros Hn.
  destruct (g_blocks g) as [|b bs] eqn:Eb; [|apply (noticed_start L S umax Humax o g tz e Hg Hdmg src Hn); [left; congruence|exact Hsrc]].
  pose proof (damage_lead _ _ _ _ Hdmg) as Hl.
  destruct tz as [|t r] eqn:Et.
  - assert (e = DIo UnexpectedEof) as ->.
    { inversion Hdmg; reflexivity. }
    apply (header_cut o g (ser_head g) [] src Hg); [apply app_nil_r|]. unfold ser_cut in Hsrc. rewrite Eb in Hsrc.
    cbn [ser_blocks map concat app] in Hsrc. rewrite app_nil_r in Hsrc. exact Hsrc.
  - apply (noticed_start L S umax Humax o g (t :: r) e Hg Hdmg src Hn); [|exact Hsrc].
    right. exists t, r. split; [reflexivity|exact Hl].
Qed.

Section U.
Hypothesis Hn : ~ noticed_by_read_info g tz.
Lemma unnoticed : starts (cut_off (g_blocks g) tz) (g_blocks g) /\ opens (cut_off (g_blocks g) tz) (g_blocks g).
Proof.
  pose proof (damage_lead _ _ _ _ Hdmg) as Hl.
  assert (Hdec : Forall is_extension (g_blocks g) \/ ~ Forall is_extension (g_blocks g)).
  { destruct (Forall_dec is_extension (fun b => match b with BExt _ _ => left I | _ => right (fun x : False => x) end) (g_blocks g)); auto. }
  unfold starts, opens. cbn [cut_off en_bytes].
  destruct Hdec as [Hx|Hx].
  - assert (Ht : exists t b r, tz = t :: b :: r /\ t <> 0x21).
    { destruct tz as [|t [|b r]]; [exfalso; apply Hn; split; [exact Hx|left; cbn; lia]..|].
      exists t, b, r. split; [reflexivity|]. intros ->. apply Hn. split; [exact Hx|right; reflexivity]. }
    destruct Ht as (t & b & r & -> & Ht). split; [right; eauto|]. left. right. exists t, b, r. auto.
  - split; [left; intros E; rewrite E in Hx; apply Hx; constructor|]. right.
    intros Hf. apply Hx. eapply Forall_impl; [|exact Hf]. intros [l subs|i|t subs]; auto.
Qed.

Theorem damage_frames outs n : o_skip_frame_decoding o = false -> o_check_for_end_code o = false ->
  Forall2 (holds L S umax o) (gif_images g) outs -> (length outs < n)%nat ->
  exists d d', read_info L src o = Ok d /\ read_all L umax n d = (d', all_seen o g (gif_images g) outs, Err e).
Proof.
  intros N1 N2 Ho Hk. destruct unnoticed as [Hst Hop].
  destruct (cut_frames L S umax Humax o g tz (Err e) (fun _ => True) (or_intror (ex_intro _ e eq_refl))
    (damage_over L S umax Humax o g tz e Hg Hdmg) Hg Hst Hop src Hsrc outs n N1 N2 Ho Hk) as (d & d' & E1 & E2 & _). eauto.
Qed.
Theorem damage_iter outs k : o_skip_frame_decoding o = false -> o_check_for_end_code o = false ->
  Forall2 (holds L S umax o) (gif_images g) outs ->
  exists d it, read_info L src o = Ok d /\
    iter_all L umax (length outs + Datatypes.S k) (mk_iter L d false) =
      (it, map IFrame (all_seen o g (gif_images g) outs) ++ IErr e :: repeat INone k).
Proof.
  intros N1 N2 Ho. destruct unnoticed as [Hst Hop].
  destruct (cut_iter L S umax Humax o g tz (Err e) (fun _ => True) (or_intror (ex_intro _ e eq_refl))
    (damage_over L S umax Humax o g tz e Hg Hdmg) Hg Hst Hop src Hsrc outs (Datatypes.S k) N1 N2 Ho) as (d & it & E1 & E2).
  exists d, it. split; [exact E1|]. rewrite E2. cbn [last_item firstn]. do 3 f_equal.
  rewrite Nat.sub_succ, Nat.sub_0_r. apply firstn_all2. rewrite repeat_length. lia.
Qed.
Theorem damage_raw n : o_skip_frame_decoding o = true ->
  Forall (fun ci => fits (o_limit o) (1 + len (payload (im_subs (snd ci))))) (gif_images g) -> (length (gif_images g) < n)%nat ->
  exists d d', read_info L src o = Ok d /\ read_all L umax n d = (d', map raw_seen (gif_images g), Err e).
Proof.
  intros N1 Ho Hk. destruct unnoticed as [Hst Hop].
  destruct (cut_raw L S umax Humax o g tz (Err e) (fun _ => True) (or_intror (ex_intro _ e eq_refl))
    (damage_over L S umax Humax o g tz e Hg Hdmg) Hg Hst Hop src Hsrc n N1 Ho Hk) as (d & d' & E1 & E2 & _). eauto.
Qed.
Theorem damage_scan n : scannable o -> (length (gif_images g) < n)%nat ->
  exists d d', read_info L src o = Ok d /\ scan_all L n d = (d', map meta_seen (gif_images g), Err e).
Proof.
  intros Ho Hk. destruct unnoticed as [Hst Hop].
  destruct (cut_scan L S umax Humax o g tz (Err e) (fun _ => True) (or_intror (ex_intro _ e eq_refl))
    (damage_over L S umax Humax o g tz e Hg Hdmg) Hg Hst Hop src Hsrc n Ho Hk) as (d & d' & E1 & E2 & _). eauto.
Qed.
End U.
End D.
End Results.

(** ** Whatever follows
    The frames of the intact beginning of a file are read, whatever comes behind it. *)
Section Intact.
Variable L : lzw_codec.
Variable S : lzw_spec L.
Variable umax : N.
Hypothesis Humax : 2 ^ 32 - 1 <= umax.
Variable o : options.
Variable g : gif.

Section Some.
Variable ez : ending.
Notation ready := (ready L S o g ez).
Lemma some_scan n : forall d c bs, ready d c bs -> (n <= length (controlled c bs))%nat ->
  scannable o ->
  exists d', scan_all L n d = (d', firstn n (map meta_seen (controlled c bs)), Ok true).
Proof.
  induction n as [|n IH]; intros d c bs Hr Hn Hm; [exists d; reflexivity|]. cbn [scan_all].
  pose proof (next_frame_info_at L S umax Humax o g ez d c bs Hr) as H. destruct (controlled c bs) as [|[c1 i] l] eqn:Ec; [cbn [length] in Hn; lia|].
  destruct H as (d1 & bs' & E & El & Hi & Hin & Hcur & _). rewrite E.
  pose proof (inimg_ready L S o g ez d1 i bs' Hin Hi Hm) as Hr1.
  cbn [length] in Hn. rewrite El in *. destruct (IH d1 ctl_none bs' Hr1) as (d' & E'); [lia|exact Hm|].
  exists d'. rewrite E'. cbn [map firstn]. now rewrite Hcur.
Qed.
Lemma some_raw n : o_skip_frame_decoding o = true -> forall d c bs, ready d c bs -> (n <= length (controlled c bs))%nat ->
  Forall (fun ci => fits (o_limit o) (1 + len (payload (im_subs (snd ci))))) (controlled c bs) ->
  exists d', read_all L umax n d = (d', firstn n (map raw_seen (controlled c bs)), Ok true).
Proof.
  intros Hsk. induction n as [|n IH]; intros d c bs Hr Hn Hm; [exists d; reflexivity|]. cbn [read_all].
  pose proof (read_next_frame_raw_at L S umax Humax o g ez d c bs Hsk Hr) as H. destruct (controlled c bs) as [|[c1 i] l] eqn:Ec; [cbn [length] in Hn; lia|].
  apply Forall_cons_iff in Hm as [Hm1 Hm2]. destruct (H Hm1) as (d1 & bs' & E & El & Hi & Hcur & Hr1). rewrite E.
  cbn [length] in Hn. rewrite El in *. destruct (IH d1 ctl_none bs' Hr1) as (d' & E'); [lia|exact Hm2|].
  exists d'. rewrite E'. cbn [map firstn]. now rewrite Hcur.
Qed.
Lemma some_frames n : o_skip_frame_decoding o = false -> o_check_for_end_code o = false ->
  forall d c bs outs, ready d c bs -> (n <= length outs)%nat ->
  Forall2 (holds L S umax o) (controlled c bs) outs ->
  exists d', read_all L umax n d = (d', firstn n (all_seen o g (controlled c bs) outs), Ok true).
Proof.
  intros N1 N2. induction n as [|n IH]; intros d c bs outs Hr Hn Hm; [exists d; reflexivity|]. cbn [read_all].
  pose proof (read_next_frame_at L S umax Humax o g ez N1 N2 d c bs Hr) as H. destruct (controlled c bs) as [|[c1 i] l] eqn:Ec.
  { inversion Hm; subst. cbn [length] in Hn. lia. }
  inversion Hm as [|? out ? outs' Hm1 Hm2]; subst. destruct Hm1 as (M1 & M2 & M3 & M4).
  destruct (H out M1 M2 M3 M4) as (d1 & bs' & E & El & Hcur & Hpx). rewrite E.
  pose proof (inpx_ready L S o g ez d1 bs' _ N2 Hpx) as Hr1.
  cbn [length] in Hn. rewrite El in *. destruct (IH d1 ctl_none bs' outs' Hr1) as (d' & E'); [lia|exact Hm2|].
  exists d'. rewrite E'. cbn [all_seen combine map fst snd firstn]. now rewrite Hcur.
Qed.
Lemma some_items n : o_skip_frame_decoding o = false -> o_check_for_end_code o = false ->
  forall d c bs outs, ready d c bs -> (n <= length outs)%nat ->
  Forall2 (holds L S umax o) (controlled c bs) outs ->
  exists it, iter_all L umax n (mk_iter L d false) = (it, firstn n (map IFrame (all_seen o g (controlled c bs) outs))).
Proof.
  intros N1 N2. induction n as [|n IH]; intros d c bs outs Hr Hn Hm; [exists (mk_iter L d false); reflexivity|].
  pose proof (read_next_frame_at L S umax Humax o g ez N1 N2 d c bs Hr) as H. destruct (controlled c bs) as [|[c1 i] l] eqn:Ec.
  { inversion Hm; subst. cbn [length] in Hn. lia. }
  inversion Hm as [|? out ? outs' Hm1 Hm2]; subst. pose proof Hm1 as (M1 & M2 & M3 & M4).
  destruct (H out M1 M2 M3 M4) as (d1 & bs' & E & El & Hcur & Hpx).
  pose proof (inpx_ready L S o g ez d1 bs' _ N2 Hpx) as Hr1.
  change (meta_frame c1 i false _) with (seen o g (c1, i) out) in Hcur.
  cbn [iter_all]. unfold iter_next. cbn [it_ended it_dec]. rewrite E, Hcur.
  pose proof (seen_nonempty L S umax Humax o g (c1, i) out Hm1) as Hne. destruct (f_buffer (seen o g (c1, i) out)) as [|x y] eqn:Eb; [congruence|].
  cbn [is_nil]. unfold frame_take.
  cbn [length] in Hn. rewrite El in *.
  destruct (IH (set_cur L d1 (snd (frame_take (seen o g (c1, i) out))) (dc_ty L d1)) ctl_none bs' outs') as (it & E').
  - apply ready_take; [exact Hr1|]. destruct Hr1 as ([[(_ & G2 & _) _] _ _ _ _ _ _ _] & _). rewrite Hcur in G2.
    destruct G2 as (F1 & F2 & F3 & F4 & F5 & F6 & _). unfold frame_take. cbn [snd].
    split; [exact F1|]. split; [exact F2|]. split; [exact F3|]. split; [exact F4|]. split; [exact F5|]. split; [exact F6|exact I].
  - lia.
  - exact Hm2.
  - unfold frame_take in E'. cbn [snd] in E'. exists it. rewrite E'. cbn [all_seen combine map fst snd firstn]. reflexivity.
Qed.
End Some.

Variable tz : list N.
Hypothesis Hg : part_ok o g.
Variable src : list revent.
Hypothesis Hsrc : delivers src (ser_cut g tz).

Lemma images_open : gif_images g <> [] -> exists d c bs, read_info L src o = Ok d /\
  ready L S o g (cut_off (g_blocks g) tz) d c bs /\ controlled c bs = gif_images g.
Proof.
  intros Hi.
  assert (Hx : ~ Forall is_ext (g_blocks g)).
  { intros Hx. apply Hi. unfold gif_images. generalize ctl_none. induction Hx as [|[l subs|i|t subs] bs Hb _ IH]; intros c; try easy.
    cbn [controlled]. apply IH. }
  destruct Hsrc as (S1 & S2 & S3).
  apply (read_info_at L S umax Humax o g (cut_off (g_blocks g) tz)); try assumption.
  - left. intros E. apply Hx. rewrite E. constructor.
  - right. exact Hx.
  - split; reflexivity.
Qed.

Theorem intact_frames outs n : o_skip_frame_decoding o = false -> o_check_for_end_code o = false ->
  Forall2 (holds L S umax o) (gif_images g) outs -> (0 < n <= length outs)%nat ->
  exists d d', read_info L src o = Ok d /\ read_all L umax n d = (d', firstn n (all_seen o g (gif_images g) outs), Ok true).
Proof.
  intros N1 N2 Ho Hn. destruct images_open as (d & c & bs & E & Hr & Ec).
  { intros Ei. rewrite Ei in Ho. inversion Ho; subst. cbn [length] in Hn. lia. }
  rewrite <- Ec in Ho. destruct (some_frames _ n N1 N2 d c bs outs Hr ltac:(lia) Ho) as (d' & E').
  exists d, d'. rewrite Ec in E'. auto.
Qed.
Theorem intact_iter outs n : o_skip_frame_decoding o = false -> o_check_for_end_code o = false ->
  Forall2 (holds L S umax o) (gif_images g) outs -> (0 < n <= length outs)%nat ->
  exists d it, read_info L src o = Ok d /\
    iter_all L umax n (mk_iter L d false) = (it, firstn n (map IFrame (all_seen o g (gif_images g) outs))).
Proof.
  intros N1 N2 Ho Hn. destruct images_open as (d & c & bs & E & Hr & Ec).
  { intros Ei. rewrite Ei in Ho. inversion Ho; subst. cbn [length] in Hn. lia. }
  rewrite <- Ec in Ho. destruct (some_items _ n N1 N2 d c bs outs Hr ltac:(lia) Ho) as (it & E').
  exists d, it. rewrite Ec in E'. auto.
Qed.
Theorem intact_raw n : o_skip_frame_decoding o = true ->
  Forall (fun ci => fits (o_limit o) (1 + len (payload (im_subs (snd ci))))) (gif_images g) -> (0 < n <= length (gif_images g))%nat ->
  exists d d', read_info L src o = Ok d /\ read_all L umax n d = (d', firstn n (map raw_seen (gif_images g)), Ok true).
Proof.
  intros N1 Ho Hn. destruct images_open as (d & c & bs & E & Hr & Ec).
  { intros Ei. rewrite Ei in Hn. cbn [length] in Hn. lia. }
  rewrite <- Ec in Ho, Hn. destruct (some_raw _ n N1 d c bs Hr ltac:(lia) Ho) as (d' & E').
  exists d, d'. rewrite Ec in E'. auto.
Qed.
Theorem intact_scan n : scannable o -> (0 < n <= length (gif_images g))%nat ->
  exists d d', read_info L src o = Ok d /\ scan_all L n d = (d', firstn n (map meta_seen (gif_images g)), Ok true).
Proof.
  intros Ho Hn. destruct images_open as (d & c & bs & E & Hr & Ec).
  { intros Ei. rewrite Ei in Hn. cbn [length] in Hn. lia. }
  rewrite <- Ec in Hn. destruct (some_scan _ n d c bs Hr ltac:(lia) Ho) as (d' & E').
  exists d, d'. rewrite Ec in E'. auto.
Qed.
End Intact.
