(** The format errors of [read_next_frame] have their reasons in the file. *)
From Verif Require Import Base Common Lzw Encoder Stream StreamInv Steps Ranges Converter Reader ReaderInv ConvInv DecoderSafe DecInv.
From Verif Require Import SpecGif SpecAccept SpecStream StreamProps SpecCount DocTrace DocAll Accept AcceptDec SpecBlame Blame BlameDec.
From Verif Require Import SpecErrors Errors SpecSizes Sizes.
Open Scope N_scope.

(** Pixels are missing only when the callback has no more. *)
Section Cb.
Variable umax : N.
Variable St : Type.
Variable cb : St -> obuf -> St * obuf * dres nat.
Variable Inv : St -> Prop.
Hypothesis cb_ok : forall x s x' ob' r, Inv x -> cb x (OSlice s) = (x', ob', r) ->
  Inv x' /\ (exists s', ob' = OSlice s' /\ length s' = length s) /\
  match r with Ok n => (n <= length s)%nat | Err _ => True | Panic | Hang => False end.
Variable P : St -> Prop.
Hypothesis cb_p : forall x s x' ob' n, Inv x -> P x -> cb x (OSlice s) = (x', ob', Ok n) -> P x'.
Variable Q : Prop.
Hypothesis cb_q : forall x s x' ob' r, Inv x -> P x -> cb x (OSlice s) = (x', ob', r) -> r = Ok O \/ r = Err (DFormat ImageTruncated) -> Q.

Lemma fill_q f : forall fuel x c done buf x' c' b' r, Inv x -> P x ->
  fill_loop St cb fuel x c f done buf = (x', c', b', r) -> r = Ok false \/ r = Err (DFormat ImageTruncated) -> Q.
Proof.
  induction fuel as [|fuel IH]; intros x c done buf x' c' b' r Hx Hp H Hr; cbn [fill_loop] in H.
  { injection H as <- <- <- <-. destruct Hr; discriminate. }
  destruct (cv_color c) eqn:Ec.
  - destruct (length buf / 4 =? 0)%nat; [injection H as <- <- <- <-; destruct Hr; discriminate|]. cbn zeta in H.
    match type of H with context [cb x (OSlice ?s)] => destruct (cb x (OSlice s)) as [[x1 ob] y] eqn:Ecb end.
    pose proof (cb_q _ _ _ _ _ Hx Hp Ecb) as Hq. pose proof (cb_ok _ _ _ _ _ Hx Ecb) as (Hx1 & _).
    destruct y as [n|e| | ]; try (injection H as <- <- <- <-; destruct Hr as [Hr|Hr]; try discriminate Hr; injection Hr as ->; now apply Hq; right).
    destruct n as [|n]; [apply Hq; now left|]. pose proof (cb_p _ _ _ _ _ Hx Hp Ecb) as Hm.
    destruct (length buf <? Datatypes.S n * 4)%nat; [injection H as <- <- <- <-; destruct Hr; discriminate|].
    match type of H with (if is_nil ?b then _ else _) = _ => destruct (is_nil b) end; [injection H as <- <- <- <-; destruct Hr; discriminate|].
    eapply IH; [exact Hx1|exact Hm|exact H|exact Hr].
  - destruct (cb x (OSlice buf)) as [[x1 ob] y] eqn:Ecb.
    pose proof (cb_q _ _ _ _ _ Hx Hp Ecb) as Hq. pose proof (cb_ok _ _ _ _ _ Hx Ecb) as (Hx1 & _).
    destruct y as [n|e| | ]; try (injection H as <- <- <- <-; destruct Hr as [Hr|Hr]; try discriminate Hr; injection Hr as ->; now apply Hq; right).
    destruct n as [|n]; [apply Hq; now left|]. pose proof (cb_p _ _ _ _ _ Hx Hp Ecb) as Hm.
    destruct (length (obuf_bytes ob) <? Datatypes.S n)%nat; [injection H as <- <- <- <-; destruct Hr; discriminate|]. cbn zeta in H.
    destruct (is_nil _); [injection H as <- <- <- <-; destruct Hr; discriminate|].
    eapply IH; [exact Hx1|exact Hm|exact H|exact Hr].
Qed.
Lemma rows_q f : forall rows x c buf x' c' b', Inv x -> P x ->
  read_rows umax St cb rows x c f buf = (x', c', b', Err (DFormat ImageTruncated)) -> Q.
Proof.
  induction rows as [|row rows IH]; intros x c buf x' c' b' Hx Hp H; [discriminate H|].
  cbn [read_rows] in H. cbn zeta in H. destruct (umax <? _); [discriminate H|]. destruct (_ && _); [|discriminate H].
  match type of H with context [conv_fill_buffer St cb x c f ?b] =>
    destruct (conv_fill_buffer St cb x c f b) as [[[x1 c1] line] z] eqn:Ef end.
  pose proof Ef as Ef'. apply (conv_fill_buffer_ok St cb Inv cb_ok) in Ef'; [|exact Hx]. destruct Ef' as (Hx1 & _).
  destruct z as [[|]|e| | ]; try discriminate H.
  - pose proof (fill_p St cb Inv cb_ok P cb_p _ _ _ _ _ _ _ _ _ _ Hx Hp Ef) as Hp1. eapply IH; [exact Hx1|exact Hp1|exact H].
  - eapply fill_q; [exact Hx|exact Hp|exact Ef|now left].
  - injection H as _ _ _ ->. eapply fill_q; [exact Hx|exact Hp|exact Ef|now right].
Qed.
Lemma into_q x c f buf x' c' b' : Inv x -> P x ->
  conv_read_into_buffer umax St cb x c f buf = (x', c', b', Err (DFormat ImageTruncated)) -> Q.
Proof.
  intros Hx Hp Ef. unfold conv_read_into_buffer in Ef. destruct (f_interlaced _); [eapply rows_q; [exact Hx|exact Hp|exact Ef]|].
  destruct (buffer_size umax c _) as [m|]; [|discriminate Ef]. destruct (m <=? len _); [|discriminate Ef]. cbn zeta in Ef.
  match type of Ef with context [conv_fill_buffer St cb x c ?g ?b] =>
    destruct (conv_fill_buffer St cb x c g b) as [[[x2 c2] line] z] eqn:Eg end.
  destruct z as [[|]|e| | ]; try discriminate Ef.
  - eapply fill_q; [exact Hx|exact Hp|exact Eg|now left].
  - injection Ef as _ _ _ ->. eapply fill_q; [exact Hx|exact Hp|exact Eg|now right].
Qed.
Lemma frame_q x c f x' c' f' : Inv x -> P x ->
  conv_read_frame umax St cb x c f = (x', c', f', Err (DFormat ImageTruncated)) -> Q.
Proof.
  intros Hx Hp H. unfold conv_read_frame in H. destruct (check_buffer_size umax c f) as [n|e| | ] eqn:Eck; try discriminate H.
  2:{ injection H as _ _ _ Hq. apply check_size_err in Eck. congruence. }
  cbn zeta in H. destruct (umax / 2 <? n); [discriminate H|].
  match type of H with context [conv_read_into_buffer umax St cb x c ?g ?b] =>
    destruct (conv_read_into_buffer umax St cb x c g b) as [[[x1 c1] b1] z] eqn:Ef end.
  destruct z as [u|e| | ]; try discriminate H. injection H as _ _ _ ->. eapply into_q; [exact Hx|exact Hp|exact Ef].
Qed.
End Cb.

Section Copy.
Variable L : lzw_codec.
Hypothesis safe : lzw_safe L.
Variable o : options.
Variable file : list N.
Hypothesis file_ok : bytes_ok file.
Notation rd := (rd L).
Notation dcd := (dcd L).
Notation reads := (reads L o file any_data (any_reader L) (any_lzw L)).
Notation dreads := (dreads L o file any_data (any_reader L) (any_lzw L)).

(** The data of an image are being copied: [v] is its code size and the data so far. *)
Definition copying (s : sd L) (rest v : list N) : Prop :=
  sd_opts L s = o /\
  (sd_state L s = FrameDecoded \/
   exists k g bs i subs b, sd_state L s = CopySubBlock k /\ front_ok o g bs /\ img_acc false o g i /\ subs_part subs b k /\
     v = im_mcs i :: payload subs ++ b /\ file = front g bs ++ image_head i ++ part_bytes subs b k ++ rest).

Lemma copying_step s buf v s' ob' r more : copying s (buf ++ more) v -> buf <> [] -> sd_wf L s -> nst L s buf (OVec v) s' ob' r ->
  match r with
  | Ok (n, d) => d = DDataEnd \/ exists v', ob' = OVec v' /\ copying s' (skipn n buf ++ more) v'
  | Err (DFormat m) => m = MemoryLimitReached /\ bad_image_size o file
  | _ => True
  end.
Proof.
  intros [Ho H] Hbne Hw Hn. pose proof (nst_same L _ _ _ _ _ _ Hn) as [_ Ho']. rewrite Ho in Ho'.
  destruct H as [H|(k & g & bs & i & subs & b & H & Hf & Hi & Hp & Hv & Ef)].
  { assert (Hd : match sd_state L s with FrameDecoded => True | _ => False end) by (rewrite H; exact I).
    inversion Hn; subst; try exact I; try congruence;
      try match goal with E : is_hdr (sd_state L s) = true |- _ => rewrite H in E; discriminate E end.
    left. reflexivity. }
  assert (Hbuf : bytes_ok buf).
  { pose proof file_ok as Q. rewrite Ef in Q. unfold bytes_ok in *. do 3 apply Forall_app in Q as [_ Q].
    apply Forall_app in Q. tauto. }
  remember (OVec v) as ob eqn:Eob.
  destruct Hn; subst ob; try congruence; try match goal with E : is_hdr (sd_state L s) = true |- _ => rewrite H in E; discriminate E end.
  - (* N_cp *)
    rewrite H in H0. injection H0 as <-. right.
    unfold obuf_append in H3. destruct (check_size _ _) in H3; [|discriminate H3]. injection H3 as <- <- <-.
    assert (El : length (firstn n buf) = n) by (rewrite firstn_length; lia). rewrite El in *.
    assert (Hc : (n <= k)%nat /\ (n <= length buf)%nat) by lia.
    eexists. split; [reflexivity|]. split; [exact Ho'|]. right. exists (k - n)%nat, g, bs, i, subs, (b ++ firstn n buf).
    split; [reflexivity|]. split; [exact Hf|]. split; [exact Hi|]. split; [now apply part_take|]. split.
    + rewrite Hv. cbn [app]. now rewrite <- app_assoc.
    + rewrite part_bytes_take by apply Hc. rewrite <- app_assoc, (app_assoc (firstn n buf)), firstn_skipn. exact Ef.
  - (* N_cp_limit *)
    rewrite H in H0. injection H0 as <-.
    unfold obuf_append in H3. destruct (check_size _ _) eqn:Ec in H3; [discriminate H3|]. injection H3 as <-. split; [reflexivity|].
    assert (El : length (firstn n buf) = n) by (rewrite firstn_length; lia).
    assert (Hc : (n <= k)%nat /\ (n <= length buf)%nat) by lia.
    exists g, bs, i, subs, (length b + k)%nat, (b ++ firstn n buf), (skipn n buf ++ more).
    split; [exact Hf|]. split; [exact Hi|]. split; [|split; [|split]].
    + pose proof (part_to any_data _ _ _ (part_take _ _ _ _ _ Hp Hc Hbuf)) as Q. rewrite app_length, El in Q.
      replace (length b + n + (k - n))%nat with (length b + k)%nat in Q by lia. exact Q.
    + intros E. apply (f_equal (@length N)) in E. rewrite app_length, El in E. destruct buf; [congruence|]. cbn [length] in *. lia.
    + rewrite Ef. unfold data_part, part_bytes. fold (sub_bytes subs). rewrite <- !app_assoc. cbn [app].
      rewrite <- !app_assoc. do 5 f_equal. now rewrite app_assoc, firstn_skipn.
    + apply not_fits. rewrite <- Ho, <- Ec. f_equal. rewrite Hv. unfold len. cbn [length]. rewrite !app_length, El. lia.
  - (* N_cp_next *)
    rewrite H in H0. injection H0 as ->. right. subst buf. eexists. split; [reflexivity|]. split; [exact Ho'|]. right.
    exists (N.to_nat b0), g, bs, i, (subs ++ [b]), []. split; [reflexivity|]. split; [exact Hf|]. split; [exact Hi|]. split; [|split].
    + apply part_next; [exact Hp| |assumption]. now apply Forall_cons_iff in Hbuf.
    + now rewrite app_nil_r, payload_snoc.
    + rewrite part_bytes_whole in Ef. unfold part_bytes. cbn [length Nat.add skipn app] in *. rewrite N2Nat.id, <- !app_assoc. exact Ef.
  - (* N_cp_end *)
    right. eexists. split; [reflexivity|]. split; [exact Ho'|]. left. reflexivity.
Qed.

Lemma reads_step buf src s ob s1 ob1 n : buf <> [] -> rd_wf L (mk_rd L buf src s false) -> reads (mk_rd L buf src s false) ->
  next_state L s buf ob = (s1, ob1, Ok (n, DNothing)) ->
  reads (mk_rd L (skipn n buf) src s1 false) /\ rd_wf L (mk_rd L (skipn n buf) src s1 false).
Proof.
  intros Hb Hwf Hr He.
  destruct Hwf as [H1 H2]. cbn [rd_dec rd_eof rd_buf] in *. destruct (H2 eq_refl) as [H3 H4]. destruct Hr as ((Ro & Rj) & (c & Ec & Hc) & _).
  pose proof (next_state_nst L safe _ _ _ _ _ _ H1 H3 Hb He) as Hst.
  cbn [rd_dec rd_eof] in *. pose proof (next_state_good L safe s buf ob H1 H3 Hb) as Hg. rewrite He in Hg.
  destruct Hg as (Go & _ & Hg1 & Hg2 & Hg3 & Hg4 & _).
  unfold rd_rest in *. cbn [rd_buf rd_src] in *. split.
  - split; [split; [cbn [rd_dec]; congruence|exact I]|]. split; [|discriminate]. exists (c ++ firstn n buf). unfold rd_rest. cbn [rd_buf rd_src rd_dec]. split.
    + rewrite Ec, <- app_assoc. f_equal. now rewrite app_assoc, firstn_skipn.
    + refine (parsed_step L o (tabled file) any_data (fun _ _ _ => I) (any_lzw L) (any_lzw L) s buf _ ob s1 ob1 n DNothing c (any_keeps L _) (fun _ _ _ => I) H1 Ro _ Hb Hc Hst).
      pose proof file_ok as Hf. unfold bytes_ok in *. rewrite Ec, app_assoc in Hf. now apply Forall_app in Hf.
  - split; [exact Hg2|]. intros _. cbn [rd_dec rd_buf]. split; [exact Hg3|]. intros Q. destruct (Hg4 Q); [congruence|discriminate].
Qed.
Lemma wf_chunk bs src s : rd_wf L (mk_rd L [] (RChunk bs :: src) s false) -> rd_wf L (mk_rd L bs src s false).
Proof.
  intros [H1 H2]. cbn in H1, H2. destruct (H2 eq_refl) as [H3 H4].
  split; [exact H1|]. intros _. cbn. split; [|exact H4]. intros E. destruct (H3 E) as [t Ht]. discriminate.
Qed.

(** The start: the image has been announced, and the size byte of its first block has been read. *)
Lemma dnext_starts r ob r' ob' x : dnext L r ob r' ob' x -> rd_wf L r -> reads r ->
  forall m, x = Ok (Some (DFrameMetadata (FLzw m))) -> copying (rd_dec L r') (rd_rest L r') [m].
Proof.
  induction 1 as [buf src s ob|k src s ob|s ob|src s ob|bs src s ob r' ob' x Hb Hn IH
    |buf src s ob s1 ob1 n r' ob' x Hb He Hn IH|buf src s ob s1 ob1 n Hb He
    |buf src s ob s1 ob1 n d Hb He Hd1 Hd2|pr buf src s ob s1 ob1 e Hb He]; intros Hwf Hr m Ex; try discriminate Ex.
  - apply IH; [now apply wf_chunk|exact Hr|exact Ex].
  - destruct (reads_step _ _ _ _ _ _ _ Hb Hwf Hr He) as [Hr1 Hwf1]. now apply IH.
  - injection Ex as ->. destruct Hwf as [H1 H2]. cbn [rd_dec rd_eof rd_buf] in *. destruct (H2 eq_refl) as [H3 H4].
    destruct Hr as ((Ro & Rj) & (c & Ec & Hc) & _). pose proof (next_state_nst L safe _ _ _ _ _ _ H1 H3 Hb He) as Hst.
    unfold rd_rest in *. cbn [rd_buf rd_src rd_dec] in *.
    assert (Hq : exists b t, sd_state L s = LzwInit m /\ buf = b :: t /\ check_code_size m = true /\
      s1 = set_state L s (CopySubBlock (N.to_nat b)) /\ n = 1%nat).
    { inversion Hst; subst; try (do 2 eexists; repeat split; eassumption || reflexivity); exfalso.
      all: repeat match goal with Q : context [if ?x then _ else _] |- _ => destruct x end; discriminate. }
    destruct Hq as (b & t & Em & -> & Hm & -> & ->).
    destruct (parsed_body _ _ _ _ _ _ _ _ Hc) as (g & bs & Hg & Ht & Ha & Hbd); [rewrite Em; exact I|].
    unfold body in Hbd. rewrite Em in Hbd. destruct Hbd as (B1 & i & I1 & (f0 & I2 & I2') & I3 & I4 & ->).
    split; [exact Ro|]. right. exists (N.to_nat b), g, bs, i, [], [].
    split; [reflexivity|]. split; [eapply front_acc; eassumption|]. split; [|split; [|split]].
    + split; [exact I1|]. split; [exact I3|]. split; [|discriminate].
      rewrite I4. unfold check_code_size in Hm. apply negb_true_iff, orb_false_iff in Hm. rewrite !N.ltb_ge in Hm. lia.
    + apply part_first. pose proof file_ok as Hf. unfold bytes_ok in *. rewrite Ec in Hf. apply Forall_app in Hf as [_ Hf].
      cbn [app] in Hf. now apply Forall_cons_iff in Hf.
    + now rewrite I4.
    + rewrite Ec, image_head_bytes. unfold front, part_bytes, sub_bytes. cbn [map concat app length Nat.add skipn].
      rewrite N2Nat.id, <- !app_assoc. reflexivity.
Qed.
Lemma dnext_copying r ob r' ob' x : dnext L r ob r' ob' x -> rd_wf L r -> forall v, ob = OVec v -> copying (rd_dec L r) (rd_rest L r) v ->
  match x with
  | Ok (Some d) => d = DDataEnd \/ exists v', ob' = OVec v' /\ copying (rd_dec L r') (rd_rest L r') v'
  | Err (DFormat m) => m = MemoryLimitReached /\ bad_image_size o file
  | _ => True
  end.
Proof.
  induction 1 as [buf src s ob|k src s ob|s ob|src s ob|bs src s ob r' ob' x Hb Hn IH
    |buf src s ob s1 ob1 n r' ob' x Hb He Hn IH|buf src s ob s1 ob1 n Hb He
    |buf src s ob s1 ob1 n d Hb He Hd1 Hd2|pr buf src s ob s1 ob1 e Hb He]; intros Hwf v Ev Hc; try exact I.
  - apply (IH (wf_chunk _ _ _ Hwf) v Ev Hc).
  - subst ob. destruct Hwf as [H1 H2]. cbn [rd_dec rd_eof rd_buf] in *. destruct (H2 eq_refl) as [H3 H4].
    pose proof (next_state_nst L safe _ _ _ _ _ _ H1 H3 Hb He) as Hst. unfold rd_rest in *. cbn [rd_buf rd_src rd_dec] in *.
    destruct (copying_step _ _ _ _ _ _ _ Hc Hb H1 Hst) as [Q|(v' & -> & Hc')]; [discriminate Q|].
    pose proof (next_state_good L safe s buf (OVec v) H1 H3 Hb) as Hg. rewrite He in Hg.
    destruct Hg as (Go & _ & Hg1 & Hg2 & Hg3 & Hg4 & _).
    apply (IH ltac:(split; [exact Hg2|]; intros _; cbn [rd_dec rd_buf]; split; [exact Hg3|]; intros Q; destruct (Hg4 Q); [congruence|discriminate])
      v' eq_refl Hc').
  - subst ob. destruct Hwf as [H1 H2]. cbn [rd_dec rd_eof rd_buf] in *. destruct (H2 eq_refl) as [H3 H4].
    pose proof (next_state_nst L safe _ _ _ _ _ _ H1 H3 Hb He) as Hst. unfold rd_rest in *. cbn [rd_buf rd_src rd_dec] in *.
    exact (copying_step _ _ _ _ _ _ _ Hc Hb H1 Hst).
  - subst ob. destruct Hwf as [H1 H2]. cbn [rd_dec rd_eof rd_buf] in *. destruct (H2 eq_refl) as [H3 H4].
    pose proof (next_state_nst L safe _ _ _ _ _ _ H1 H3 Hb He) as Hst. unfold rd_rest in *. cbn [rd_buf rd_src rd_dec] in *.
    exact (copying_step _ _ _ _ _ _ _ Hc Hb H1 Hst).
Qed.

(** The end of the data is told where the file has it, and pixels are told only if there are some. *)
Lemma dnext_ended r ob r' ob' x : dnext L r ob r' ob' x -> rd_wf L r -> reads r ->
  x <> Ok (Some (DBytesDecoded O)) /\ (x = Ok (Some DDataEnd) -> ended_image o file).
Proof.
  induction 1 as [buf src s ob|k src s ob|s ob|src s ob|bs src s ob r' ob' x Hb Hn IH
    |buf src s ob s1 ob1 n r' ob' x Hb He Hn IH|buf src s ob s1 ob1 n Hb He
    |buf src s ob s1 ob1 n d Hb He Hd1 Hd2|pr buf src s ob s1 ob1 e Hb He]; intros Hwf Hr; try (split; discriminate).
  - apply IH; [now apply wf_chunk|exact Hr].
  - destruct (reads_step _ _ _ _ _ _ _ Hb Hwf Hr He) as [Hr1 Hwf1]. now apply IH.
  - destruct Hwf as [H1 H2]. cbn [rd_dec rd_eof rd_buf] in *. destruct (H2 eq_refl) as [H3 H4].
    destruct Hr as ((Ro & Rj) & (c & Ec & Hc) & _). pose proof (next_state_nst L safe _ _ _ _ _ _ H1 H3 Hb He) as Hst.
    unfold rd_rest in *. cbn [rd_buf rd_src rd_dec] in *. split.
    + intros [= ->]. inversion Hst; subst.
      all: repeat match goal with Q : context [if (?x =? ?y)%nat then _ else _] |- _ => destruct (Nat.eqb_spec x y) end; try discriminate; try congruence.
      all: repeat match goal with Q : context [if ?x then _ else _] |- _ => destruct x end; try discriminate; congruence.
    + intros [= ->].
      assert (Hq : exists t, sd_state L s = FrameDecoded /\ buf = 0 :: t).
      { inversion Hst; subst; try (eexists; split; [eassumption|reflexivity]); exfalso.
        all: repeat match goal with Q : context [if ?x then _ else _] |- _ => destruct x end; discriminate. }
      destruct Hq as (t & Es & ->).
      destruct (parsed_body _ _ _ _ _ _ _ _ Hc) as (g & bs & Hg & Ht & Ha & Hbd); [rewrite Es; exact I|].
      unfold body in Hbd. rewrite Es in Hbd. destruct Hbd as (B1 & i & subs & B3 & B4 & B5 & -> & _).
      exists g, bs, i, subs, (t ++ concat (map ev_bytes src)). split; [eapply front_acc; eassumption|]. split; [eapply acc_image; eassumption|].
      split; [exact B4|]. rewrite Ec, image_head_bytes. unfold front, ser_subs. fold (sub_bytes subs). rewrite <- !app_assoc. reflexivity.
Qed.
Lemma bytes_read (o' : options) r s r' ob n : rd_good L r /\ sd_opts L (rd_dec L r) = o' -> reads r ->
  decode_next_bytes L r (OSlice s) = (r', ob, Ok n) -> reads r'.
Proof.
  intros [Hr _] Hd H. unfold decode_next_bytes in H. destruct (decode_next L r (OSlice s)) as [[r1 ob1] x] eqn:E.
  pose proof (next_reads L safe o file file_ok _ _ _ _ _ Hr Hd E) as Ha.
  destruct x as [[e|]|e| | ]; try discriminate H. destruct e; try discriminate H; injection H as <- <- <-; exact Ha.
Qed.
Lemma bytes_ended (o' : options) r s r' ob x : rd_good L r /\ sd_opts L (rd_dec L r) = o' -> reads r ->
  decode_next_bytes L r (OSlice s) = (r', ob, x) -> x = Ok O \/ x = Err (DFormat ImageTruncated) -> ended_image o file.
Proof.
  intros [Hr _] Hd H Hx. unfold decode_next_bytes in H. destruct (decode_next L r (OSlice s)) as [[r1 ob1] y] eqn:E.
  pose proof (decode_next_dnext L safe _ _ _ _ _ (proj1 Hr) E) as Hdn.
  destruct (dnext_ended _ _ _ _ _ Hdn (proj1 Hr) Hd) as [F1 F2]. pose proof (dnext_facts L safe o file file_ok _ _ _ _ _ Hdn (proj1 Hr) Hd) as F3.
  destruct y as [[e|]|e| | ]; [|injection H as <- <- <-; destruct Hx; discriminate| |injection H as <- <- <-; destruct Hx; discriminate..].
  - destruct e; injection H as <- <- <-; try (destruct Hx; discriminate); [|now apply F2].
    destruct Hx as [Hx|Hx]; [|discriminate Hx]. injection Hx as ->. contradiction F1. reflexivity.
  - injection H as <- <- <-. destruct Hx as [Hx|Hx]; [discriminate Hx|]. injection Hx as ->. contradiction F3.
Qed.

Lemma info_starts fuel : forall d d' m, rd_good L (dc_rd L d) -> dreads d ->
  next_frame_info_loop L fuel d = (d', Ok true) -> dc_ty L d' = FLzw m -> copying (rd_dec L (dc_rd L d')) (rd_rest L (dc_rd L d')) [m].
Proof.
  induction fuel as [|fuel IH]; intros d d' m Hr Hd H Ht; [discriminate H|]. cbn [next_frame_info_loop] in H. destruct Hd as [Hd Hp].
  destruct (decode_next L (dc_rd L d) ONone) as [[r ob] y] eqn:E.
  pose proof (next_reads L safe o file file_ok _ _ _ _ _ Hr Hd E) as Ha. pose proof (decode_next_dnext L safe _ _ _ _ _ (proj1 Hr) E) as Hdn.
  pose proof (dnext_starts _ _ _ _ _ Hdn (proj1 Hr) Hd) as Hf.
  apply decode_next_all in E; [|exact safe|exact Hr]. destruct E as (Hr' & _ & _ & Hm).
  destruct y as [[e|]|e| | ]; try discriminate H.
  assert (Hgo : reads r -> next_frame_info_loop L fuel (set_rd L d r) = (d', Ok true) ->
    copying (rd_dec L (dc_rd L d')) (rd_rest L (dc_rd L d')) [m]).
  { intros Hrr H1. eapply IH; [| |exact H1|exact Ht]; [exact Hr'|split; [exact Hrr|exact Hp]]. }
  destruct e; cbn [heard] in Ha; try (apply (Hgo Ha H)).
  { apply (Hgo (proj2 Ha) H). }
  destruct (sd_current L (rd_dec L r)) as [f|] eqn:Ef; [|discriminate H].
  unfold frame_take in H. cbn zeta in H. cbn [set_cur set_rd dc_conv] in H.
  assert (Ed : d' = set_cur L (set_rd L (set_rd L d r) (mk_rd L (rd_buf L r) (rd_src L r)
    (set_current L (rd_dec L r) (Some (snd (frame_take f))) 0) (rd_eof L r))) (fst (frame_take f)) (dc_ty L d')).
  { destruct (f_palette f); [|destruct (cv_gpal (dc_conv L d)); [|discriminate H]]; injection H as <-; reflexivity. }
  match type of Hf with forall m, Ok (Some (DFrameMetadata ?t)) = _ -> _ =>
    assert (Et : dc_ty L d' = t) by (destruct (f_palette f); [|destruct (cv_gpal (dc_conv L d)); [|discriminate H]]; injection H as <-; reflexivity) end.
  rewrite Ht in Et. specialize (Hf m). rewrite <- Et in Hf. specialize (Hf eq_refl). rewrite Ed. exact Hf.
Qed.
Lemma copy_blame fuel : forall r v r' v' m, rd_good L r -> copying (rd_dec L r) (rd_rest L r) v ->
  copy_lzw_loop L fuel r v = (r', v', Err (DFormat m)) -> m = UnexpectedDataMsg \/ m = MemoryLimitReached /\ bad_image_size o file.
Proof.
  induction fuel as [|fuel IH]; intros r v r' v' m Hr Hc H; [discriminate H|]. cbn [copy_lzw_loop] in H.
  destruct (decode_next L r (OVec v)) as [[r1 ob] x] eqn:E.
  pose proof (decode_next_dnext L safe _ _ _ _ _ (proj1 Hr) E) as Hdn.
  pose proof (dnext_copying _ _ _ _ _ Hdn (proj1 Hr) v eq_refl Hc) as Hf.
  apply decode_next_all in E; [|exact safe|exact Hr]. destruct E as (Hr' & _).
  destruct x as [[e|]|e| | ]; try discriminate H.
  - destruct e; try (injection H as _ _ <-; now left); [|discriminate H].
    destruct Hf as [Hf|(w & -> & Hf)]; [discriminate Hf|]. cbn [obuf_bytes] in H. eapply IH; eassumption.
  - injection H as _ _ <-. now left.
  - injection H as _ _ ->. right. exact Hf.
Qed.
End Copy.

Section Calls.
Variable L : lzw_codec.
Hypothesis safe : lzw_safe L.
Variable umax : N.
Hypothesis Humax : 2 ^ 32 - 1 <= umax.
Variable src : list revent.
Variable o : options.
Hypothesis Hs : src_ok src.
Hypothesis Hl : limit_ok umax (o_limit o).
Let file := concat (map ev_bytes src).

Lemma pixels_blame d d1 x m : opened L umax src o d -> dreads L o file any_data (any_reader L) (any_lzw L) d1 -> next_frame_info L d = (d1, Ok true) -> dc_ty L d1 = FPixels ->
  conv_read_frame umax (Reader.rd L) (decode_next_bytes L) (dc_rd L d1) (dc_conv L d1) (dc_cur L d1) = (x, Err (DFormat m)) ->
  o_skip_frame_decoding o = false /\ (m = ImageTruncated /\ ended_image o file \/ m = OddSizedBuffer /\ o_color o = CRgba).
Proof.
  intros Hd Hrd Ei Ety H. destruct x as [[r c] f]. pose proof (src_bytes _ Hs) as Hf.
  destruct (fresh_frame L safe umax Humax src o Hs Hl d d1 Hd Ei) as (Hh & Hg & Hdg & Hm). rewrite Ety in Hm.
  destruct (hist_good L safe src o Hs _ Hh) as [_ Hor].
  pose proof Hdg as (_ & Hfr & _ & Hc & _). rewrite Hor in Hc. destruct Hm as [Hm Hk]. split; [exact Hk|].
  destruct Hfr as (_ & _ & _ & _ & Hw & Hh2 & _).
  assert (Hend : m = ImageTruncated -> ended_image o file).
  { intros ->. eapply (frame_q umax _ (decode_next_bytes L) (fun r => rd_good L r /\ sd_opts L (rd_dec L r) = dopts L d1)
      (decode_next_bytes_ok L safe umax Humax (dopts L d1)) (reads L o file any_data (any_reader L) (any_lzw L))); [| | | |exact H].
    - intros x s x' ob n Hi Hp. exact (bytes_read L safe o file Hf _ _ _ _ _ _ Hi Hp).
    - intros x s x' ob q Hi Hp. exact (bytes_ended L safe o file Hf _ _ _ _ _ _ Hi Hp).
    - split; [exact Hg|reflexivity].
    - apply Hrd. }
  apply (read_frame_err umax _ _ (pixel_rd L src o) (pixel_error src o) (pixel_cb L safe src o Hs)
    (fun r => rd_good L r /\ sd_opts L (rd_dec L r) = dopts L d1)) in H.
  2:{ intros. eapply decode_next_bytes_ok; eassumption. }
  2:{ exact Hw. } 2:{ exact Hh2. } 2:{ split; [exact Hh|exact Hm]. } 2:{ split; [exact Hg|reflexivity]. }
  destruct H as [[Ef|[[Ef Ec]|Ef]]|Ef].
  - exfalso. destruct Ef as [[Ef _]|[Ef|(k & _ & Ef)]]; discriminate Ef.
  - right. injection Ef as ->. split; [reflexivity|congruence].
  - left. injection Ef as ->. split; [reflexivity|now apply Hend].
  - discriminate Ef.
Qed.

Lemma frame_blamed d d' m : opened L umax src o d -> rd_good L (dc_rd L d) ->
  dreads L o file any_data (any_reader L) (any_lzw L) d -> (cv_gpal (dc_conv L d) = None -> no_global file) ->
  read_next_frame L umax d = (d', Err (DFormat m)) -> frame_blame o file m.
Proof.
  intros Hop Hr Hd Hg H. pose proof (src_bytes _ Hs) as Hf. unfold read_next_frame in H.
  destruct (next_frame_info L d) as [d1 x] eqn:Ei. destruct x as [[|]|e| | ]; try discriminate H.
  2:{ injection H as _ ->. destruct (info_blame L safe o file Hf _ _ _ _ Hr Hd Hg Ei) as [Q|Q]; [now left|now right; left]. }
  destruct (dc_ty L d1) as [|c] eqn:Ety.
  - destruct (conv_read_frame umax (Reader.rd L) (decode_next_bytes L) (dc_rd L d1) (dc_conv L d1) (dc_cur L d1)) as [y z] eqn:Ec.
    assert (z = Err (DFormat m)).
    { destruct y as [[r c] f]. destruct z as [u|e| | ]; try discriminate H. now injection H as _ ->. }
    subst z. right. right. right. eapply pixels_blame; [exact Hop| |exact Ei|exact Ety|exact Ec].
    destruct (opened_good L umax safe Humax src o Hs d Hl Hop) as (Hdg & Ho & _).
    refine (proj1 (dop_reads L safe umax Humax o file Hf any_data (fun _ _ _ => I) (any_reader L) (fun _ _ _ _ _ _ => I) (fun _ _ _ _ _ _ _ _ => I)
      (any_lzw L) (any_lzw L) (fun _ _ _ _ _ => I) (fun _ _ _ q => q) (fun s => any_keeps L (OSlice s)) (any_keeps L ONone)
      (fun s => any_keeps L (OVec s)) d OpInfo d1 (OutBool (Ok true)) Hdg _ I Hd _ _)).
    + unfold alloc_ok, dopts in *. now rewrite Ho.
    + cbn [run_dop]. now rewrite Ei.
    + now exists true.
  - pose proof (info_starts L safe o file Hf _ _ _ _ Hr Hd Ei Ety) as Hc.
    destruct (fresh_frame L safe umax Humax src o Hs Hl d d1 Hop Ei) as (Hh & Hg1 & _ & Hm). rewrite Ety in Hm.
    match type of H with context [copy_lzw_into_buffer ?a ?b ?c ?d] => destruct (copy_lzw_into_buffer a b c d) as [[r v] z] eqn:Ec end.
    destruct z as [u|e| | ]; try discriminate H. injection H as _ ->.
    unfold copy_lzw_into_buffer in Ec. cbn [app] in Ec. pose proof Ec as Ec'.
    apply (copy_loop_err L safe src o Hs) in Ec'; [|split; [exact Hh|apply Hm]].
    apply (copy_blame L safe o file Hf _ _ _ _ _ _ Hg1 Hc) in Ec. right. right. left.
    destruct Ec as [->|[-> Ec]]; [|split; [reflexivity|]; split; [apply Hm|exact Ec]].
    exfalso. destruct Ec' as [[Q _]|[Q|(k & _ & Q)]]; discriminate Q.
Qed.

(** What is known of the decoder behind calls that went well. *)
Definition fine (d : dcd L) : Prop :=
  opened L umax src o d /\ dcd_good L d /\ alloc_ok L umax d /\
  dreads L o file any_data (any_reader L) (any_lzw L) d /\ (cv_gpal (dc_conv L d) = None -> no_global file).
Lemma fine_dop d op d' y : fine d -> op_ok umax op -> run_dop L umax d op = (d', y) -> went_well y -> fine d'.
Proof.
  intros (Hop & Hd & Ha & Hr & Hg) Ho1 E Hy1. pose proof (src_bytes _ Hs) as Hf.
  pose proof (run_dop_returns L safe umax Humax _ _ _ _ Hd Ha Ho1 E) as (_ & Hd1 & Hk).
  pose proof (dop_reads L safe umax Humax o file Hf any_data (fun _ _ _ => I) (any_reader L) (fun _ _ _ _ _ _ => I) (fun _ _ _ _ _ _ _ _ => I)
    (any_lzw L) (any_lzw L) (fun _ _ _ _ _ => I) (fun _ _ _ q => q) (fun s => any_keeps L (OSlice s)) (any_keeps L ONone)
    (fun s => any_keeps L (OVec s)) d op d' y Hd Ha Ho1 Hr E Hy1) as [A _].
  split; [eapply op_call; eassumption|]. split; [exact Hd1|]. split; [exact (alloc_ok_kept L umax _ _ Hk Ha)|]. split; [exact A|].
  destruct Hk as [_ (_ & _ & Eg)]. rewrite Eg. exact Hg.
Qed.
Lemma fine_ops os : forall d d1 ys, fine d -> Forall (op_ok umax) os -> run_dops L umax d os = (d1, ys) -> Forall went_well ys -> fine d1.
Proof.
  induction os as [|op os IH]; intros d d1 ys Hd Ho H Hy; cbn [run_dops] in H; [now injection H as <- <-|].
  destruct (run_dop L umax d op) as [d0 y] eqn:E. destruct (run_dops L umax d0 os) as [d3 ys1] eqn:E1. injection H as <- <-.
  apply Forall_cons_iff in Ho as [Ho1 Ho]. apply Forall_cons_iff in Hy as [Hy1 Hy].
  eapply IH; [|exact Ho|exact E1|exact Hy]. eapply fine_dop; eassumption.
Qed.
Lemma fine_info d : read_info L src o = Ok d -> fine d.
Proof.
  intros Hi. pose proof (src_bytes _ Hs) as Hf. pose proof (op_info L umax _ _ _ Hi) as Hop.
  destruct (read_info_whole L safe umax Humax o _ Hf any_data (fun _ _ _ => I) (any_reader L) (fun _ _ _ _ _ _ => I) (fun _ _ _ _ _ _ _ _ => I)
    (any_lzw L) (fun _ _ _ _ _ => I) I src d Hs eq_refl Hi) as (Hd & Hopt & Hr). fold file in Hf, Hr.
  split; [exact Hop|]. split; [exact Hd|]. split; [unfold alloc_ok; now rewrite Hopt|]. split; [exact Hr|].
  pose proof (init_blame L safe o _ Hf (ev_fuel L (dc_rd L (with_no_init L src o))) (with_no_init L src o)) as Q.
  unfold read_info in Hi. rewrite Hi in Q. apply Q; [apply (with_no_init_good L src o Hs)|reflexivity|split; [reflexivity|exact I]| |discriminate].
  split; [|intros R; now contradiction R]. split; [split; [reflexivity|exact I]|]. split; [|discriminate]. exists []. split; [reflexivity|].
  split; [|reflexivity]. repeat split; reflexivity.
Qed.
Lemma fine_taken d : fine d -> fine (set_cur L d (snd (frame_take (dc_cur L d))) (dc_ty L d)).
Proof.
  intros (Hop & Hd & Ha & Hr & Hg). pose proof (op_taken L umax _ _ _ Hop) as Hop'.
  split; [exact Hop'|]. split; [exact (proj1 (opened_good L umax safe Humax src o Hs _ Hl Hop'))|]. split; [exact Ha|]. split; [exact Hr|exact Hg].
Qed.
Lemma fine_blame d d' m : fine d -> read_next_frame L umax d = (d', Err (DFormat m)) -> frame_blame o file m.
Proof. intros (Hop & Hd & Ha & Hr & Hg) H. eapply frame_blamed; [exact Hop|exact (proj1 Hd)|exact Hr|exact Hg|exact H]. Qed.

Theorem frame_call_blame d os d1 ys d2 m : Forall (op_ok umax) os -> read_info L src o = Ok d ->
  run_dops L umax d os = (d1, ys) -> Forall went_well ys -> read_next_frame L umax d1 = (d2, Err (DFormat m)) ->
  frame_blame o file m.
Proof. intros Ho Hi H Hy He. eapply fine_blame; [|exact He]. eapply fine_ops; [apply (fine_info _ Hi)|eassumption..]. Qed.

Lemma iter_blamed n : forall d b it xs m, (b = false -> fine d) -> iter_all L umax n (mk_iter L d b) = (it, xs) ->
  In (IErr (DFormat m)) xs -> frame_blame o file m.
Proof.
  induction n as [|n IH]; intros d b it xs m Hd H Hin; cbn [iter_all] in H; [injection H as <- <-; contradiction Hin|].
  destruct (iter_next L umax (mk_iter L d b)) as [[d1 b1] x] eqn:E. destruct (iter_all L umax n (mk_iter L d1 b1)) as [it2 xs1] eqn:E1.
  injection H as <- <-. unfold iter_next in E. cbn [it_ended it_dec] in E.
  destruct b; [injection E as <- <- <-; destruct Hin as [Q|Hin]; [discriminate Q|]; eapply (IH d true); [discriminate|exact E1|exact Hin]|].
  specialize (Hd eq_refl). destruct (read_next_frame L umax d) as [d0 y] eqn:Er.
  assert (Hf : forall z, y = Ok z -> fine d0).
  { intros z ->. apply (fine_dop d OpFrame d0 (OutBool (Ok z)) Hd I); [cbn [run_dop]; now rewrite Er|now exists z]. }
  destruct y as [[|]|e| | ].
  - specialize (Hf true eq_refl). destruct (is_nil _).
    + injection E as <- <- <-. destruct Hin as [Q|Hin]; [discriminate Q|]. eapply IH; [|exact E1|exact Hin]. now intros _.
    + destruct (frame_take (dc_cur L d0)) as [tk lf] eqn:Et. injection E as <- <- <-. destruct Hin as [Q|Hin]; [discriminate Q|].
      eapply IH; [|exact E1|exact Hin]. intros _. pose proof (fine_taken _ Hf) as Q. now rewrite Et in Q.
  - injection E as <- <- <-. destruct Hin as [Q|Hin]; [discriminate Q|]. eapply IH; [|exact E1|exact Hin]. discriminate.
  - injection E as <- <- <-. destruct Hin as [Q|Hin]; [injection Q as ->; eapply fine_blame; eassumption|]. eapply IH; [|exact E1|exact Hin]. discriminate.
  - exfalso. destruct Hd as (Hop & Hd & Ha & _).
    pose proof (run_dop_returns L safe umax Humax d OpFrame d0 (OutBool Panic) Hd Ha I) as Q. cbn [run_dop] in Q. rewrite Er in Q.
    destruct (Q eq_refl) as [Q1 _]. exact Q1.
  - exfalso. destruct Hd as (Hop & Hd & Ha & _).
    pose proof (run_dop_returns L safe umax Humax d OpFrame d0 (OutBool Hang) Hd Ha I) as Q. cbn [run_dop] in Q. rewrite Er in Q.
    destruct (Q eq_refl) as [Q1 _]. exact Q1.
Qed.
Theorem iter_blame d os d1 ys n it xs m : Forall (op_ok umax) os -> read_info L src o = Ok d ->
  run_dops L umax d os = (d1, ys) -> Forall went_well ys -> iter_all L umax n (mk_iter L d1 false) = (it, xs) ->
  In (IErr (DFormat m)) xs -> frame_blame o file m.
Proof. intros Ho Hi H Hy He Hin. eapply iter_blamed; [|exact He|exact Hin]. intros _. eapply fine_ops; [apply (fine_info _ Hi)|eassumption..]. Qed.

(** Only a frame without pixels is refused for the size of its buffer. *)
Theorem empty_frame d d' : opened L umax src o d -> read_next_frame L umax d = (d', Err (DFormat OddSizedBuffer)) ->
  f_width (dc_cur L d') * f_height (dc_cur L d') = 0.
Proof.
  intros Hop H. unfold read_next_frame in H.
  destruct (next_frame_info L d) as [d1 x] eqn:Ei. destruct x as [[|]|e| | ]; try discriminate H.
  2:{ injection H as _ ->. apply (next_frame_info_err L safe umax Humax src o Hs Hl) in Ei; [|exact Hop]. exfalso.
      destruct Ei as [[Q _]|[Q|(k & _ & Q)]]; [|discriminate Q..]. cbn in Q.
      repeat match type of Q with _ \/ _ => destruct Q as [Q|Q]; [discriminate Q|] end. exact Q. }
  destruct (fresh_frame L safe umax Humax src o Hs Hl d d1 Hop Ei) as (Hh & Hg & Hdg & Hm).
  destruct (dc_ty L d1) as [|c].
  - destruct (conv_read_frame umax (Reader.rd L) (decode_next_bytes L) (dc_rd L d1) (dc_conv L d1) (dc_cur L d1)) as [[[r c] f] z] eqn:Ec.
    destruct z as [u|e| | ]; try discriminate H. injection H as <- ->. cbn [dc_cur set_cur].
    pose proof Hdg as (_ & Hfr & _). destruct Hfr as (_ & _ & _ & _ & Hw & Hh2 & _).
    unfold conv_read_frame in Ec. destruct (check_buffer_size umax (dc_conv L d1) (dc_cur L d1)) as [n|e| | ] eqn:Eck; try discriminate Ec.
    2:{ injection Ec as _ _ _ Q. apply check_size_err in Eck. congruence. }
    cbn zeta in Ec. destruct (N.ltb_spec (umax / 2) n) as [Hn|Hn]; [discriminate Ec|].
    destruct (conv_read_into_buffer umax (Reader.rd L) (decode_next_bytes L) (dc_rd L d1) (dc_conv L d1) (set_buffer (dc_cur L d1) [])
      (grow (firstn (N.to_nat n) (f_buffer (dc_cur L d1))) (N.to_nat n))) as [[[x1 c1] b] y] eqn:Ef.
    destruct y as [u|e| | ]; try discriminate Ec. injection Ec as _ _ <- ->. cbn [f_width f_height set_buffer].
    destruct (N.eq_0_gt_0_cases (f_width (dc_cur L d1) * f_height (dc_cur L d1))) as [Hz|Hz]; [exact Hz|exfalso].
    pose proof (check_buffer_size_ok umax (dc_conv L d1) (dc_cur L d1) Hw Hh2) as Hc. rewrite Eck in Hc. destruct Hc as [Hc _].
    assert (Hlen : length (grow (firstn (N.to_nat n) (f_buffer (dc_cur L d1))) (N.to_nat n)) = N.to_nat n)
      by (apply grow_length; rewrite firstn_length; lia).
    eapply (into_no_fault umax _ (decode_next_bytes L) (fun r => rd_good L r /\ sd_opts L (rd_dec L r) = dopts L d1)) in Ef.
    + apply Ef. right. reflexivity.
    + intros. eapply decode_next_bytes_ok; eassumption.
    + intros. eapply decode_next_bytes_no_fault; eassumption.
    + split; [exact Hg|reflexivity].
    + exact Hz.
    + unfold line_length in *. cbn [f_width f_height set_buffer]. unfold len. rewrite Hlen. lia.
    + unfold len. rewrite Hlen. rewrite N2Nat.id. etransitivity; [exact Hn|]. apply N.div_le_upper_bound; lia.
  - match type of H with context [copy_lzw_into_buffer ?a ?b ?c ?d] => destruct (copy_lzw_into_buffer a b c d) as [[r v] z] eqn:Ec end.
    destruct z as [u|e| | ]; try discriminate H. injection H as _ ->.
    apply (copy_loop_err L safe src o Hs) in Ec; [|split; [exact Hh|apply Hm]].
    exfalso. destruct Ec as [[Q _]|[Q|(k & _ & Q)]]; discriminate Q.
Qed.

(** The calls with a buffer of the caller. *)
Definition cb_error (e : derr) : Prop := match e with DFormat m => blame o file ONone (DFormat m) \/ m = UnexpectedDataMsg | DIo _ => True end.
Definition fine_rd (o' : options) (r : rd L) : Prop :=
  (rd_good L r /\ sd_opts L (rd_dec L r) = o') /\ reads L o file any_data (any_reader L) (any_lzw L) r.
Lemma cb_blame o' x s x' ob' r : fine_rd o' x -> decode_next_bytes L x (OSlice s) = (x', ob', r) ->
  match r with Ok (Datatypes.S _) => fine_rd o' x' | Err e => cb_error e | _ => True end.
Proof.
  intros [Hi Hp] H. pose proof (src_bytes _ Hs) as Hf.
  pose proof (decode_next_bytes_ok L safe umax Humax o' _ _ _ _ _ Hi H) as (Hi1 & _).
  destruct r as [[|n]|e| | ]; try exact I.
  - split; [exact Hi1|]. exact (bytes_read L safe o file Hf _ _ _ _ _ _ Hi Hp H).
  - unfold decode_next_bytes in H. destruct (decode_next L x (OSlice s)) as [[r1 ob1] y] eqn:E.
    pose proof (decode_next_dnext L safe _ _ _ _ _ (proj1 (proj1 Hi)) E) as Hdn.
    pose proof (dnext_facts L safe o file Hf _ _ _ _ _ Hdn (proj1 (proj1 Hi)) Hp) as F.
    destruct y as [[ev|]|e1| | ]; try discriminate H.
    + destruct ev; try discriminate H; injection H as _ _ <-; now right.
    + injection H as _ _ <-. now right.
    + injection H as _ _ <-. destruct e1 as [m|k]; [|exact I]. left. destruct m; try exact F.
      destruct F as [F|(v & F & _)]; [now left|discriminate F].
Qed.
Lemma fine_reader d : fine d -> fine_rd (dopts L d) (dc_rd L d) /\ cv_color (dc_conv L d) = o_color o.
Proof.
  intros (Hop & Hd & Ha & Hr & Hg). split; [split; [split; [apply Hd|reflexivity]|apply Hr]|].
  exact (dopts_color L safe umax Humax src o Hs Hl d Hop).
Qed.
Theorem fill_blame d buf d' b y : fine d -> fill_buffer L d buf = (d', b, y) ->
  match y with
  | Err (DFormat m) => buffer_blame o file m
  | Ok false => ended_image o file
  | _ => True
  end.
Proof.
  intros Hd H. destruct (fine_reader d Hd) as [[Hi Hp] Hc]. pose proof (src_bytes _ Hs) as Hf. unfold fill_buffer in H.
  destruct (conv_fill_buffer (Reader.rd L) (decode_next_bytes L) (dc_rd L d) (dc_conv L d) (dc_cur L d) buf) as [[[r c] b1] z] eqn:E.
  injection H as <- <- <-.
  assert (Hq : z = Ok false \/ z = Err (DFormat ImageTruncated) -> ended_image o file).
  { eapply (fill_q _ (decode_next_bytes L) (fun r => rd_good L r /\ sd_opts L (rd_dec L r) = dopts L d)
      (decode_next_bytes_ok L safe umax Humax (dopts L d)) (reads L o file any_data (any_reader L) (any_lzw L))); [| |exact Hi|exact Hp|exact E].
    - intros x s x' ob n Hj Hk. exact (bytes_read L safe o file Hf _ _ _ _ _ _ Hj Hk).
    - intros x s x' ob q Hj Hk. exact (bytes_ended L safe o file Hf _ _ _ _ _ _ Hj Hk). }
  apply (fill_loop_err _ _ (fine_rd (dopts L d)) cb_error (cb_blame (dopts L d))) in E; [|now split].
  destruct E as [_ E]. destruct z as [[|]|[m|k]| | ]; try exact I; [apply Hq; now left|].
  destruct E as [[E|E]|[E1 E2]]; [now left|now right; left|]. injection E1 as ->. right. right. split; [reflexivity|congruence].
Qed.
Theorem into_blame d buf d' b m : fine d -> read_into_buffer L umax d buf = (d', b, Err (DFormat m)) ->
  buffer_blame o file m \/ m = BufferTooSmall \/ m = ImageTruncated /\ ended_image o file.
Proof.
  intros Hd H. destruct (fine_reader d Hd) as [[Hi Hp] Hc]. pose proof (src_bytes _ Hs) as Hf. unfold read_into_buffer in H.
  destruct (conv_read_into_buffer umax (Reader.rd L) (decode_next_bytes L) (dc_rd L d) (dc_conv L d) (dc_cur L d) buf) as [[[r c] b1] z] eqn:E.
  injection H as _ _ ->.
  assert (Hq : m = ImageTruncated -> ended_image o file).
  { intros ->. eapply (into_q umax _ (decode_next_bytes L) (fun r => rd_good L r /\ sd_opts L (rd_dec L r) = dopts L d)
      (decode_next_bytes_ok L safe umax Humax (dopts L d)) (reads L o file any_data (any_reader L) (any_lzw L))); [| |exact Hi|exact Hp|exact E].
    - intros x s x' ob n Hj Hk. exact (bytes_read L safe o file Hf _ _ _ _ _ _ Hj Hk).
    - intros x s x' ob q Hj Hk. exact (bytes_ended L safe o file Hf _ _ _ _ _ _ Hj Hk). }
  apply (read_into_err umax _ _ (fine_rd (dopts L d)) cb_error (cb_blame (dopts L d))) in E; [|now split].
  destruct E as [[[E|E]|[[E1 E2]|E]]|E].
  - left. now left.
  - left. right. now left.
  - injection E1 as ->. left. right. right. split; [reflexivity|congruence].
  - injection E as ->. right. right. split; [reflexivity|now apply Hq].
  - injection E as ->. right. now left.
Qed.
Theorem fill_call_blame d os d1 ys buf d2 b y : Forall (op_ok umax) os -> read_info L src o = Ok d ->
  run_dops L umax d os = (d1, ys) -> Forall went_well ys -> fill_buffer L d1 buf = (d2, b, y) ->
  match y with
  | Err (DFormat m) => buffer_blame o file m
  | Ok false => ended_image o file
  | _ => True
  end.
Proof. intros Ho Hi H Hy He. eapply fill_blame; [|exact He]. eapply fine_ops; [apply (fine_info _ Hi)|eassumption..]. Qed.
Theorem into_call_blame d os d1 ys buf d2 b m : Forall (op_ok umax) os -> read_info L src o = Ok d ->
  run_dops L umax d os = (d1, ys) -> Forall went_well ys -> read_into_buffer L umax d1 buf = (d2, b, Err (DFormat m)) ->
  buffer_blame o file m \/ m = BufferTooSmall \/ m = ImageTruncated /\ ended_image o file.
Proof. intros Ho Hi H Hy He. eapply into_blame; [|exact He]. eapply fine_ops; [apply (fine_info _ Hi)|eassumption..]. Qed.
End Calls.
