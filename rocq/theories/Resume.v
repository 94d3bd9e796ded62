(** Errors of the reader in the middle of an image: what was decoded before is kept, and the next call goes on behind it. A source
    with errors is compared with the same source without them; nothing is assumed of the bytes. *)
From Verif Require Import Base Common Lzw Encoder Stream Converter Reader StreamInv Steps StepsRev ReaderInv Interlace Ranges ConvInv
  DecoderSafe DecInv Canon CanonReader SpecStream StreamOut.
Open Scope N_scope.

(** A source that fails now and then, or has nothing more for the moment; the same source without that. *)
Definition pause (e : derr) : bool := match e with DIo (OtherIo _) | DIo UnexpectedEof => true | _ => false end.
Definition fitful (e : revent) : Prop := match e with RChunk _ => True | RErr k => pause (DIo k) = true end.
Definition brings (e : revent) : bool := match e with RChunk (_ :: _) => true | _ => false end.
Definition calm (src : list revent) : list revent := filter brings src.
Definition pauses (src : list revent) : nat := length (filter (fun e => negb (brings e)) src).
Definition paused {A} (x : dres A) : bool := match x with Err e => pause e | _ => false end.

Lemma pauses_app p src : pauses (p ++ src) = (pauses p + pauses src)%nat.
Proof. unfold pauses. now rewrite filter_app, app_length. Qed.

Section Resume.
Variable L : lzw_codec.
Hypothesis safe : lzw_safe L.
Variable umax : N.
Hypothesis Humax : 2 ^ 32 - 1 <= umax.
Notation rd := (rd L).
Notation dcd := (dcd L).

Definition calm_rd (r : rd) : rd := mk_rd L (rd_buf L r) (calm (rd_src L r)) (rd_dec L r) (rd_eof L r).
Definition calm_dec (d : dcd) : dcd := set_rd L d (calm_rd (dc_rd L d)).

Lemma update_nothing s buf ob s' ob' n : pre L s buf -> update L s buf ob = (s', ob', Ok (n, DNothing)) ->
  n = length buf /\ ob' = ob /\ pre L s' [].
Proof.
  intros Hp H. destruct (update_flat L safe _ _ _ _ _ _ Hp H) as (s1 & buf1 & ob1 & Hns & Hp1 & _ & Hc).
  pose proof (nsteps_ob L safe _ _ _ _ _ _ Hns Hp) as ->.
  destruct Hc as [(-> & -> & -> & E)|(_ & r0 & _ & [(n0 & d0 & _ & Hd & E)|(e & _ & E)])]; [|congruence|discriminate].
  injection E as ->. auto.
Qed.
Lemma lr_no_eof r data ob r' ob' e : lr_decode_bytes L r data ob = (r', ob', Err e) -> e <> DIo UnexpectedEof.
Proof.
  unfold lr_decode_bytes. destruct (lr_decoder L r) as [d|]; [|intros [= <- <- <-]; discriminate].
  destruct ob; try (intros [= <- <- <-]; discriminate);
    destruct (lz_decode L d data _) as [d' [[n w] st]]; destruct st; try discriminate;
    try (intros [= <- <- <-]; discriminate); destruct (lr_check L r); try discriminate; intros [= <- <- <-]; discriminate.
Qed.
Lemma nst_no_eof s buf ob s' ob' e : nst L s buf ob s' ob' (Err e) -> e <> DIo UnexpectedEof.
Proof.
  intros H. inversion H; subst; try discriminate; try (eapply lr_no_eof; eassumption).
  destruct ob'; cbn [obuf_append] in *; try discriminate.
  match goal with H : context [if check_size ?a ?b then _ else _] |- _ => destruct (check_size a b); inversion H end. discriminate.
Qed.
Lemma update_transient s buf ob s' ob' e : pre L s buf -> update L s buf ob = (s', ob', Err e) -> pause e = false.
Proof.
  intros Hp H. destruct (update_flat L safe _ _ _ _ _ _ Hp H) as (s1 & buf1 & ob1 & Hns & (W & Z & T) & _ & Hc).
  destruct Hc as [(_ & _ & _ & E)|(Hb & r0 & Hn & [(n0 & d0 & _ & Hd & E)|(e0 & -> & E)])]; [discriminate|discriminate|].
  injection E as <-. assert (N : nst L s1 buf1 ob1 s' ob' (Err e)) by (apply next_state_nst; eassumption).
  pose proof (nst_err_kind L _ _ _ _ _ _ N) as A. pose proof (nst_no_eof _ _ _ _ _ _ N) as B.
  destruct e as [m|[]]; try reflexivity; [congruence|discriminate A].
Qed.

(** One turn of the loop of [decode_next], with the buffer [bs] not empty. *)
Definition turn (fuel : nat) (bs : list N) (src : list revent) (s : sd L) (ob : obuf) : rd * obuf * dres (option decoded) :=
  let '(d, ob1, x) := update L s bs ob in
  match x with
  | Err e => (mk_rd L bs src d false, ob1, Err e)
  | Panic => (mk_rd L bs src d false, ob1, Panic)
  | Hang => (mk_rd L bs src d false, ob1, Hang)
  | Ok (n, ev) =>
    let rest := skipn n bs in
    match ev with
    | DNothing => decode_next_loop L fuel (mk_rd L rest src d false) ob1
    | DBlockStart BkTrailer => decode_next_loop L fuel (mk_rd L rest src d true) ob1
    | _ => (mk_rd L rest src d false, ob1, Ok (Some ev))
    end
  end.
Lemma loop_eof fuel buf src s ob : decode_next_loop L fuel (mk_rd L buf src s true) ob = (mk_rd L buf src s true, ob, Ok None).
Proof. destruct fuel; reflexivity. Qed.
Lemma loop_turn fuel b bs src s ob : decode_next_loop L (S fuel) (mk_rd L (b :: bs) src s false) ob = turn fuel (b :: bs) src s ob.
Proof. reflexivity. Qed.
Lemma loop_fill fuel b bs src s ob :
  decode_next_loop L (S fuel) (mk_rd L [] (RChunk (b :: bs) :: src) s false) ob = turn fuel (b :: bs) src s ob.
Proof. reflexivity. Qed.
Lemma loop_err fuel k src s ob :
  decode_next_loop L (S fuel) (mk_rd L [] (RErr k :: src) s false) ob = (mk_rd L [] src s false, ob, Err (DIo k)).
Proof. reflexivity. Qed.
Lemma loop_end fuel s ob :
  decode_next_loop L (S fuel) (mk_rd L [] [] s false) ob = (mk_rd L [] [] s false, ob, Err (DIo UnexpectedEof)).
Proof. reflexivity. Qed.

(** What a turn comes to: nothing left in the buffer and nothing to tell, or an answer that does not depend on the source. *)
Lemma turn_cases bs s ob : pre L s bs ->
  (exists s', pre L s' [] /\ forall fuel src, turn fuel bs src s ob = decode_next_loop L fuel (mk_rd L [] src s' false) ob) \/
  (exists buf' s' eof' ob' x, paused x = false /\
     forall fuel src, turn fuel bs src s ob = (mk_rd L buf' src s' eof', ob', x)).
Proof.
  intros Hp. unfold turn. destruct (update L s bs ob) as [[d ob1] x] eqn:E. destruct x as [[n ev]|e| |].
  - assert (Hev : ev = DNothing \/ ev = DBlockStart BkTrailer \/
      forall A (a b c : A), match ev with DNothing => a | DBlockStart BkTrailer => b | _ => c end = c).
    { destruct ev as [ | | | | |[ | | ]| | | | | | ]; auto. }
    destruct Hev as [->|[->|Hev]].
    + left. destruct (update_nothing _ _ _ _ _ _ Hp E) as (-> & -> & P). exists d. split; [exact P|]. intros fuel src. now rewrite skipn_all.
    + right. exists (skipn n bs), d, true, ob1, (Ok None). split; [reflexivity|]. intros. apply loop_eof.
    + right. exists (skipn n bs), d, false, ob1, (Ok (Some ev)). split; [reflexivity|]. intros. apply Hev.
  - right. exists bs, d, false, ob1, (Err e). split; [eapply update_transient; eassumption|reflexivity].
  - right. exists bs, d, false, ob1, Panic. split; reflexivity.
  - right. exists bs, d, false, ob1, Hang. split; reflexivity.
Qed.

Lemma pre_more s b bs : pre L s [] -> pre L s (b :: bs).
Proof. intros (W & Z & T). split; [exact W|]. split; [|exact T]. intros E. destruct (Z E) as [t Et]. discriminate. Qed.

(** A call of a reading function, with and without pauses: [x] is the result, [resumes] that the call can be made again,
    [same] that the call without pauses gives the same; [p] is what was taken from the source. *)
Definition settled {A} (src src1 : list revent) (x : dres A) (resumes same : Prop) : Prop :=
  exists p, src = p ++ src1 /\ (paused x = false -> pauses p = 0%nat) /\
    (paused x = true -> (pauses p = 1%nat \/ src1 = []) /\ resumes) /\ (pauses p = 0%nat -> same).
Lemma settled_chunk {A} b bs src src1 (x : dres A) P Q : settled src src1 x P Q -> settled (RChunk (b :: bs) :: src) src1 x P Q.
Proof. intros (p & E & H). exists (RChunk (b :: bs) :: p). split; [rewrite E; reflexivity|exact H]. Qed.
Lemma settled_now {A} src (x : dres A) (P Q : Prop) : paused x = false -> Q -> settled src src x P Q.
Proof. intros E H. exists []. split; [reflexivity|]. split; [reflexivity|]. split; [congruence|]. intros _. exact H. Qed.
Lemma settled_end {A} (x : dres A) (P Q : Prop) : P -> Q -> settled [] [] x P Q.
Proof. intros E H. exists []. split; [reflexivity|]. split; [reflexivity|]. split; [auto|]. intros _. exact H. Qed.
Lemma settled_pause {A} e src (x : dres A) (P Q : Prop) : brings e = false -> paused x = true -> P -> settled (e :: src) src x P Q.
Proof.
  intros E X H. assert (N : pauses [e] = 1%nat) by (unfold pauses; cbn [filter]; rewrite E; reflexivity).
  exists [e]. split; [reflexivity|]. rewrite N. split; [congruence|]. split; [auto|discriminate].
Qed.
Lemma settled_impl {A B} src src1 (x : dres A) (y : dres B) (P Q P' Q' : Prop) : paused y = paused x -> (paused x = true -> P -> P') -> (Q -> Q') ->
  settled src src1 x P Q -> settled src src1 y P' Q'.
Proof.
  intros E HP HQ (p & H1 & H2 & H3 & H4). exists p. rewrite E. split; [exact H1|]. split; [exact H2|]. split; [|auto].
  intros X. destruct (H3 X). auto.
Qed.
(** After an answer that is no pause, the next one. *)
Lemma settled_then {A B} src src1 src2 (x : dres A) (y : dres B) (P Q P' Q' P2 Q2 : Prop) : paused x = false ->
  settled src src1 x P Q -> (Q -> P' -> P2) -> (Q -> Q' -> Q2) -> settled src1 src2 y P' Q' -> settled src src2 y P2 Q2.
Proof.
  intros X (p & -> & H2 & _ & H4) HP HQ (q & -> & J2 & J3 & J4). specialize (H2 X). specialize (H4 H2).
  exists (p ++ q). rewrite app_assoc, pauses_app, H2. split; [reflexivity|]. split; [exact J2|]. split; [|auto].
  intros Y. destruct (J3 Y). auto.
Qed.
Lemma settled_src {A} src src1 (x : dres A) P Q : settled src src1 x P Q -> Forall fitful src -> Forall fitful src1.
Proof. intros (p & -> & _) F. apply Forall_app in F. apply F. Qed.

Lemma loop_fuel src : forall s ob f f', pre L s [] -> (length src + 1 <= f)%nat -> (length src + 1 <= f')%nat ->
  decode_next_loop L f (mk_rd L [] src s false) ob = decode_next_loop L f' (mk_rd L [] src s false) ob.
Proof.
  induction src as [|ev src IH]; intros s ob f f' Hp Hf Hf'; cbn [length] in *;
    (destruct f as [|f]; [lia|]); (destruct f' as [|f']; [lia|]).
  - reflexivity.
  - destruct ev as [[|b bs]|k]; [reflexivity| |reflexivity].
    rewrite !loop_fill.
    destruct (turn_cases (b :: bs) s ob (pre_more _ _ _ Hp)) as [(s' & P & E)|(buf' & s' & eof' & ob' & x & _ & E)]; rewrite !E; [|reflexivity].
    apply IH; [exact P|lia|lia].
Qed.

Definition next_rel (r : rd) (ob : obuf) (run run' : rd * obuf * dres (option decoded)) : Prop :=
  let '(r1, ob1, x) := run in
  settled (rd_src L r) (rd_src L r1) x
    (ob1 = ob /\ run' = decode_next L (calm_rd r1) ob)
    (run' = (calm_rd r1, ob1, x)).

Lemma loop_settled src : Forall fitful src -> forall s ob f f', pre L s [] -> (length src + 1 <= f)%nat -> (length (calm src) + 1 <= f')%nat ->
  next_rel (mk_rd L [] src s false) ob
    (decode_next_loop L f (mk_rd L [] src s false) ob) (decode_next_loop L f' (mk_rd L [] (calm src) s false) ob).
Proof.
  induction 1 as [|ev src Hev Hsrc IH]; intros s ob f f' Hp Hf Hf'; cbn [length] in *; (destruct f as [|f]; [lia|]).
  - destruct f' as [|f']; [cbn in Hf'; lia|]. change (calm []) with (@nil revent). rewrite !loop_end.
    apply settled_end; [|reflexivity]. split; [reflexivity|]. reflexivity.
  - assert (R : forall src1, (length (calm src1) + 1 <= f')%nat -> decode_next_loop L f' (mk_rd L [] (calm src1) s false) ob = decode_next L (calm_rd (mk_rd L [] src1 s false)) ob).
    { intros src1 H1. unfold calm_rd, decode_next. cbn [rd_buf rd_src rd_dec rd_eof]. apply loop_fuel; [exact Hp|exact H1|lia]. }
    destruct ev as [[|b bs]|k].
    + change (decode_next_loop L (S f) (mk_rd L [] (RChunk [] :: src) s false) ob) with (mk_rd L [] src s false, ob, @Err derr (option decoded) (DIo UnexpectedEof)).
      apply settled_pause; [reflexivity|reflexivity|]. split; [reflexivity|]. apply (R src). exact Hf'.
    + change (calm (RChunk (b :: bs) :: src)) with (RChunk (b :: bs) :: calm src) in *. cbn [length] in Hf'. destruct f' as [|f']; [lia|]. rewrite !loop_fill.
      destruct (turn_cases (b :: bs) s ob (pre_more _ _ _ Hp)) as [(s' & P & E)|(buf' & s' & eof' & ob' & x & Hx & E)]; rewrite !E.
      * specialize (IH s' ob f f' P ltac:(lia) ltac:(lia)). unfold next_rel in *.
        destruct (decode_next_loop L f (mk_rd L [] src s' false) ob) as [[r1 ob1] x1]. apply settled_chunk. exact IH.
      * unfold next_rel. cbn [rd_src]. apply settled_chunk, settled_now; [exact Hx|reflexivity].
    + rewrite loop_err. apply settled_pause; [reflexivity|exact Hev|]. split; [reflexivity|]. apply (R src). exact Hf'.
Qed.

(** [decode_next]. *)
Lemma next_settled r ob : rd_wf L r -> Forall fitful (rd_src L r) ->
  next_rel r ob (decode_next L r ob) (decode_next L (calm_rd r) ob).
Proof.
  destruct r as [buf src s eof]. unfold calm_rd at 1, decode_next. cbn [rd_buf rd_src rd_dec rd_eof]. intros [W1 W2] F. cbn in W1, W2.
  destruct eof.
  { rewrite !loop_eof. apply settled_now; reflexivity. }
  destruct (W2 eq_refl) as [Z T]. assert (P : pre L s buf) by (split; [exact W1|split; [exact Z|exact T]]).
  destruct buf as [|b bs].
  - apply loop_settled; [exact F|exact P|lia|lia].
  - replace (length src + 2)%nat with (S (length src + 1)) by lia. replace (length (calm src) + 2)%nat with (S (length (calm src) + 1)) by lia.
    rewrite !loop_turn.
    destruct (turn_cases (b :: bs) s ob P) as [(s' & P' & E)|(buf' & s' & eof' & ob' & x & Hx & E)]; rewrite !E.
    + change (rd_src L (mk_rd L (b :: bs) src s false)) with (rd_src L (mk_rd L [] src s' false)).
      apply (loop_settled src F s' ob (length src + 1) (length (calm src) + 1) P'); lia.
    + unfold next_rel. cbn [rd_src]. apply settled_now; [exact Hx|reflexivity].
Qed.

(** [decode_next_bytes], on a slice. *)
Lemma calm_good r : rd_good L r -> rd_good L (calm_rd r).
Proof.
  intros (W & [B1 B2] & K). split; [exact W|]. split; [|exact K]. split; [exact B1|].
  unfold calm_rd, src_ok, calm in *. cbn [rd_src]. apply Forall_forall. intros e He. apply filter_In in He.
  eapply Forall_forall in B2; [exact B2|apply He].
Qed.
Lemma bytes_settled r s : rd_good L r -> Forall fitful (rd_src L r) ->
  let '(r1, ob1, x) := decode_next_bytes L r (OSlice s) in
  settled (rd_src L r) (rd_src L r1) x
    (ob1 = OSlice s /\ decode_next_bytes L (calm_rd r) (OSlice s) = decode_next_bytes L (calm_rd r1) (OSlice s))
    (decode_next_bytes L (calm_rd r) (OSlice s) = (calm_rd r1, ob1, x)).
Proof.
  intros (W & _) F. unfold decode_next_bytes. pose proof (next_settled r (OSlice s) W F) as H. unfold next_rel in H.
  destruct (decode_next L r (OSlice s)) as [[r1 ob1] x].
  destruct x as [[[ | | | | |[ | | ]| | | | | | ]|]|e| |]; (eapply settled_impl; [| | |exact H]; [reflexivity|intros _ [E1 E2]; split; [exact E1|rewrite E2; reflexivity]|intros E; rewrite E; reflexivity]).
Qed.

Section Fill.
Variable o : options.
Definition mine (r : rd) : Prop := rd_good L r /\ sd_opts L (rd_dec L r) = o.
Lemma calm_mine r : mine r -> mine (calm_rd r).
Proof. intros [G E]. split; [apply calm_good; exact G|exact E]. Qed.
Lemma mine_next r s r' ob' x : mine r -> decode_next_bytes L r (OSlice s) = (r', ob', x) ->
  mine r' /\ (exists s', ob' = OSlice s' /\ length s' = length s) /\
  match x with Ok n => (n <= length s)%nat | Err _ => True | Panic | Hang => False end.
Proof. apply (decode_next_bytes_ok L safe umax Humax). Qed.

Notation fill := (fill_loop rd (decode_next_bytes L)).

(** The fuel does not matter. *)
Lemma fill_fuel f : forall fuel fuel' r c done buf, mine r -> (length buf < fuel)%nat -> (length buf < fuel')%nat ->
  fill fuel r c f done buf = fill fuel' r c f done buf.
Proof.
  induction fuel as [|fuel IH]; intros fuel' r c done buf Hr Hf Hf'; [lia|]. destruct fuel' as [|fuel']; [lia|].
  cbn [fill_loop]. destruct (cv_color c).
  - destruct (Nat.eqb_spec (length buf / 4) 0) as [_|_]; [reflexivity|]. cbn zeta.
    match goal with |- context [decode_next_bytes L r ?b] => destruct (decode_next_bytes L r b) as [[r1 ob] y] eqn:E end.
    apply mine_next in E; [|exact Hr]. destruct E as (Hr1 & _).
    destruct y as [[|n]|e| |]; try reflexivity.
    destruct (Nat.ltb_spec (length buf) (S n * 4)) as [_|Hl]; [reflexivity|].
    destruct (is_nil (skipn (S n * 4) buf)); [reflexivity|]. apply IH; [exact Hr1| |]; rewrite skipn_length; lia.
  - destruct (decode_next_bytes L r (OSlice buf)) as [[r1 ob] y] eqn:E.
    apply mine_next in E; [|exact Hr]. destruct E as (Hr1 & (s' & -> & Hs') & _). cbn [obuf_bytes].
    destruct y as [[|n]|e| |]; try reflexivity.
    destruct (Nat.ltb_spec (length s') (S n)) as [_|Hl]; [reflexivity|]. cbn zeta.
    destruct (is_nil (skipn (S n) s')); [reflexivity|]. apply IH; [exact Hr1| |]; rewrite skipn_length; lia.
Qed.

(** What is behind the slice is only carried along. *)
Lemma fill_done f : forall fuel r c done buf, fill fuel r c f done buf =
  let '(r1, c1, b1, x) := fill fuel r c f [] buf in (r1, c1, done ++ b1, x).
Proof.
  induction fuel as [|fuel IH]; intros r c done buf; [reflexivity|]. cbn [fill_loop]. destruct (cv_color c).
  - destruct (length buf / 4 =? 0)%nat; [reflexivity|]. cbn zeta.
    match goal with |- context [decode_next_bytes L r ?b] => destruct (decode_next_bytes L r b) as [[r1 ob] y] end.
    destruct y as [[|n]|e| |]; try reflexivity.
    destruct (length buf <? S n * 4)%nat; [reflexivity|].
    destruct (is_nil (skipn (S n * 4) buf)); [cbn [app]; now rewrite <- app_assoc|]. rewrite IH. cbn [app].
    match goal with |- context [fill fuel r1 ?c1 f ?d ?b] => match d with context [expand] => rewrite (IH r1 c1 d b) end end.
    match goal with |- context [fill fuel r1 ?c1 f [] ?b] => destruct (fill fuel r1 c1 f [] b) as [[[r2 c2] b2] x2] end.
    now rewrite <- app_assoc.
  - destruct (decode_next_bytes L r (OSlice buf)) as [[r1 ob] y].
    destruct y as [[|n]|e| |]; try reflexivity.
    destruct (length (obuf_bytes ob) <? S n)%nat; [reflexivity|]. cbn zeta.
    destruct (is_nil (skipn (S n) (obuf_bytes ob))); [cbn [app]; now rewrite <- app_assoc|]. rewrite IH. cbn [app].
    rewrite (IH r1 c (firstn (S n) (obuf_bytes ob))).
    destruct (fill fuel r1 c f [] _) as [[[r2 c2] b2] x2]. now rewrite <- app_assoc.
Qed.

Definition bpp (c : color_output) : nat := match c with CRgba => 4 | CIndexed => 1 end.
Lemma fill_settled f : forall fuel fuel' r c done buf, mine r -> Forall fitful (rd_src L r) ->
  (length buf < fuel)%nat -> (length buf < fuel')%nat ->
  let '(r1, c1, b1, x) := fill fuel r c f done buf in
  settled (rd_src L r) (rd_src L r1) x
    (mine r1 /\ exists q rest, b1 = done ++ q ++ rest /\
     (length q + length rest = length buf)%nat /\ (q = [] \/ rest <> []) /\ (length q mod bpp (cv_color c) = 0)%nat /\
     forall fuel1, (length rest < fuel1)%nat -> fill fuel' (calm_rd r) c f done buf = fill fuel1 (calm_rd r1) c1 f (done ++ q) rest)
    (fill fuel' (calm_rd r) c f done buf = (calm_rd r1, c1, b1, x)).
Proof.
  induction fuel as [|fuel IH]; intros fuel' r c done buf Hr F Hf Hf'; [lia|]. destruct fuel' as [|fuel']; [lia|].
  cbn [fill_loop]. destruct (cv_color c) eqn:Ecol.
  - destruct (Nat.eqb_spec (length buf / 4) 0) as [Ez|Ez]; [apply settled_now; reflexivity|].
    cbn zeta. set (size := (length buf / 4)%nat) in *.
    set (scratch := if (length (cv_buffer c) <? size)%nat then grow (cv_buffer c) size else cv_buffer c).
    assert (Hsc : (size <= length scratch)%nat).
    { unfold scratch. destruct (Nat.ltb_spec (length (cv_buffer c)) size); [rewrite grow_length; lia|lia]. }
    pose proof (bytes_settled r (firstn size scratch) (proj1 Hr) F) as H.
    destruct (decode_next_bytes L r (OSlice (firstn size scratch))) as [[r1 ob1] x] eqn:E.
    apply mine_next in E; [|exact Hr]. destruct E as (Hr1 & (s' & -> & Hs') & Hn). cbn [obuf_bytes].
    set (c1 := with_cbuf c (s' ++ skipn size scratch)).
    assert (Ec1 : cv_color c1 = CRgba) by exact Ecol.
    destruct x as [[|n]|e| |]; try solve [eapply settled_impl; [| | |exact H]; [reflexivity|discriminate|intros E2; rewrite E2; reflexivity]].
    + destruct (Nat.ltb_spec (length buf) (S n * 4)) as [Hl|Hl].
      { eapply settled_impl; [| | |exact H]; [reflexivity|discriminate|]. intros E2. rewrite E2. cbn [obuf_bytes].
        destruct (Nat.ltb_spec (length buf) (S n * 4)); [reflexivity|lia]. }
      match goal with |- context [expand ?a ?b ?is ?cells] => set (px := expand a b is cells) end.
      assert (Hpx : length px = (S n * 4)%nat).
      { unfold px. rewrite firstn_length in Hs'. rewrite firstn_length in Hn. rewrite expand_length; [|rewrite !firstn_length, app_length; lia]. rewrite firstn_length. lia. }
      assert (K : forall z, decode_next_bytes L (calm_rd r) (OSlice (firstn size scratch)) = (calm_rd r1, OSlice s', Ok (S n)) ->
        z = (if is_nil (skipn (S n * 4) buf) then (calm_rd r1, c1, (done ++ px) ++ skipn (S n * 4) buf, Ok true) else fill fuel' (calm_rd r1) c1 f (done ++ px) (skipn (S n * 4) buf)) ->
        (let '(x1, ob, r0) := decode_next_bytes L (calm_rd r) (OSlice (firstn size scratch)) in
          match r0 with
          | Ok O => (x1, with_cbuf c (obuf_bytes ob ++ skipn size scratch), done ++ buf, Ok false)
          | Ok (S _ as n0) => if (length buf <? n0 * 4)%nat then (x1, with_cbuf c (obuf_bytes ob ++ skipn size scratch), done ++ buf, Panic)
             else if is_nil (skipn (n0 * 4) buf)
               then (x1, with_cbuf c (obuf_bytes ob ++ skipn size scratch),
                     (done ++ expand (effective_palette (with_cbuf c (obuf_bytes ob ++ skipn size scratch)) f) (f_transparent f)
                        (firstn n0 (obuf_bytes ob ++ skipn size scratch)) (firstn (n0 * 4) buf)) ++ skipn (n0 * 4) buf, Ok true)
               else fill fuel' x1 (with_cbuf c (obuf_bytes ob ++ skipn size scratch)) f
                     (done ++ expand (effective_palette (with_cbuf c (obuf_bytes ob ++ skipn size scratch)) f) (f_transparent f)
                        (firstn n0 (obuf_bytes ob ++ skipn size scratch)) (firstn (n0 * 4) buf)) (skipn (n0 * 4) buf)
          | Err e => (x1, with_cbuf c (obuf_bytes ob ++ skipn size scratch), done ++ buf, Err e)
          | Panic => (x1, with_cbuf c (obuf_bytes ob ++ skipn size scratch), done ++ buf, Panic)
          | Hang => (x1, with_cbuf c (obuf_bytes ob ++ skipn size scratch), done ++ buf, Hang)
          end) = z).
      { intros z E2 ->. rewrite E2. cbn [obuf_bytes]. destruct (Nat.ltb_spec (length buf) (S n * 4)); [lia|reflexivity]. }
      destruct (is_nil (skipn (S n * 4) buf)) eqn:En.
      { eapply settled_impl; [| | |exact H]; [reflexivity|discriminate|]. intros E2. apply K; [exact E2|reflexivity]. }
      pose proof (settled_src _ _ _ _ _ H F) as F1.
      specialize (IH fuel' r1 c1 (done ++ px) (skipn (S n * 4) buf) Hr1 F1 ltac:(rewrite skipn_length; lia) ltac:(rewrite skipn_length; lia)).
      destruct (fill fuel r1 c1 f (done ++ px) (skipn (S n * 4) buf)) as [[[r2 c2] b2] x2].
      eapply settled_then; [| exact H| | |exact IH]; [reflexivity| |].
      * intros E2 (A2 & q & rest & A1 & A5 & A6 & A7 & A8). split; [exact A2|]. exists (px ++ q), rest.
        split; [rewrite A1, <- !app_assoc; reflexivity|]. rewrite skipn_length in A5. rewrite Ec1 in A7.
        split; [rewrite app_length; lia|]. split.
        { right. destruct A6 as [->|A6]; [|exact A6]. cbn [length] in A5. intros ->. cbn [length] in A5.
          assert (Hks : length (skipn (S n * 4) buf) <> 0%nat) by (destruct (skipn (S n * 4) buf); discriminate). rewrite skipn_length in Hks. lia. }
        split; [unfold bpp in *; rewrite app_length, Hpx, Nat.add_comm, Nat.mod_add; [exact A7|lia]|].
        intros fuel1 Hf1. apply K; [exact E2|]. rewrite (A8 fuel1 Hf1), <- app_assoc. reflexivity.
      * intros E2 A. apply K; [exact E2|]. rewrite A. reflexivity.
    + eapply settled_impl; [| | |exact H]; [reflexivity| |intros E2; rewrite E2; reflexivity].
      intros _ [[= ->] Ec]. split; [exact Hr1|]. exists [], buf. unfold c1. rewrite firstn_skipn. cbn [app].
      split; [reflexivity|]. split; [reflexivity|]. split; [left; reflexivity|]. split; [reflexivity|].
      intros fuel1 Hf1. rewrite app_nil_r. transitivity (fill (S fuel') (calm_rd r1) (with_cbuf c scratch) f done buf).
      * cbn [fill_loop cv_color with_cbuf cv_buffer]. rewrite Ecol. fold size.
        replace (length scratch <? size)%nat with false by (symmetry; apply Nat.ltb_ge; exact Hsc).
        destruct (Nat.eqb_spec size 0) as [E0|_]; [contradiction|]. cbn zeta. rewrite Ec.
        destruct (decode_next_bytes L (calm_rd r1) (OSlice (firstn size scratch))) as [[r2 ob2] y]. reflexivity.
      * apply fill_fuel; [apply calm_mine; exact Hr1|lia|exact Hf1].
  - pose proof (bytes_settled r buf (proj1 Hr) F) as H.
    destruct (decode_next_bytes L r (OSlice buf)) as [[r1 ob1] x] eqn:E.
    apply mine_next in E; [|exact Hr]. destruct E as (Hr1 & (s' & -> & Hs') & Hn). cbn [obuf_bytes].
    destruct x as [[|n]|e| |]; try solve [eapply settled_impl; [| | |exact H]; [reflexivity|discriminate|intros E2; rewrite E2; reflexivity]].
    + destruct (Nat.ltb_spec (length s') (S n)) as [Hl|Hl].
      { eapply settled_impl; [| | |exact H]; [reflexivity|discriminate|]. intros E2. rewrite E2. cbn [obuf_bytes].
        destruct (Nat.ltb_spec (length s') (S n)); [reflexivity|lia]. }
      cbn zeta.
      assert (Hpx : length (firstn (S n) s') = S n) by (rewrite firstn_length; lia).
      assert (K : forall z, decode_next_bytes L (calm_rd r) (OSlice buf) = (calm_rd r1, OSlice s', Ok (S n)) ->
        z = (if is_nil (skipn (S n) s') then (calm_rd r1, c, (done ++ firstn (S n) s') ++ skipn (S n) s', Ok true) else fill fuel' (calm_rd r1) c f (done ++ firstn (S n) s') (skipn (S n) s')) ->
        (let '(x1, ob, r0) := decode_next_bytes L (calm_rd r) (OSlice buf) in
          match r0 with
          | Ok O => (x1, c, done ++ obuf_bytes ob, Ok false)
          | Ok (S _ as n0) => if (length (obuf_bytes ob) <? n0)%nat then (x1, c, done ++ obuf_bytes ob, Panic)
             else if is_nil (skipn n0 (obuf_bytes ob))
               then (x1, c, (done ++ firstn n0 (obuf_bytes ob)) ++ skipn n0 (obuf_bytes ob), Ok true)
               else fill fuel' x1 c f (done ++ firstn n0 (obuf_bytes ob)) (skipn n0 (obuf_bytes ob))
          | Err e => (x1, c, done ++ obuf_bytes ob, Err e)
          | Panic => (x1, c, done ++ obuf_bytes ob, Panic)
          | Hang => (x1, c, done ++ obuf_bytes ob, Hang)
          end) = z).
      { intros z E2 ->. rewrite E2. cbn [obuf_bytes]. destruct (Nat.ltb_spec (length s') (S n)); [lia|reflexivity]. }
      set (px := firstn (S n) s') in *.
      destruct (is_nil (skipn (S n) s')) eqn:En.
      { eapply settled_impl; [| | |exact H]; [reflexivity|discriminate|]. intros E2. apply K; [exact E2|reflexivity]. }
      pose proof (settled_src _ _ _ _ _ H F) as F1.
      assert (Hks : length (skipn (S n) s') <> 0%nat) by (destruct (skipn (S n) s'); discriminate).
      specialize (IH fuel' r1 c (done ++ px) (skipn (S n) s') Hr1 F1 ltac:(rewrite skipn_length; lia) ltac:(rewrite skipn_length; lia)).
      destruct (fill fuel r1 c f (done ++ px) (skipn (S n) s')) as [[[r2 c2] b2] x2].
      eapply settled_then; [| exact H| | |exact IH]; [reflexivity| |].
      * intros E2 (A2 & q & rest & A1 & A5 & A6 & A7 & A8). split; [exact A2|]. exists (px ++ q), rest.
        split; [rewrite A1, <- !app_assoc; reflexivity|]. rewrite skipn_length in A5, Hks.
        split; [rewrite app_length; lia|]. split.
        { right. destruct A6 as [->|A6]; [|exact A6]. cbn [length] in A5. intros ->. cbn [length] in A5. lia. }
        split; [apply Nat.mod_1_r|].
        intros fuel1 Hf1. apply K; [exact E2|]. rewrite (A8 fuel1 Hf1), <- app_assoc. reflexivity.
      * intros E2 A. apply K; [exact E2|]. rewrite A. reflexivity.
    + eapply settled_impl; [| | |exact H]; [reflexivity| |intros E2; rewrite E2; reflexivity].
      intros _ [[= ->] Ec]. split; [exact Hr1|]. exists [], buf. cbn [app].
      split; [reflexivity|]. split; [reflexivity|]. split; [left; reflexivity|]. split; [reflexivity|].
      intros fuel1 Hf1. rewrite app_nil_r. transitivity (fill (S fuel') (calm_rd r1) c f done buf).
      * cbn [fill_loop]. rewrite Ecol, Ec. reflexivity.
      * apply fill_fuel; [apply calm_mine; exact Hr1|lia|exact Hf1].
Qed.
End Fill.

(** [fill_buffer]. *)
Lemma calm_dec_good d : dcd_good L d -> dcd_good L (calm_dec d).
Proof. intros (R & H). split; [apply calm_good; exact R|exact H]. Qed.

Lemma fill_resume d buf : dcd_good L d -> Forall fitful (rd_src L (dc_rd L d)) ->
  let '(d1, b1, x) := fill_buffer L d buf in
  settled (rd_src L (dc_rd L d)) (rd_src L (dc_rd L d1)) x
    (exists q rest, b1 = q ++ rest /\ (length q + length rest = length buf)%nat /\ (q = [] \/ rest <> []) /\
       (length q mod bpp (o_color (dopts L d)) = 0)%nat /\
       fill_buffer L (calm_dec d) buf = let '(d2, b, y) := fill_buffer L (calm_dec d1) rest in (d2, q ++ b, y))
    (fill_buffer L (calm_dec d) buf = (calm_dec d1, b1, x)).
Proof.
  intros Hd F. pose proof Hd as (Hr & _ & _ & Hco & _). unfold fill_buffer, conv_fill_buffer.
  change (dc_rd L (calm_dec d)) with (calm_rd (dc_rd L d)). change (dc_conv L (calm_dec d)) with (dc_conv L d).
  change (dc_cur L (calm_dec d)) with (dc_cur L d).
  pose proof (fill_settled (dopts L d) (dc_cur L d) (S (length buf)) (S (length buf)) (dc_rd L d) (dc_conv L d) [] buf
    (conj Hr eq_refl) F ltac:(lia) ltac:(lia)) as H.
  destruct (fill_loop rd (decode_next_bytes L) (S (length buf)) (dc_rd L d) (dc_conv L d) (dc_cur L d) [] buf) as [[[r1 c1] b1] x].
  eapply settled_impl; [| | |exact H]; [reflexivity| |].
  - intros _ (A2 & q & rest & A1 & A5 & A6 & A7 & A8). exists q, rest. split; [exact A1|].
    split; [exact A5|]. split; [exact A6|]. split; [unfold dopts; rewrite <- Hco; exact A7|].
    rewrite (A8 (S (length rest)) ltac:(lia)), fill_done. cbn [app]. destruct d as [r c bg rep cur ty].
    cbn [dc_rd dc_conv dc_cur set_conv set_rd calm_dec calm_rd] in *.
    destruct (fill_loop _ _ _ _ c1 cur [] rest) as [[[r2 c2] b2] x2]. reflexivity.
  - intros E. rewrite E. destruct d; reflexivity.
Qed.

(** [next_frame_info]. *)
Lemma info_more f : forall d d' x k, next_frame_info_loop L f d = (d', x) -> x <> Hang -> next_frame_info_loop L (f + k) d = (d', x).
Proof.
  induction f as [|f IH]; intros d d' x k H Hx; cbn [next_frame_info_loop Nat.add] in *; [congruence|].
  destruct (decode_next L (dc_rd L d) ONone) as [[r ob] y]. destruct y as [[ev|]|e| |]; try exact H.
  destruct ev; try exact H; apply IH; assumption.
Qed.
Lemma info_same f f' d : returns (snd (next_frame_info_loop L f d)) -> returns (snd (next_frame_info_loop L f' d)) ->
  next_frame_info_loop L f d = next_frame_info_loop L f' d.
Proof.
  intros A B. destruct (next_frame_info_loop L f d) as [d1 x] eqn:E. destruct (next_frame_info_loop L f' d) as [d2 y] eqn:E'. cbn [snd] in *.
  destruct (Nat.le_ge_cases f f') as [H|H].
  - apply (info_more _ _ _ _ (f' - f)) in E; [|intros ->; exact A]. replace (f + (f' - f))%nat with f' in E by lia. congruence.
  - apply (info_more _ _ _ _ (f - f')) in E'; [|intros ->; exact B]. replace (f' + (f - f'))%nat with f in E' by lia. congruence.
Qed.
Lemma calm_rest r : rd_rest L (calm_rd r) = rd_rest L r.
Proof.
  unfold rd_rest, calm_rd. cbn [rd_buf rd_src]. f_equal. induction (rd_src L r) as [|[[|b bs]|k] src IH]; [reflexivity|exact IH| |exact IH].
  change (calm (RChunk (b :: bs) :: src)) with (RChunk (b :: bs) :: calm src). cbn [map concat]. f_equal. exact IH.
Qed.

Lemma info_settled fuel : forall d, dcd_good L d -> Forall fitful (rd_src L (dc_rd L d)) ->
  let '(d1, x) := next_frame_info_loop L fuel d in
  settled (rd_src L (dc_rd L d)) (rd_src L (dc_rd L d1)) x
    (dcd_good L d1 /\ exists f1, next_frame_info_loop L fuel (calm_dec d) = next_frame_info_loop L f1 (calm_dec d1))
    (next_frame_info_loop L fuel (calm_dec d) = (calm_dec d1, x)).
Proof.
  induction fuel as [|fuel IH]; intros d Hd F; cbn [next_frame_info_loop].
  { apply settled_now; reflexivity. }
  change (dc_rd L (calm_dec d)) with (calm_rd (dc_rd L d)). pose proof Hd as (Hr & _).
  pose proof (next_settled (dc_rd L d) ONone (proj1 Hr) F) as H. unfold next_rel in H.
  destruct (decode_next L (dc_rd L d) ONone) as [[r1 ob1] x] eqn:E.
  destruct (decode_next_all L safe _ _ _ _ _ Hr E) as (Hr1 & (_ & Ho & _) & _ & Hm).
  pose proof (set_rd_good L d r1 Hd Hr1 Ho) as Hd1. pose proof (settled_src _ _ _ _ _ H F) as F1.
  specialize (IH (set_rd L d r1) Hd1 F1).
  destruct x as [[ev|]|e| |].
  - destruct ev; try (destruct (next_frame_info_loop L fuel (set_rd L d r1)) as [d2 x2];
      eapply settled_then; [| exact H| | |exact IH]; [reflexivity| |];
      [intros Ec (A1 & f1 & A2); split; [exact A1|]; exists f1; rewrite Ec; exact A2|intros Ec A; rewrite Ec; exact A]).
    cbn [frame_take snd].
    destruct (sd_current L (rd_dec L r1)) as [f|] eqn:Ef.
    + cbn [f_palette dc_conv set_cur set_rd].
      destruct (f_palette f) eqn:Ep; [|destruct (cv_gpal (dc_conv L d)) eqn:Eg];
        (eapply settled_impl; [| | |exact H]; [reflexivity|discriminate|]; intros Ec; rewrite Ec; cbn [rd_dec calm_rd]; rewrite Ef;
         cbn [frame_take f_palette dc_conv set_cur set_rd calm_dec]; rewrite Ep; try rewrite Eg; reflexivity).
    + eapply settled_impl; [| | |exact H]; [reflexivity|discriminate|]. intros Ec. rewrite Ec. cbn [rd_dec calm_rd]. rewrite Ef. reflexivity.
  - eapply settled_impl; [| | |exact H]; [reflexivity|discriminate|]. intros Ec. rewrite Ec. reflexivity.
  - eapply settled_impl; [| | |exact H]; [reflexivity| |intros Ec; rewrite Ec; reflexivity].
    intros _ [_ Ec]. split; [exact Hd1|]. exists (S fuel). cbn [next_frame_info_loop]. rewrite Ec.
    change (dc_rd L (calm_dec (set_rd L d r1))) with (calm_rd r1).
    destruct (decode_next L (calm_rd r1) ONone) as [[r2 ob2] y]. reflexivity.
  - eapply settled_impl; [| | |exact H]; [reflexivity|discriminate|]. intros Ec. rewrite Ec. reflexivity.
  - eapply settled_impl; [| | |exact H]; [reflexivity|discriminate|]. intros Ec. rewrite Ec. reflexivity.
Qed.

Lemma info_resume d : dcd_good L d -> Forall fitful (rd_src L (dc_rd L d)) ->
  let '(d1, x) := next_frame_info L d in
  settled (rd_src L (dc_rd L d)) (rd_src L (dc_rd L d1)) x
    (next_frame_info L (calm_dec d) = next_frame_info L (calm_dec d1))
    (next_frame_info L (calm_dec d) = (calm_dec d1, x)).
Proof.
  intros Hd F. assert (Ef : ev_fuel L (dc_rd L (calm_dec d)) = ev_fuel L (dc_rd L d)).
  { unfold ev_fuel. change (dc_rd L (calm_dec d)) with (calm_rd (dc_rd L d)). now rewrite calm_rest. }
  assert (R : forall d0, dcd_good L d0 -> returns (snd (next_frame_info L d0))).
  { intros d0 H0. destruct (next_frame_info L d0) as [d2 x2] eqn:E. apply (next_frame_info_returns L safe umax Humax) in E; [|exact H0]. apply E. }
  pose proof (info_settled (ev_fuel L (dc_rd L d)) d Hd F) as H. fold (next_frame_info L d) in H.
  rewrite <- Ef in H. fold (next_frame_info L (calm_dec d)) in H.
  destruct (next_frame_info L d) as [d1 x]. eapply settled_impl; [| | |exact H]; [reflexivity| |exact (fun E => E)].
  intros _ (A2 & f1 & A4). rewrite A4. unfold next_frame_info. apply info_same; [|apply R, calm_dec_good, A2]. rewrite <- A4. apply R, calm_dec_good, Hd.
Qed.

(** [read_info]: it ends at the first pause, and without one it does not see the difference. *)
Lemma init_calm fuel : forall d d1, rd_good L (dc_rd L d) -> Forall fitful (rd_src L (dc_rd L d)) -> init_loop L fuel d = Ok d1 ->
  init_loop L fuel (calm_dec d) = Ok (calm_dec d1) /\ exists p, rd_src L (dc_rd L d) = p ++ rd_src L (dc_rd L d1).
Proof.
  induction fuel as [|fuel IH]; intros d d1 Hr F; cbn [init_loop]; [discriminate|].
  change (dc_rd L (calm_dec d)) with (calm_rd (dc_rd L d)).
  pose proof (next_settled (dc_rd L d) ONone (proj1 Hr) F) as H. unfold next_rel in H.
  destruct (decode_next L (dc_rd L d) ONone) as [[r1 ob1] x] eqn:E.
  destruct (decode_next_all L safe _ _ _ _ _ Hr E) as (Hr1 & _). pose proof (settled_src _ _ _ _ _ H F) as F1.
  destruct x as [[ev|]|e| |]; try discriminate.
  destruct H as (p & Es & H2 & _ & H4). specialize (H4 (H2 eq_refl)). rewrite H4.
  change (set_rd L (calm_dec d) (calm_rd r1)) with (calm_dec (set_rd L d r1)).
  assert (K : forall d0, dc_rd L d0 = r1 -> init_loop L fuel d0 = Ok d1 ->
    init_loop L fuel (calm_dec d0) = Ok (calm_dec d1) /\ exists p, rd_src L (dc_rd L d) = p ++ rd_src L (dc_rd L d1)).
  { intros d0 E0 H0. rewrite <- E0 in Hr1, F1. destruct (IH d0 d1 Hr1 F1 H0) as [A [p2 B]]. split; [exact A|].
    exists (p ++ p2). rewrite Es, <- app_assoc, <- B, E0. reflexivity. }
  destruct ev; try (intros H; refine (K _ _ H); reflexivity).
  intros [= <-]. split.
  - f_equal. unfold fix_bg. cbn [dc_conv dc_bg set_rd calm_dec]. destruct (cv_gpal (dc_conv L d)); [|reflexivity]. destruct (_ <=? _); reflexivity.
  - exists p. rewrite Es. f_equal. unfold fix_bg. destruct (cv_gpal _); [|reflexivity]. destruct (_ <=? _); reflexivity.
Qed.
Lemma read_info_calm src o d : src_ok src -> Forall fitful src -> read_info L src o = Ok d ->
  read_info L (calm src) o = Ok (calm_dec d) /\ exists p, src = p ++ rd_src L (dc_rd L d).
Proof.
  intros Hs F H. unfold read_info in *.
  destruct (init_calm _ (with_no_init L src o) d (proj1 (with_no_init_good L src o Hs)) F H) as [A B].
  - split; [|exact B]. change (with_no_init L (calm src) o) with (calm_dec (with_no_init L src o)).
    change (dc_rd L (calm_dec (with_no_init L src o))) with (calm_rd (dc_rd L (with_no_init L src o))).
    unfold ev_fuel in *. rewrite calm_rest. exact A.
Qed.


(** What is left of the source of a decoder. *)
Lemma hist_src src o r : src_ok src -> Forall fitful src -> hist L src o r -> Forall fitful (rd_src L r).
Proof.
  intros Hs F.
  assert (K : forall r ob r' ob' x, hist L src o r -> Forall fitful (rd_src L r) -> decode_next L r ob = (r', ob', x) -> Forall fitful (rd_src L r')).
  { intros r0 ob r' ob' x Hr IH E. destruct (hist_good L safe src o Hs r0 Hr) as [(W & _) _].
    pose proof (next_settled r0 ob W IH) as H. unfold next_rel in H. rewrite E in H. exact (settled_src _ _ _ _ _ H IH). }
  induction 1 as [|r ob r' ob' x Hr IH E|r ob r' ob' t f Hr IH E Ef]; [exact F| |]; exact (K _ _ _ _ _ Hr IH E).
Qed.

(** A call, made again with what it left of its slice as long as it fails because of a pause, [n] more times at most. *)
Definition failed_io (y : dout) : bool :=
  match y with
  | OutBool (Err e) | OutInto _ (Err e) | OutFill _ (Err e) => pause e
  | _ => false
  end.
Definition once_more (op : dop) (y : dout) : dop :=
  match y with OutFill b _ => OpFill b | OutInto b _ => OpInto b | OutBool _ => op end.
Fixpoint persist (n : nat) (d : dcd) (op : dop) : dcd * dout :=
  let '(d1, y) := run_dop L umax d op in
  match n with
  | O => (d1, y)
  | S n' => if failed_io y then persist n' d1 (once_more op y) else (d1, y)
  end.
Fixpoint persist_all (n : nat) (d : dcd) (ops : list dop) : dcd * list dout :=
  match ops with
  | [] => (d, [])
  | op :: ops' =>
    let '(d1, y) := persist n d op in
    let '(d2, ys) := persist_all n d1 ops' in (d2, y :: ys)
  end.

(** Calls for the data of one pixel at a time, or for the next frame. *)
Definition by_pixel (c : color_output) (op : dop) : Prop :=
  match op with
  | OpInfo => True
  | OpFill buf => (length buf <= bpp c)%nat
  | _ => False
  end.

Lemma by_pixel_ok c op : by_pixel c op -> op_ok umax op.
Proof.
  destruct op; cbn; [exact (fun H => H)|easy|easy|]. intros H. assert (length buf <= 4)%nat by (destruct c; cbn [bpp] in H; lia).
  apply N.div_le_lower_bound; [lia|]. unfold len. lia.
Qed.

Lemma persist_calm n : forall d op d1 y, dcd_good L d -> alloc_ok L umax d -> Forall fitful (rd_src L (dc_rd L d)) -> (pauses (rd_src L (dc_rd L d)) <= n)%nat ->
  by_pixel (o_color (dopts L d)) op -> persist n d op = (d1, y) ->
  run_dop L umax (calm_dec d) op = (calm_dec d1, y) /\ dcd_good L d1 /\ dopts L d1 = dopts L d /\
  exists p, rd_src L (dc_rd L d) = p ++ rd_src L (dc_rd L d1).
Proof.
  assert (One : forall d op d1 y p, dcd_good L d -> alloc_ok L umax d -> by_pixel (o_color (dopts L d)) op -> run_dop L umax d op = (d1, y) ->
    rd_src L (dc_rd L d) = p ++ rd_src L (dc_rd L d1) -> run_dop L umax (calm_dec d) op = (calm_dec d1, y) ->
    run_dop L umax (calm_dec d) op = (calm_dec d1, y) /\ dcd_good L d1 /\ dopts L d1 = dopts L d /\
    exists p, rd_src L (dc_rd L d) = p ++ rd_src L (dc_rd L d1)).
  { intros d op d1 y p Hd Ha Hb E Es Ec.
    destruct (run_dop_returns L safe umax Humax d op d1 y Hd Ha (by_pixel_ok _ _ Hb) E) as (_ & Hd1 & [Ho _]). eauto. }
  assert (Step : forall d op d1 y, dcd_good L d -> Forall fitful (rd_src L (dc_rd L d)) -> by_pixel (o_color (dopts L d)) op ->
    run_dop L umax d op = (d1, y) -> exists p, rd_src L (dc_rd L d) = p ++ rd_src L (dc_rd L d1) /\
      (failed_io y = false -> pauses p = 0%nat) /\
      (failed_io y = true -> (pauses p = 1%nat \/ rd_src L (dc_rd L d1) = []) /\ by_pixel (o_color (dopts L d)) (once_more op y) /\
         run_dop L umax (calm_dec d) op = run_dop L umax (calm_dec d1) (once_more op y)) /\
      (pauses p = 0%nat -> run_dop L umax (calm_dec d) op = (calm_dec d1, y))).
  { intros d op d1 y Hd F Hb E. destruct op as [| |b|b]; [|destruct Hb|destruct Hb|]; cbn [run_dop] in *.
    - pose proof (info_resume d Hd F) as H. destruct (next_frame_info L d) as [d2 x]. injection E as <- <-.
      destruct H as (p & Es & H2 & H3 & H4). exists p. split; [exact Es|]. split; [intros X; apply H2; destruct x; exact X|]. split.
      + intros X. destruct H3 as [A B]; [destruct x; exact X|]. split; [exact A|]. split; [exact I|]. cbn [once_more]. cbn [run_dop]. rewrite B. reflexivity.
      + intros X. rewrite (H4 X). reflexivity.
    - pose proof (fill_resume d b Hd F) as H. destruct (fill_buffer L d b) as [[d2 b2] x]. injection E as <- <-.
      destruct H as (p & Es & H2 & H3 & H4). exists p. split; [exact Es|]. split; [intros X; apply H2; destruct x; exact X|]. split.
      + intros X. destruct H3 as [A (q & rest & -> & Hl & Hq & Hm & Ec)]; [destruct x; exact X|]. split; [exact A|].
        assert (q = []) as ->.
        { destruct Hq as [Hq|Hq]; [exact Hq|]. assert (length rest <> 0)%nat by (destruct rest; [congruence|discriminate]).
          destruct q; [reflexivity|exfalso]. cbn [by_pixel] in Hb. unfold bpp in *. destruct (o_color (dopts L d)); [|cbn in Hl; lia].
          apply Nat.mod_divides in Hm; [|lia]. destruct Hm as [m Hm]. cbn [length] in *. lia. }
        cbn [app length Nat.add once_more] in *. split; [cbn [by_pixel] in *; rewrite Hl; exact Hb|]. cbn [run_dop]. rewrite Ec.
        destruct (fill_buffer L (calm_dec d2) rest) as [[d4 b4] x4]. reflexivity.
      + intros X. rewrite (H4 X). reflexivity. }
  induction n as [|n IH]; intros d op d1 y Hd Ha F Hn Hb H.
  - cbn [persist] in H. destruct (run_dop L umax d op) as [d2 y2] eqn:E. injection H as -> ->.
    destruct (Step d op d1 y Hd F Hb E) as (p & Es & _ & _ & H4). rewrite Es, pauses_app in Hn. apply (One d op d1 y p); auto. apply H4. lia.
  - cbn [persist] in H. destruct (run_dop L umax d op) as [d2 y2] eqn:E.
    destruct (run_dop_returns L safe umax Humax d op d2 y2 Hd Ha (by_pixel_ok _ _ Hb) E) as (_ & Hd2 & [Ho2 _]).
    destruct (Step d op d2 y2 Hd F Hb E) as (p & Es & H2 & H3 & H4). destruct (failed_io y2).
    + destruct (H3 eq_refl) as (A & B & C). destruct (IH d2 (once_more op y2) d1 y Hd2) as (A1 & A2 & A3 & p2 & A4).
      * unfold alloc_ok. rewrite Ho2. exact Ha.
      * rewrite Es in F. apply Forall_app in F. apply F.
      * rewrite Es, pauses_app in Hn. destruct A as [A|A]; [lia|rewrite A; cbn; lia].
      * rewrite Ho2. exact B.
      * exact H.
      * split; [congruence|]. split; [exact A2|]. split; [congruence|]. exists (p ++ p2). rewrite Es, A4, app_assoc. reflexivity.
    + injection H as <- <-. apply (One d op d2 y2 p); auto.
Qed.

Lemma persist_all_calm n ops : forall d, dcd_good L d -> alloc_ok L umax d -> Forall fitful (rd_src L (dc_rd L d)) -> (pauses (rd_src L (dc_rd L d)) <= n)%nat ->
  Forall (by_pixel (o_color (dopts L d))) ops ->
  snd (persist_all n d ops) = snd (run_dops L umax (calm_dec d) ops).
Proof.
  induction ops as [|op ops IH]; intros d Hd Ha F Hn Hb; [reflexivity|]. cbn [persist_all run_dops].
  inversion Hb as [|x l Hb1 Hb2]; subst. destruct (persist n d op) as [d1 y] eqn:E.
  destruct (persist_calm n d op d1 y Hd Ha F Hn Hb1 E) as (A & B & C & p & D). rewrite A.
  specialize (IH d1 B). destruct (persist_all n d1 ops) as [d2 ys]. destruct (run_dops L umax (calm_dec d1) ops) as [d3 zs].
  cbn [snd] in *. f_equal. apply IH.
  - unfold alloc_ok. rewrite C. exact Ha.
  - rewrite D in F. apply Forall_app in F. apply F.
  - rewrite D, pauses_app in Hn. lia.
  - rewrite C. exact Hb2.
Qed.

Lemma persist_program src o d n ops : src_ok src -> limit_ok umax (o_limit o) -> Forall fitful src -> (pauses src <= n)%nat ->
  read_info L src o = Ok d -> Forall (by_pixel (o_color o)) ops ->
  exists d', read_info L (calm src) o = Ok d' /\ snd (persist_all n d ops) = snd (run_dops L umax d' ops).
Proof.
  intros Hs Hl F Hn Hd Hb. destruct (read_info_calm src o d Hs F Hd) as [A [p B]]. exists (calm_dec d). split; [exact A|].
  destruct (opened_good L umax safe Humax src o Hs d Hl (op_info L umax src o d Hd)) as (Hg & Ho & _).
  apply persist_all_calm; [exact Hg|unfold alloc_ok; rewrite Ho; exact Hl| | |rewrite Ho; exact Hb].
  - rewrite B in F. apply Forall_app in F. apply F.
  - rewrite B, pauses_app in Hn. lia.
Qed.

Lemma fill_resumes src o d : src_ok src -> limit_ok umax (o_limit o) -> Forall fitful src -> opened L umax src o d ->
  forall buf d1 b1 x, fill_buffer L d buf = (d1, b1, x) ->
  if paused x
  then exists k, (k = 0 \/ k < length buf)%nat /\ (k mod bpp (o_color o) = 0)%nat /\
     fill_buffer L (calm_dec d) buf = let '(d2, b, y) := fill_buffer L (calm_dec d1) (skipn k b1) in (d2, firstn k b1 ++ b, y)
  else fill_buffer L (calm_dec d) buf = (calm_dec d1, b1, x).
Proof.
  intros Hs Hl F Hd buf d1 b1 x H. destruct (opened_good L umax safe Humax src o Hs d Hl Hd) as (Hg & Ho & Hh).
  apply (hist_src src o _ Hs F) in Hh. pose proof (fill_resume d buf Hg Hh) as K. rewrite H in K. destruct K as (p & Es & H2 & H3 & H4).
  destruct (paused x).
  - destruct (H3 eq_refl) as [_ (q & rest & -> & Hn & Hq & Hm & Ec)]. exists (length q). split.
    { destruct Hq as [->|Hq]; [left; reflexivity|right]. destruct rest; [congruence|]. cbn [length] in Hn. lia. }
    split; [rewrite <- Ho; exact Hm|]. rewrite skipn_app, skipn_all, firstn_app, firstn_all, Nat.sub_diag. cbn [skipn firstn app].
    rewrite app_nil_r. exact Ec.
  - apply H4, H2. reflexivity.
Qed.
End Resume.
