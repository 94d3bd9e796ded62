(** The pixel converter applied to a data source that delivers a known stream of indices. *)
From Verif Require Import Base Common Lzw Encoder Stream Converter StreamInv SpecPixels Interlace ConvInv.
Open Scope nat_scope.

Lemma nth_map_seq {A} (g : nat -> A) n k d : k < n -> nth k (map g (seq 0 n)) d = g k.
Proof.
  intros H. rewrite nth_indep with (d' := g 0) by (rewrite map_length, seq_length; exact H).
  rewrite map_nth, seq_nth by exact H. reflexivity.
Qed.

(** ** Cells of a buffer *)
Definition cell (cs k : nat) (l : list N) : list N := firstn cs (skipn (cs * k) l).

Lemma cell_length cs k l : cs * S k <= length l -> length (cell cs k l) = cs.
Proof. intros H. unfold cell. rewrite firstn_length, skipn_length. lia. Qed.
Lemma cells_all cs n : forall l, length l = cs * n -> flat_map (fun k => cell cs k l) (seq 0 n) = l.
Proof.
  induction n as [|n IH]; intros l H.
  { destruct l; [reflexivity|cbn in H; lia]. }
  cbn [seq flat_map]. unfold cell at 1. rewrite Nat.mul_0_r. cbn [skipn].
  rewrite <- seq_shift, flat_map_concat_map, map_map, <- flat_map_concat_map.
  transitivity (firstn cs l ++ skipn cs l); [|apply firstn_skipn]. f_equal.
  etransitivity; [|apply (IH (skipn cs l)); rewrite skipn_length; lia].
  apply flat_map_ext. intros k. unfold cell. rewrite skipn_skipn. do 2 f_equal. lia.
Qed.
Lemma cells_eq cs n l m : length l = cs * n -> length m = cs * n ->
  (forall k, k < n -> cell cs k l = cell cs k m) -> l = m.
Proof.
  intros H1 H2 H. rewrite <- (cells_all cs n l H1), <- (cells_all cs n m H2).
  assert (G : forall s, (forall k, In k s -> k < n) ->
     flat_map (fun k => cell cs k l) s = flat_map (fun k => cell cs k m) s).
  { induction s as [|k s IH]; intros Hs; [reflexivity|]. cbn [flat_map]. rewrite H by (apply Hs; now left).
    f_equal. apply IH. intros. apply Hs. now right. }
  apply G. intros k Hk. apply in_seq in Hk. lia.
Qed.
Lemma cell_flat_map cs (g : nat -> list N) n : (forall k, k < n -> length (g k) = cs) ->
  length (flat_map g (seq 0 n)) = cs * n /\ forall k, k < n -> cell cs k (flat_map g (seq 0 n)) = g k.
Proof.
  revert g. induction n as [|n IH]; intros g H; [split; [cbn; lia|lia]|].
  cbn [seq flat_map]. rewrite <- seq_shift, flat_map_concat_map, map_map, <- flat_map_concat_map.
  destruct (IH (fun k => g (S k))) as [I1 I2]; [intros; apply H; lia|].
  pose proof (H 0 ltac:(lia)) as H0. split.
  - rewrite app_length, I1, H0. lia.
  - intros [|k] Hk.
    + unfold cell. rewrite Nat.mul_0_r. cbn [skipn]. rewrite firstn_app, H0, Nat.sub_diag.
      cbn [firstn]. rewrite app_nil_r, <- H0. apply firstn_all.
    + rewrite <- I2 by lia. unfold cell. rewrite skipn_app.
      rewrite (skipn_all2 (g 0)) by lia. cbn [app]. rewrite H0. do 2 f_equal. lia.
Qed.
Lemma cell_slice cs a m k l : k < m -> cell cs k (firstn (cs * m) (skipn (cs * a) l)) = cell cs (a + k) l.
Proof.
  intros H. unfold cell. rewrite skipn_firstn_comm, firstn_firstn, skipn_skipn.
  rewrite Nat.min_l by nia. do 2 f_equal. lia.
Qed.
Lemma cell_app1 cs k a b : cs * S k <= length a -> cell cs k (a ++ b) = cell cs k a.
Proof.
  intros H. unfold cell. rewrite skipn_app, firstn_app, skipn_length.
  replace (cs - (length a - cs * k)) with 0 by lia. cbn [firstn]. apply app_nil_r.
Qed.
Lemma cell_app2 cs k n a b : length a = cs * n -> cell cs (n + k) (a ++ b) = cell cs k b.
Proof.
  intros H. unfold cell. rewrite skipn_app, (skipn_all2 a) by nia. cbn [app].
  do 2 f_equal. lia.
Qed.

(** Replacing a row of cells. *)
Definition put (cs a : nat) (line buf : list N) : list N :=
  firstn (cs * a) buf ++ line ++ skipn (length line) (skipn (cs * a) buf).
Lemma put_length cs a m line buf : length line = cs * m -> cs * (a + m) <= length buf ->
  length (put cs a line buf) = length buf.
Proof. intros H1 H2. unfold put. rewrite !app_length, firstn_length, !skipn_length. lia. Qed.
Lemma put_cell cs a m line buf k : length line = cs * m -> cs * (a + m) <= length buf -> cs * S k <= length buf ->
  cell cs k (put cs a line buf) =
  if (a <=? k) && (k <? a + m) then cell cs (k - a) line else cell cs k buf.
Proof.
  intros H1 H2 H3. unfold put.
  assert (Hf : length (firstn (cs * a) buf) = cs * a) by (rewrite firstn_length; lia).
  destruct (Nat.leb_spec a k) as [Ha|Ha]; cbn [andb].
  - replace k with (a + (k - a)) at 1 by lia. rewrite (cell_app2 cs _ a) by exact Hf.
    destruct (Nat.ltb_spec k (a + m)) as [Hm|Hm].
    + apply cell_app1. nia.
    + replace (k - a) with (m + (k - a - m)) by lia. rewrite (cell_app2 cs _ m) by exact H1.
      unfold cell. rewrite !skipn_skipn. do 2 f_equal. nia.
  - rewrite cell_app1 by nia. unfold cell. rewrite skipn_firstn_comm, firstn_firstn.
    rewrite Nat.min_l by nia. reflexivity.
Qed.

Lemma put_behind cs a m line buf n : length line = cs * m -> cs * (a + m) <= length buf -> cs * (a + m) <= n ->
  skipn n (put cs a line buf) = skipn n buf.
Proof.
  intros H1 H2 H3. unfold put. rewrite skipn_app, (skipn_all2 (firstn _ _)) by (rewrite firstn_length; lia).
  rewrite firstn_length, skipn_app, (skipn_all2 line) by lia. cbn [app].
  rewrite !skipn_skipn. f_equal. lia.
Qed.

(** ** The converter *)
(** One output cell. *)
Definition cellf (c : conv) (f : frame) (idx : N) (old : list N) : list N :=
  match cv_color c with
  | CIndexed => [idx]
  | CRgba => expand_cell (effective_palette c f) (f_transparent f) idx old
  end.
Lemma cellf_length c f idx old : length old = px_bytes (cv_color c) -> length (cellf c f idx old) = px_bytes (cv_color c).
Proof.
  unfold cellf, expand_cell. destruct (cv_color c); cbn [px_bytes]; [|reflexivity].
  destruct (_ <=? _); [reflexivity|auto].
Qed.
Lemma cellf_settings c c' f idx old : same_settings c c' -> cellf c' f idx old = cellf c f idx old.
Proof. intros (_ & H1 & H2). unfold cellf, effective_palette. rewrite H1, H2. reflexivity. Qed.

Lemma expand_app pal t px1 : forall px2 cells, length px1 * 4 <= length cells ->
  expand pal t (px1 ++ px2) cells =
  expand pal t px1 (firstn (length px1 * 4) cells) ++ expand pal t px2 (skipn (length px1 * 4) cells).
Proof.
  induction px1 as [|i px1 IH]; intros px2 cells H; [reflexivity|].
  cbn [app length] in *. cbn [expand]. rewrite firstn_firstn.
  replace (Nat.min 4 (S (length px1) * 4)) with 4 by lia.
  rewrite <- app_assoc. f_equal. rewrite IH by (rewrite skipn_length; lia).
  rewrite skipn_firstn_comm, skipn_skipn.
  replace (S (length px1) * 4 - 4) with (length px1 * 4) by lia.
  replace (length px1 * 4 + 4) with (S (length px1) * 4) by lia. reflexivity.
Qed.
Lemma expand_cells pal t px : forall cells k, length cells = 4 * length px -> k < length px ->
  cell 4 k (expand pal t px cells) = expand_cell pal t (nth k px 0%N) (cell 4 k cells).
Proof.
  induction px as [|i px IH]; intros cells k H Hk; [cbn in Hk; lia|].
  cbn [length] in *. cbn [expand].
  assert (He : length (expand_cell pal t i (firstn 4 cells)) = 4 * 1).
  { unfold expand_cell. destruct (_ <=? _); [reflexivity|]. rewrite firstn_length. lia. }
  destruct k as [|k]; cbn [nth].
  - rewrite cell_app1 by lia. unfold cell at 1. rewrite Nat.mul_0_r. cbn [skipn].
    change (cell 4 0 cells) with (firstn 4 cells). rewrite firstn_all2; [reflexivity|lia].
  - change (S k) with (1 + k). rewrite (cell_app2 4 k 1) by exact He.
    rewrite IH by (rewrite ?skipn_length; lia). f_equal.
    unfold cell. rewrite skipn_skipn. do 2 f_equal. lia.
Qed.

Lemma expand_cell_rgba pal t idx old :
  expand_cell pal t idx old = match rgba_of pal t idx with Some c => c | None => old end.
Proof.
  unfold expand_cell, rgba_of. replace (3 * N.to_nat idx + 3) with (3 * S (N.to_nat idx)) by lia.
  rewrite Nat.add_0_r. destruct (_ <=? _); reflexivity.
Qed.
Lemma picture_length w h il px : w * h <= length px -> length (picture w h il px) = w * h.
Proof.
  intros H. unfold picture, deinterlace. destruct il; [rewrite map_length, seq_length|rewrite firstn_length]; lia.
Qed.
Lemma rgba_of_length pal t idx c : rgba_of pal t idx = Some c -> length c = 4.
Proof. unfold rgba_of. destruct (_ <=? _); [|discriminate]. intros [= <-]. reflexivity. Qed.

(** Cell-wise knowledge of a buffer gives the buffer. *)
Lemma shown_over_cells c pal t px old buf' :
  px_bytes c * length px <= length old -> length buf' = length old ->
  (forall k, k < length px -> cell (px_bytes c) k buf' =
     match c with CIndexed => [nth k px 0%N]
                | CRgba => expand_cell pal t (nth k px 0%N) (cell (px_bytes c) k old) end) ->
  skipn (px_bytes c * length px) buf' = skipn (px_bytes c * length px) old ->
  buf' = shown_over c pal t px old ++ skipn (px_bytes c * length px) old.
Proof.
  intros Hl Hb Hc Hs. rewrite <- Hs, <- (firstn_skipn (px_bytes c * length px) buf') at 1. f_equal.
  set (g := fun k => match c with CIndexed => [nth k px 0%N]
                | CRgba => expand_cell pal t (nth k px 0%N) (cell (px_bytes c) k old) end) in *.
  assert (Hg : forall k, k < length px -> length (g k) = px_bytes c).
  { intros k Hk. unfold g. rewrite <- Hc by exact Hk. apply cell_length. nia. }
  destruct (cell_flat_map (px_bytes c) g (length px) Hg) as [G1 G2].
  assert (E : shown_over c pal t px old = flat_map g (seq 0 (length px))).
  { unfold shown_over, g, paint. destruct c.
    - apply flat_map_ext. intros k. rewrite expand_cell_rgba. reflexivity.
    - clear. induction px as [|x px IH]; [reflexivity|]. cbn [length seq flat_map nth app].
      rewrite <- seq_shift, flat_map_concat_map, map_map, <- flat_map_concat_map. f_equal. exact IH. }
  rewrite E. apply (cells_eq (px_bytes c) (length px)); [rewrite firstn_length; lia|exact G1|].
  intros k Hk. rewrite G2 by exact Hk. unfold g. rewrite <- Hc by exact Hk.
  pose proof (cell_slice (px_bytes c) 0 (length px) k buf' Hk) as Q. rewrite Nat.mul_0_r in Q. exact Q.
Qed.

Lemma shown_zero c pal t px old : (forall k, k < length px -> cell 4 k old = [0;0;0;0]%N) \/ c = CIndexed ->
  shown_over c pal t px old = shown c pal t px.
Proof.
  intros H. unfold shown_over, shown, paint. destruct c; [|reflexivity]. destruct H as [H|]; [|discriminate].
  revert old H. induction px as [|x px IH]; intros old H; [reflexivity|].
  cbn [length seq flat_map nth]. rewrite <- seq_shift, flat_map_concat_map, map_map, <- flat_map_concat_map.
  f_equal.
  - destruct (rgba_of pal t x); [reflexivity|]. apply (H 0). cbn. lia.
  - rewrite <- (IH (skipn 4 old)).
    + apply flat_map_ext. intros k. cbn [nth]. destruct (rgba_of _ _ _); [reflexivity|].
      rewrite skipn_skipn. do 2 f_equal. lia.
    + intros k Hk. unfold cell in *. rewrite skipn_skipn. rewrite <- (H (S k)) by (cbn; lia). do 2 f_equal. lia.
Qed.
Lemma skipn_repeat {A} (x : A) n m : skipn n (repeat x m) = repeat x (m - n).
Proof. revert m. induction n as [|n IH]; intros [|m]; cbn; auto. Qed.
Lemma firstn_repeat {A} (x : A) n m : n <= m -> firstn n (repeat x m) = repeat x n.
Proof. revert m. induction n as [|n IH]; intros [|m] H; cbn; auto; [lia|]. f_equal. apply IH. lia. Qed.

Section Source.
Variable umax : N.
Variable St : Type.
Variable cb : St -> obuf -> St * obuf * dres nat.
(** [P x out]: the source in state [x] is going to deliver [out]. *)
Variable P : St -> list N -> Prop.
Hypothesis cb_px : forall x out sl, P x out -> out <> [] -> sl <> [] ->
  exists x' w out', cb x (OSlice sl) = (x', OSlice (w ++ skipn (length w) sl), Ok (length w)) /\
    w <> [] /\ length w <= length sl /\ out = w ++ out' /\ P x' out'.

Lemma fill_indexed f : forall fuel x c done buf out, cv_color c = CIndexed -> P x out -> buf <> [] ->
  length buf <= length out -> length buf < fuel ->
  exists x', fill_loop St cb fuel x c f done buf = (x', c, done ++ firstn (length buf) out, Ok true) /\
    P x' (skipn (length buf) out).
Proof.
  induction fuel as [|fuel IH]; intros x c done buf out Hc Hp Hb Hl Hf; [lia|].
  assert (Ho : out <> []) by (intros ->; destruct buf; [congruence|cbn in Hl; lia]).
  destruct (cb_px x out buf Hp Ho Hb) as (x1 & w & out' & E & Hw & Hwl & -> & Hp1).
  cbn [fill_loop]. rewrite Hc, E. cbn [obuf_bytes].
  destruct w as [|b w]; [congruence|]. remember (b :: w) as ww eqn:Eww.
  assert (Hn : length ww = S (length w)) by (subst; reflexivity).
  destruct (length ww) as [|m0] eqn:Em; [lia|]. cbv beta iota. rewrite <- Em in *. clear m0 Em Hn E.
  assert (Hn : 0 < length ww) by (subst ww; cbn; lia).
  assert (Hlen : length (ww ++ skipn (length ww) buf) = length buf).
  { rewrite app_length, skipn_length. lia. }
  rewrite Hlen. destruct (Nat.ltb_spec (length buf) (length ww)); [lia|].
  rewrite firstn_app, Nat.sub_diag, firstn_all, skipn_app, skipn_all, Nat.sub_diag.
  cbn [firstn skipn app]. rewrite app_nil_r.
  assert (Hlast : forall z, z = skipn (length ww) buf -> length z = length buf - length ww).
  { intros z ->. apply skipn_length. }
  destruct (is_nil (skipn (length ww) buf)) eqn:En.
  - apply is_nil_true in En. specialize (Hlast _ (eq_sym En)). cbn in Hlast. rewrite En.
    assert (El : length buf = length ww) by lia. rewrite El.
    rewrite firstn_app, Nat.sub_diag, firstn_all, skipn_app, skipn_all, Nat.sub_diag. cbn [firstn skipn app].
    rewrite !app_nil_r. exists x1. split; [reflexivity|exact Hp1].
  - apply is_nil_false in En. specialize (Hlast _ eq_refl). rewrite app_length in Hl.
    destruct (IH x1 c (done ++ ww) (skipn (length ww) buf) out' Hc Hp1 En ltac:(lia) ltac:(lia)) as (x2 & E2 & Hp2).
    rewrite E2, Hlast. exists x2. rewrite Hlast in Hp2. split.
    + rewrite <- app_assoc, firstn_app. rewrite (firstn_all2 ww) by lia. reflexivity.
    + rewrite skipn_app, (skipn_all2 ww) by lia. exact Hp2.
Qed.

Lemma fill_rgba f : forall fuel x c done buf out n, cv_color c = CRgba -> P x out -> 0 < n ->
  length buf = 4 * n -> n <= length out -> length buf < fuel ->
  exists x' c', fill_loop St cb fuel x c f done buf =
      (x', c', done ++ expand (effective_palette c f) (f_transparent f) (firstn n out) buf, Ok true) /\
    same_settings c c' /\ P x' (skipn n out).
Proof.
  induction fuel as [|fuel IH]; intros x c done buf out n Hc Hp Hn Hb Hl Hf; [lia|].
  cbn [fill_loop]. rewrite Hc.
  assert (Es : length buf / 4 = n) by (rewrite Hb, Nat.mul_comm; apply Nat.div_mul; lia).
  rewrite Es. destruct (Nat.eqb_spec n 0); [lia|]. cbn zeta.
  set (scratch := if length (cv_buffer c) <? n then grow (cv_buffer c) n else cv_buffer c).
  assert (Hs : n <= length scratch).
  { unfold scratch. destruct (Nat.ltb_spec (length (cv_buffer c)) n); [rewrite grow_length; lia|lia]. }
  assert (Hfs : length (firstn n scratch) = n) by (rewrite firstn_length; lia).
  assert (Ho : out <> []) by (intros ->; cbn in Hl; lia).
  assert (Hsl : firstn n scratch <> []) by (intros E; rewrite E in Hfs; cbn in Hfs; lia).
  destruct (cb_px x out _ Hp Ho Hsl) as (x1 & w & out' & E & Hw & Hwl & -> & Hp1).
  rewrite E. cbn [obuf_bytes]. rewrite Hfs in Hwl.
  destruct w as [|b w]; [congruence|]. remember (b :: w) as ww eqn:Eww.
  assert (Hwn : length ww = S (length w)) by (subst; reflexivity).
  destruct (length ww) as [|m0] eqn:Em; [lia|]. cbv beta iota zeta. rewrite <- Em in *. clear m0 Em Hwn E.
  assert (Hwn : 0 < length ww) by (subst ww; cbn; lia).
  match goal with |- context [with_cbuf c ?s] => set (scr1 := s) in * end.
  set (c1 := with_cbuf c scr1).
  assert (Hset : same_settings c c1) by (repeat split; reflexivity).
  assert (Ef1 : firstn (length ww) scr1 = ww).
  { unfold scr1. rewrite <- !app_assoc, firstn_app, Nat.sub_diag, firstn_all. cbn [firstn]. apply app_nil_r. }
  change (effective_palette c1 f) with (effective_palette c f). rewrite Ef1.
  destruct (Nat.ltb_spec (length buf) (length ww * 4)); [lia|].
  assert (Hlast : forall z, z = skipn (length ww * 4) buf -> length z = length buf - length ww * 4).
  { intros z ->. apply skipn_length. }
  rewrite app_length in Hl.
  destruct (is_nil (skipn (length ww * 4) buf)) eqn:En.
  - apply is_nil_true in En. specialize (Hlast _ (eq_sym En)). cbn in Hlast. rewrite En.
    assert (El : n = length ww) by lia. rewrite El.
    rewrite firstn_app, Nat.sub_diag, firstn_all, skipn_app, skipn_all, Nat.sub_diag. cbn [firstn skipn app].
    rewrite !app_nil_r. exists x1, c1. split; [|split; assumption].
    rewrite (firstn_all2 (n := length ww * 4)) by lia. reflexivity.
  - apply is_nil_false in En. specialize (Hlast _ eq_refl).
    assert (Hlt : length ww < n).
    { destruct (Nat.eq_dec (length ww) n) as [E1|E1]; [|lia]. exfalso. apply En.
      apply length_zero_iff_nil. lia. }
    match goal with |- context [fill_loop St cb fuel x1 c1 f ?d ?bb] =>
      destruct (IH x1 c1 d bb out' (n - length ww)) as (x2 & c2 & E2 & Hset2 & Hp2) end;
      [exact Hc|exact Hp1|lia|lia|lia|lia|].
    rewrite E2. exists x2, c2. split; [|split].
    + rewrite firstn_app, (firstn_all2 ww) by lia. rewrite expand_app by lia. rewrite <- app_assoc. reflexivity.
    + exact (same_settings_trans _ _ _ Hset Hset2).
    + rewrite skipn_app, (skipn_all2 ww) by lia. exact Hp2.
Qed.

(** [fill_buffer] on a buffer of [n] cells. *)
Lemma fill_spec x c f buf out n : P x out -> 0 < n -> length buf = px_bytes (cv_color c) * n -> n <= length out ->
  exists x' c' line, conv_fill_buffer St cb x c f buf = (x', c', line, Ok true) /\
    same_settings c c' /\ P x' (skipn n out) /\ length line = length buf /\
    forall k, k < n -> cell (px_bytes (cv_color c)) k line = cellf c f (nth k out 0%N) (cell (px_bytes (cv_color c)) k buf).
Proof.
  intros Hp Hn Hb Hl. unfold conv_fill_buffer, cellf.
  destruct (cv_color c) eqn:Ec; cbn [px_bytes] in *.
  - destruct (fill_rgba f (S (length buf)) x c [] buf out n Ec Hp Hn Hb Hl ltac:(lia)) as (x' & c' & E & Hs & Hp').
    exists x', c'. eexists. split; [exact E|]. split; [exact Hs|]. split; [exact Hp'|]. cbn [app].
    assert (Hfl : length (firstn n out) = n) by (rewrite firstn_length; lia).
    split; [apply expand_length; lia|]. intros k Hk.
    rewrite expand_cells by lia. f_equal.
    rewrite <- (firstn_skipn n out) at 2. rewrite app_nth1 by lia. reflexivity.
  - assert (Hb0 : buf <> []) by (intros ->; cbn in Hb; lia).
    destruct (fill_indexed f (S (length buf)) x c [] buf out Ec Hp Hb0 ltac:(lia) ltac:(lia)) as (x' & E & Hp').
    assert (El : length buf = n) by lia.
    exists x', c. eexists. split; [exact E|]. split; [apply same_settings_refl|]. rewrite El in *.
    split; [exact Hp'|]. cbn [app]. split; [rewrite firstn_length; lia|].
    intros k Hk. unfold cell. rewrite Nat.mul_1_l.
    rewrite <- (firstn_skipn n out) at 2. rewrite app_nth1 by (rewrite firstn_length; lia).
    set (l := firstn n out). assert (Hll : k < length l) by (unfold l; rewrite firstn_length; lia).
    clearbody l. clear -Hll. revert k Hll. induction l as [|y l IH]; intros k H; [cbn in H; lia|].
    destruct k as [|k]; [reflexivity|]. cbn [skipn nth]. apply IH. cbn in H. lia.
Qed.

(** The rows of an interlaced frame. *)
Lemma rows_spec f w : N.to_nat (f_width f) = w -> 0 < w ->
  forall rows x c buf out h, P x out -> length rows * w <= length out ->
  NoDup rows -> (forall r, In r rows -> r < h) -> px_bytes (cv_color c) * (h * w) <= length buf ->
  (len buf <= umax)%N ->
  exists x' c' buf', read_rows umax St cb rows x c f buf = (x', c', buf', Ok tt) /\
    same_settings c c' /\ P x' (skipn (length rows * w) out) /\ length buf' = length buf /\
    (forall r j, In r rows -> j < w ->
       cell (px_bytes (cv_color c)) (r * w + j) buf' =
       cellf c f (nth (index_of r rows * w + j) out 0%N) (cell (px_bytes (cv_color c)) (r * w + j) buf)) /\
    (forall k, px_bytes (cv_color c) * S k <= length buf -> ~ In (k / w) rows ->
       cell (px_bytes (cv_color c)) k buf' = cell (px_bytes (cv_color c)) k buf) /\
    skipn (px_bytes (cv_color c) * (h * w)) buf' = skipn (px_bytes (cv_color c) * (h * w)) buf.
Proof.
  intros Ew Hw. induction rows as [|row rows IH]; intros x c buf out h Hp Hl Hnd Hin Hb Hu.
  - exists x, c, buf. split; [reflexivity|]. split; [apply same_settings_refl|].
    split; [exact Hp|]. split; [reflexivity|]. split; [intros r j []|]. split; auto.
  - set (cs := px_bytes (cv_color c)) in *. assert (Hcs : 0 < cs) by (unfold cs, px_bytes; destruct (cv_color c); lia).
    cbn [length] in Hl. inversion Hnd as [|? ? Hn1 Hn2]; subst x0 l.
    pose proof (Hin row (or_introl eq_refl)) as Hrow.
    assert (Hll : line_length c f = N.of_nat (cs * w)).
    { unfold line_length, cs, px_bytes. destruct (cv_color c); lia. }
    cbn [read_rows]. cbn zeta. rewrite Hll, <- Nat2N.inj_mul.
    set (start := row * (cs * w)) in *.
    assert (Hst : start + cs * w <= length buf).
    { unfold start. assert (S row * (cs * w) <= cs * (h * w)) by nia. nia. }
    unfold len in *.
    destruct (N.ltb_spec umax (N.of_nat start)) as [Hlt|Hlt]; [lia|].
    destruct (N.leb_spec (N.of_nat start) (N.of_nat (length buf))) as [_|]; [|lia].
    destruct (N.leb_spec (N.of_nat start + N.of_nat (cs * w)) (N.of_nat (length buf))) as [_|]; [|lia].
    cbn [andb]. rewrite !Nat2N.id.
    destruct (fill_spec x c f (firstn (cs * w) (skipn start buf)) out w Hp Hw) as (x1 & c1 & line & E & Hs & Hp1 & Hline & Hcell).
    { rewrite firstn_length, skipn_length. fold cs. lia. }
    { lia. }
    fold cs in Hcell. rewrite E.
    rewrite firstn_length, skipn_length in Hline.
    assert (Hline' : length line = cs * w) by lia.
    assert (Estart : start = cs * (row * w)) by (unfold start; lia).
    match goal with |- context [read_rows umax St cb rows x1 c1 f ?b] => assert (Eb1 : b = put cs (row * w) line buf) end.
    { unfold put. rewrite <- Estart, Hline'. reflexivity. }
    rewrite Eb1. set (buf1 := put cs (row * w) line buf) in *.
    assert (Hb1 : length buf1 = length buf).
    { apply (put_length cs (row * w) w); [exact Hline'|lia]. }
    assert (Ecs1 : px_bytes (cv_color c1) = cs) by (unfold cs; destruct Hs as (_ & -> & _); reflexivity).
    destruct (IH x1 c1 buf1 (skipn w out) h Hp1) as (x2 & c2 & buf2 & E2 & Hs2 & Hp2 & Hb2 & Hin2 & Hout2 & Hbeh).
    { rewrite skipn_length. lia. }
    { exact Hn2. }
    { intros r Hr. apply Hin. now right. }
    { rewrite Ecs1, Hb1. exact Hb. }
    { rewrite Hb1. exact Hu. }
    rewrite Ecs1 in *.
    exists x2, c2, buf2. split; [exact E2|]. split; [eapply same_settings_trans; eassumption|].
    rewrite skipn_skipn in Hp2. cbn [length].
    split; [replace (S (length rows) * w) with (length rows * w + w) by lia; exact Hp2|].
    split; [congruence|].
    assert (Hold : forall k, cs * S k <= length buf -> ~ In (k / w) (row :: rows) -> cell cs k buf1 = cell cs k buf).
    { intros k Hk Hni. unfold buf1. rewrite (put_cell cs (row * w) w line buf k Hline' ltac:(lia) Hk).
      destruct (Nat.leb_spec (row * w) k); [|reflexivity]. destruct (Nat.ltb_spec k (row * w + w)); [|reflexivity].
      exfalso. apply Hni. left. apply (Nat.div_unique k w row (k - row * w)); lia. }
    split; [|split].
    + intros r j Hr Hj.
      assert (Hrh : r < h) by (apply Hin; exact Hr).
      assert (Hkb : cs * S (r * w + j) <= length buf).
      { assert (S (r * w + j) <= h * w) by nia. nia. }
      assert (Hdiv : (r * w + j) / w = r) by (symmetry; apply (Nat.div_unique _ w r j); lia).
      cbn [index_of]. destruct (Nat.eqb_spec row r) as [->|Hne].
      * rewrite Hout2; [|rewrite Hb1; exact Hkb|rewrite Hdiv; exact Hn1].
        unfold buf1. rewrite (put_cell cs (r * w) w line buf _ Hline' ltac:(lia) Hkb).
        destruct (Nat.leb_spec (r * w) (r * w + j)); [|lia]. destruct (Nat.ltb_spec (r * w + j) (r * w + w)); [|lia].
        cbn [andb]. replace (r * w + j - r * w) with j by lia. rewrite Hcell by exact Hj. cbn [Nat.mul Nat.add].
        f_equal. rewrite Estart. apply cell_slice. exact Hj.
      * destruct Hr as [Hr|Hr]; [congruence|].
        rewrite Hin2 by assumption. rewrite (cellf_settings c c1) by exact Hs.
        f_equal.
        -- rewrite <- (firstn_skipn w out) at 2. rewrite app_nth2; rewrite firstn_length; [|lia].
           f_equal. lia.
        -- unfold buf1. rewrite (put_cell cs (row * w) w line buf _ Hline' ltac:(lia) Hkb).
           destruct (Nat.leb_spec (row * w) (r * w + j)); [|reflexivity].
           destruct (Nat.ltb_spec (r * w + j) (row * w + w)); [|reflexivity]. exfalso. nia.
    + intros k Hk Hni. rewrite Hout2; [|rewrite Hb1; exact Hk|].
      * apply Hold; assumption.
      * intros Hi. apply Hni. now right.
    + rewrite Hbeh. unfold buf1. apply (put_behind cs (row * w) w); [exact Hline'|lia|nia].
Qed.

(** [read_into_buffer]: the picture, then whatever was behind it. *)
Lemma into_cells x c f buf out w h : N.to_nat (f_width f) = w -> N.to_nat (f_height f) = h ->
  0 < w -> 0 < h -> P x out -> w * h <= length out ->
  px_bytes (cv_color c) * (w * h) <= length buf -> (len buf <= umax)%N ->
  exists x' c' buf', conv_read_into_buffer umax St cb x c f buf = (x', c', buf', Ok tt) /\
    same_settings c c' /\ P x' (skipn (w * h) out) /\ length buf' = length buf /\
    (forall k, k < w * h -> cell (px_bytes (cv_color c)) k buf' =
       cellf c f (nth k (picture w h (f_interlaced f) out) 0%N) (cell (px_bytes (cv_color c)) k buf)) /\
    skipn (px_bytes (cv_color c) * (w * h)) buf' = skipn (px_bytes (cv_color c) * (w * h)) buf.
Proof.
  intros Ew Eh Hw Hh Hp Hl Hb Hu. unfold conv_read_into_buffer, picture.
  set (cs := px_bytes (cv_color c)) in *. assert (Hcs : 0 < cs) by (unfold cs, px_bytes; destruct (cv_color c); lia).
  assert (Hbs : buffer_size umax c f = Some (N.of_nat (cs * (w * h)))).
  { unfold buffer_size, line_length.
    assert (E : (match cv_color c with CIndexed => f_width f | CRgba => f_width f * 4 end * f_height f =
             N.of_nat (cs * (w * h)))%N) by (unfold cs, px_bytes; destruct (cv_color c); lia).
    rewrite E. unfold len in Hu. destruct (N.leb_spec (N.of_nat (cs * (w * h))) umax); [reflexivity|lia]. }
  destruct (f_interlaced f).
  - rewrite interlace_rows_order, Eh.
    destruct (rows_spec f w Ew Hw (gif_row_order h) x c buf out h Hp) as (x' & c' & b' & E & Hs & Hp' & Hb' & Hin & Hout & Hbeh).
    { rewrite gif_row_order_length. lia. }
    { apply gif_row_order_nodup. }
    { intros r Hr. now apply gif_row_order_in. }
    { fold cs. nia. }
    { exact Hu. }
    fold cs in Hin, Hout, Hbeh. exists x', c', b'. rewrite gif_row_order_length in Hp'.
    split; [exact E|]. split; [exact Hs|]. split; [rewrite Nat.mul_comm; exact Hp'|]. split; [exact Hb'|].
    assert (Hk : forall k, k < w * h -> k / w < h /\ k mod w < w /\ k = k / w * w + k mod w).
    { intros k Hk. split; [apply Nat.div_lt_upper_bound; lia|]. split; [apply Nat.mod_upper_bound; lia|].
      pose proof (Nat.div_mod k w ltac:(lia)). lia. }
    split.
    + intros k Hk1. destruct (Hk k Hk1) as (K1 & K2 & K3).
      rewrite K3 at 1. rewrite Hin; [|now apply gif_row_order_in|exact K2]. rewrite <- K3. f_equal.
      unfold deinterlace. rewrite nth_map_seq by exact Hk1. reflexivity.
    + rewrite (Nat.mul_comm w h). exact Hbeh.
  - rewrite Hbs. unfold len. destruct (N.leb_spec (N.of_nat (cs * (w * h))) (N.of_nat (length buf))) as [_|]; [|unfold len in *; lia].
    rewrite Nat2N.id.
    destruct (fill_spec x c f (firstn (cs * (w * h)) buf) out (w * h) Hp) as (x1 & c1 & line & E & Hs & Hp1 & Hline & Hcell).
    { nia. }
    { rewrite firstn_length. fold cs. lia. }
    { exact Hl. }
    fold cs in Hcell. rewrite E. rewrite firstn_length in Hline.
    exists x1, c1. eexists. split; [reflexivity|]. split; [exact Hs|]. split; [exact Hp1|].
    split; [rewrite app_length, skipn_length; lia|]. split.
    + intros k Hk. rewrite cell_app1 by nia. rewrite Hcell by exact Hk. f_equal.
      * rewrite <- (firstn_skipn (w * h) out) at 1. rewrite app_nth1 by (rewrite firstn_length; lia). reflexivity.
      * apply (cell_slice cs 0 (w * h)) with (l := buf) in Hk. rewrite Nat.mul_0_r in Hk. exact Hk.
    + rewrite skipn_app, (skipn_all2 line) by lia. cbn [app].
      replace (cs * (w * h) - length line) with 0 by lia. reflexivity.
Qed.

Lemma into_spec x c f buf out w h : N.to_nat (f_width f) = w -> N.to_nat (f_height f) = h ->
  0 < w -> 0 < h -> P x out -> w * h <= length out ->
  px_bytes (cv_color c) * (w * h) <= length buf -> (len buf <= umax)%N ->
  exists x' c', conv_read_into_buffer umax St cb x c f buf =
      (x', c', shown_over (cv_color c) (effective_palette c f) (f_transparent f) (picture w h (f_interlaced f) out) buf
               ++ skipn (px_bytes (cv_color c) * (w * h)) buf, Ok tt) /\
    same_settings c c' /\ P x' (skipn (w * h) out).
Proof.
  intros Ew Eh Hw Hh Hp Hl Hb Hu.
  destruct (into_cells x c f buf out w h Ew Eh Hw Hh Hp Hl Hb Hu) as (x' & c' & buf' & E & Hs & Hp' & Hbl & Hc & Hsk).
  exists x', c'. split; [|auto]. rewrite E. do 2 f_equal.
  pose proof (picture_length w h (f_interlaced f) out Hl) as Hpl.
  rewrite <- Hpl. apply shown_over_cells; rewrite ?Hpl; auto.
Qed.

Lemma frame_spec x c f out w h : N.to_nat (f_width f) = w -> N.to_nat (f_height f) = h ->
  0 < w -> 0 < h -> P x out -> w * h <= length out -> f_buffer f = [] ->
  (N.of_nat (px_bytes (cv_color c) * (w * h)) <= umax / 2)%N ->
  match cv_limit c with Some l => (N.of_nat (px_bytes (cv_color c) * (w * h)) <= l)%N | None => True end ->
  exists x' c', conv_read_frame umax St cb x c f =
      (x', c', set_interlaced (set_buffer f (shown (cv_color c) (effective_palette c f) (f_transparent f)
                (picture w h (f_interlaced f) out))) false, Ok tt) /\
    same_settings c c' /\ P x' (skipn (w * h) out).
Proof.
  intros Ew Eh Hw Hh Hp Hl Hbuf Hu Hlim. unfold conv_read_frame, check_buffer_size, limit_buffer_size, buffer_size, line_length.
  set (n := N.of_nat (px_bytes (cv_color c) * (w * h))) in *.
  assert (Hnu : (n <= umax)%N).
  { pose proof (N.div_le_upper_bound umax 2 umax ltac:(lia) ltac:(lia)). lia. }
  assert (E1 : (f_width f * f_height f * match cv_color c with CRgba => 4 | CIndexed => 1 end = n)%N).
  { unfold n, px_bytes. destruct (cv_color c); lia. }
  assert (E2 : (match cv_color c with CRgba => f_width f * 4 | CIndexed => f_width f end * f_height f = n)%N).
  { unfold n, px_bytes. destruct (cv_color c); lia. }
  rewrite E1, E2. destruct (N.leb_spec n umax); [|lia].
  assert (E3 : match cv_limit c with Some l => if (l <? n)%N then None else Some n | None => Some n end = Some n).
  { destruct (cv_limit c) as [l|]; [|reflexivity]. destruct (N.ltb_spec l n); [lia|reflexivity]. }
  rewrite E3, N.eqb_refl. cbn zeta. destruct (N.ltb_spec (umax / 2) n); [lia|].
  rewrite Hbuf, firstn_nil. set (m := px_bytes (cv_color c) * (w * h)) in *.
  assert (Em : N.to_nat n = m) by (unfold n; lia). rewrite Em.
  assert (Eg : grow [] m = repeat 0%N m) by (unfold grow; cbn [length app]; now rewrite Nat.sub_0_r).
  rewrite Eg.
  destruct (into_spec x c (set_buffer f []) (repeat 0%N m) out w h Ew Eh Hw Hh Hp Hl) as (x' & c' & E & Hs & Hp').
  { rewrite repeat_length. fold m. lia. }
  { unfold len. rewrite repeat_length. fold n. exact Hnu. }
  rewrite E. exists x', c'. split; [|auto].
  match goal with |- (_, _, set_interlaced (set_buffer _ ?a) _, _) = (_, _, set_interlaced (set_buffer _ ?b) _, _) =>
    assert (Eab : a = b); [|rewrite Eab; reflexivity] end.
  fold m. rewrite skipn_repeat, Nat.sub_diag. cbn [repeat]. rewrite app_nil_r.
  cbn [f_transparent f_interlaced set_buffer].
  change (effective_palette c (set_buffer f [])) with (effective_palette c f).
  apply shown_zero. destruct (cv_color c) eqn:Ec; [left|right; reflexivity].
  intros k Hk. rewrite picture_length in Hk by exact Hl.
  assert (4 * k + 4 <= m) by (unfold m; cbn [px_bytes]; lia).
  unfold cell. rewrite skipn_repeat, firstn_repeat by lia. reflexivity.
Qed.
End Source.
