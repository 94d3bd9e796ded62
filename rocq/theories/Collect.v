(** Decoder properties in the form in which [PropDec] states them. *)
From Verif Require Import Base Common Lzw Encoder Stream Converter Reader StreamInv ReaderInv SpecPixels Interlace Ranges ConvInv
  DecoderSafe Canon CanonReader SpecGif DocTrace DocBlocks Pixels PixelRead DocRead DocAll SpecEnc SpecRound EncSession
  RoundTrip RoundProps SpecStream StreamProps DecInv DecProps.
From Coq Require Import Permutation.
Open Scope N_scope.

Section G.
Variable L : lzw_codec.
Variable umax : N.
Hypothesis safe : lzw_safe L.
Hypothesis Humax : 2 ^ 32 - 1 <= umax.

Theorem decoder_returns src o os : src_ok src -> limit_ok umax (o_limit o) -> Forall (op_ok umax) os ->
  returns (read_info L src o) /\
  forall d, read_info L src o = Ok d -> Forall out_returns (snd (run_dops L umax d os)).
Proof.
  intros Hs Hl Ho. destruct (read_info_returns L safe umax Humax src o Hs) as [H1 H2]. split; [exact H1|].
  intros d E. destruct (H2 d E) as [Hg Hd]. apply (run_dops_returns L safe umax Humax os d Hg); [|exact Ho].
  unfold alloc_ok. rewrite Hd. exact Hl.
Qed.

(** C40: as long as the caller provides the buffers, no memory limit is needed, and buffers keep their length. *)
Theorem own_buffers_return src o os : src_ok src -> Forall (fun op => op <> OpFrame /\ op_ok umax op) os ->
  forall d, read_info L src o = Ok d ->
  Forall out_returns (snd (run_dops L umax d os)) /\
  Forall2 (fun op y => match op, y with
                       | OpInto buf, OutInto b _ | OpFill buf, OutFill b _ => length b = length buf
                       | OpInfo, OutBool _ => True
                       | _, _ => False
                       end) os (snd (run_dops L umax d os)).
Proof.
  intros Hs Ho d E. destruct (read_info_returns L safe umax Humax src o Hs) as [_ H2]. destruct (H2 d E) as [Hg _]. clear E H2.
  revert d Hg. induction Ho as [|op os [Hf Hop] Ho IH]; intros d Hg; [split; constructor|]. cbn [run_dops].
  destruct (run_dop L umax d op) as [d1 y] eqn:E.
  assert (K : out_returns y /\ dcd_good L d1 /\ match op, y with
                       | OpInto buf, OutInto b _ | OpFill buf, OutFill b _ => length b = length buf
                       | OpInfo, OutBool _ => True
                       | _, _ => False
                       end).
  { destruct op as [ | |buf|buf]; cbn [run_dop] in E; [| congruence| |].
    - destruct (next_frame_info L d) as [d2 x] eqn:E1. injection E as <- <-.
      apply (next_frame_info_returns L safe umax Humax) in E1; [|exact Hg]. cbn. tauto.
    - destruct (read_into_buffer L umax d buf) as [[d2 b] x] eqn:E1. injection E as <- <-.
      apply (read_into_buffer_returns L safe umax Humax) in E1; [|exact Hg|exact Hop]. cbn. tauto.
    - destruct (fill_buffer L d buf) as [[d2 b] x] eqn:E1. injection E as <- <-.
      apply (fill_buffer_returns L safe umax Humax) in E1; [|exact Hg]. cbn. tauto. }
  destruct K as (K1 & K2 & K3). specialize (IH d1 K2). destruct (run_dops L umax d1 os) as [d2 ys]. cbn [snd] in *.
  destruct IH as [I1 I2]. split; constructor; assumption.
Qed.

Theorem iterator_returns src o n : src_ok src -> limit_ok umax (o_limit o) -> forall it,
  opened L umax src o (it_dec L it) -> Forall item_returns (snd (iter_calls L umax it n)).
Proof.
  intros Hs Hl it Hd. destruct (opened_good L umax safe Humax src o Hs _ Hl Hd) as (Hg & Hop & _).
  clear Hd. revert it Hg Hop.
  induction n as [|n IH]; intros it Hg Hop; [constructor|]. cbn [iter_calls].
  destruct (iter_next L umax it) as [it1 y] eqn:E.
  destruct (iter_next_returns L safe umax Humax it it1 y Hg) as (Hy & Hg1 & Hk); [unfold alloc_ok; now rewrite Hop|exact E|].
  specialize (IH it1 Hg1). destruct (iter_calls L umax it1 n) as [it2 ys]. constructor; [exact Hy|].
  apply IH. rewrite <- Hop. apply Hk.
Qed.
End G.

(** ** Interlacing *)
Theorem row_order_permutation h : Permutation (gif_row_order h) (seq 0 h).
Proof.
  apply NoDup_Permutation; [apply gif_row_order_nodup|apply seq_NoDup|]. intros r.
  rewrite gif_row_order_in, in_seq. lia.
Qed.

Lemma index_of_nth l : NoDup l -> forall k, (k < length l)%nat -> index_of (nth k l O) l = k.
Proof.
  induction l as [|x l IH]; intros Hn k Hk; [cbn [length] in Hk; lia|]. inversion Hn as [|? ? Hx Hl]; subst.
  destruct k as [|k]; cbn [nth index_of]; [now rewrite Nat.eqb_refl|].
  destruct (Nat.eqb_spec x (nth k l O)) as [->|].
  - exfalso. apply Hx, nth_In. cbn [length] in Hk. lia.
  - f_equal. apply IH; [exact Hl|cbn [length] in Hk; lia].
Qed.

(** Row [k] of the stored pixels becomes row [nth k (gif_row_order h)] of the picture. *)
Theorem deinterlace_rows w h px k c : (k < h)%nat -> (c < w)%nat ->
  nth (nth k (gif_row_order h) O * w + c) (deinterlace w h px) 0 = nth (k * w + c) px 0.
Proof.
  intros Hk Hc. pose proof (gif_row_order_length h) as Hl.
  assert (Hr : (nth k (gif_row_order h) O < h)%nat) by (apply gif_row_order_in, nth_In; lia).
  set (r := nth k (gif_row_order h) O) in *. unfold deinterlace.
  assert (Hlt : (r * w + c < w * h)%nat) by nia.
  rewrite (nth_indep _ 0 ((fun p => nth (index_of (p / w) (gif_row_order h) * w + p mod w) px 0) O))
    by (rewrite map_length, seq_length; exact Hlt).
  rewrite (map_nth (fun p => nth (index_of (p / w) (gif_row_order h) * w + p mod w) px 0)), seq_nth by exact Hlt.
  cbn [Nat.add].
  rewrite Nat.div_add_l, (Nat.div_small c w) by lia. rewrite Nat.add_0_r. unfold r.
  rewrite index_of_nth by (try apply gif_row_order_nodup; lia).
  fold r. f_equal. f_equal. rewrite Nat.add_comm, Nat.mod_add, Nat.mod_small; lia.
Qed.
Theorem deinterlace_length w h px : length (deinterlace w h px) = (w * h)%nat.
Proof. unfold deinterlace. now rewrite map_length, seq_length. Qed.

(** ** Empty animations *)
Section E.
Variable L : lzw_codec.
Variable S : lzw_spec L.
Variable umax : N.
Hypothesis Humax : 2 ^ 32 - 1 <= umax.
Theorem empty_animation o w sw sh pal dbg ops e1 e2 e3 w3 tl src :
  u16_ok sw -> u16_ok sh -> bytes_ok pal -> Forall op_rng ops ->
  encoder_new w sw sh pal = (e1, Ok tt) -> run_ops L dbg e1 ops = (e2, Ok tt) -> into_inner e2 = (e3, Ok w3) ->
  w_out w = [] -> delivers src (w_out w3 ++ tl) ->
  Forall (call_readable o) ops -> Forall (fun c => frame_of c = None) ops -> Exists writes_block ops ->
  o_skip_frame_decoding o = false -> o_check_for_end_code o = false ->
  exists d d', read_info L src o = Ok d /\ read_next_frame L umax d = (d', Ok false).
Proof.
  intros H1 H2 H3 H4 H5 H6 H7 H8 H9 H10 H11 H12 H13 H14.
  assert (Hw : written S ops []).
  { clear -H11. induction H11 as [|c ops Hc _ IH]; constructor; assumption. }
  destruct (round_trip_frames L S umax Humax o w sw sh pal dbg ops e1 e2 e3 w3 [] tl src 1%nat H1 H2 H3 H4 H5 H6 H7 H8 H9 H10 Hw H12)
    as (d & d' & E & R); [constructor|assumption|assumption|cbn; lia|].
  exists d, d'. split; [exact E|]. cbn [read_all map] in R.
  destruct (read_next_frame L umax d) as [d1 x]. destruct x as [[|]| | |]; injection R as <-; try reflexivity; discriminate.
Qed.
End E.

(** ** C25: one pixel of a converted frame *)
Theorem shown_pixel pal t px k : (k < length px)%nat ->
  firstn 4 (skipn (4 * k) (shown CRgba pal t px)) =
  match rgba_of pal t (nth k px 0) with Some c => c | None => [0; 0; 0; 0] end.
Proof.
  intros Hk. cbn [shown].
  assert (H4 : forall i, exists a b c d, match rgba_of pal t i with Some c => c | None => [0; 0; 0; 0] end = [a; b; c; d]).
  { intros i. unfold rgba_of. destruct (_ <=? _)%nat; eauto. }
  revert k Hk. induction px as [|x px IH]; intros k Hk; [cbn in Hk; lia|].
  cbn [flat_map]. destruct (H4 x) as (a & b & c & d & E). rewrite E.
  destruct k as [|k]; [cbn; now rewrite E|]. replace (4 * S k)%nat with (S (S (S (S (4 * k))))) by lia.
  cbn [app skipn nth]. apply IH. cbn in Hk. lia.
Qed.
Theorem shown_size pal t px : length (shown CRgba pal t px) = (4 * length px)%nat.
Proof.
  cbn [shown]. induction px as [|x px IH]; [reflexivity|]. cbn [flat_map length]. rewrite app_length, IH.
  unfold rgba_of. destruct (_ <=? _)%nat; cbn [length]; lia.
Qed.
