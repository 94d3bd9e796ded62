(** What is reachable through the operations of a [Decoder]: everything goes through [decode_next]. *)
From Verif Require Import Base Common Lzw Encoder Stream Converter Reader
  StreamInv Steps ReaderInv Interlace Ranges ConvInv DecoderSafe.
Open Scope N_scope.

Section Opened.
Variable L : lzw_codec.
Variable umax : N.

(** A [Decoder] as its user can have it: [read_info] succeeded, then any calls were made, whatever
    they returned; [take_current_frame] is the one used by the iterator. *)
Inductive opened (src : list revent) (o : options) : dcd L -> Prop :=
| op_info d : read_info L src o = Ok d -> opened src o d
| op_call d op d' y : opened src o d -> op_ok umax op -> run_dop L umax d op = (d', y) -> opened src o d'
| op_taken d : opened src o d -> opened src o (set_cur L d (snd (frame_take (dc_cur L d))) (dc_ty L d)).

Hypothesis safe : lzw_safe L.
Hypothesis Humax : 2 ^ 32 - 1 <= umax.
Notation rd := (rd L).
Notation dcd := (dcd L).

(** The reader inside. *)
Definition taken_rd (r : rd) (f : frame) : rd :=
  mk_rd L (rd_buf L r) (rd_src L r) (set_current L (rd_dec L r) (Some (snd (frame_take f))) 0) (rd_eof L r).
Inductive hist (src : list revent) (o : options) : rd -> Prop :=
| h_new : hist src o (mk_rd L [] src (sd_new L o) false)
| h_next r ob r' ob' x : hist src o r -> decode_next L r ob = (r', ob', x) -> hist src o r'
| h_take r ob r' ob' t f : hist src o r -> decode_next L r ob = (r', ob', Ok (Some (DFrameMetadata t))) ->
    sd_current L (rd_dec L r') = Some f -> hist src o (taken_rd r' f).

Section Src.
Variable src : list revent.
Variable o : options.
Hypothesis Hsrc : src_ok src.
Notation hist := (hist src o).

Lemma hist_good r : hist r -> rd_good L r /\ sd_opts L (rd_dec L r) = o.
Proof.
  induction 1 as [|r ob r' ob' x Hr [IH IHo] E|r ob r' ob' t f Hr [IH IHo] E Ef].
  - split; [|reflexivity]. apply (with_no_init_good L src o Hsrc).
  - destruct (decode_next_all L safe _ _ _ _ _ IH E) as (G & (_ & Ho & _) & _). split; [exact G|congruence].
  - destruct (decode_next_all L safe _ _ _ _ _ IH E) as (G & (_ & Ho & _) & _ & Hm).
    destruct (Hm t eq_refl) as [_ (k & Hst)]. split; [|cbn; congruence].
    eapply take_good; [exact G|exact Ef|]. destruct Hst as [[A _]|(m & A & _)]; eauto.
Qed.

(** Whatever holds along [decode_next] holds along the operations. *)
Section Closed.
Variable J : rd -> Prop.
Hypothesis Jgood : forall r, J r -> rd_good L r /\ sd_opts L (rd_dec L r) = o.
Hypothesis Jnext : forall r ob r' ob' x, J r -> decode_next L r ob = (r', ob', x) -> J r'.
Hypothesis Jtake : forall r ob r' ob' t f, J r -> decode_next L r ob = (r', ob', Ok (Some (DFrameMetadata t))) ->
  sd_current L (rd_dec L r') = Some f -> J (taken_rd r' f).

Lemma init_loop_J fuel : forall d d', J (dc_rd L d) -> init_loop L fuel d = Ok d' -> J (dc_rd L d').
Proof.
  induction fuel as [|fuel IH]; intros d d' Hd H; [discriminate H|]. cbn [init_loop] in H.
  destruct (decode_next L (dc_rd L d) ONone) as [[r ob] x] eqn:E.
  pose proof (Jnext _ _ _ _ _ Hd E) as Hr.
  destruct x as [[ev|]|e| | ]; try discriminate H.
  destruct ev; try (eapply IH; [|exact H]; exact Hr).
  injection H as <-. unfold fix_bg. destruct (cv_gpal _); [destruct (_ <=? _)|]; exact Hr.
Qed.

Lemma next_frame_info_loop_J fuel : forall d d' x, J (dc_rd L d) ->
  next_frame_info_loop L fuel d = (d', x) -> J (dc_rd L d').
Proof.
  induction fuel as [|fuel IH]; intros d d' x Hd H; cbn [next_frame_info_loop] in H.
  { injection H as <- <-. exact Hd. }
  destruct (decode_next L (dc_rd L d) ONone) as [[r ob] y] eqn:E.
  pose proof (Jnext _ _ _ _ _ Hd E) as Hr.
  destruct y as [[ev|]|e| | ]; try (injection H as <- <-; exact Hr).
  destruct ev; try (eapply IH; [|exact H]; exact Hr).
  destruct (sd_current L (rd_dec L r)) as [f|] eqn:Ef; [|injection H as <- <-; exact Hr].
  pose proof (Jtake _ _ _ _ _ _ Hd E Ef) as Ht. cbn [frame_take] in H.
  destruct (f_palette f); [|destruct (cv_gpal _)]; injection H as <- <-; exact Ht.
Qed.

Lemma copy_lzw_loop_J fuel : forall r v r' v' x, J r -> copy_lzw_loop L fuel r v = (r', v', x) -> J r'.
Proof.
  induction fuel as [|fuel IH]; intros r v r' v' x Hr H; cbn [copy_lzw_loop] in H.
  { injection H as <- <- <-. exact Hr. }
  destruct (decode_next L r (OVec v)) as [[r1 ob1] y] eqn:E.
  pose proof (Jnext _ _ _ _ _ Hr E) as Hr1.
  destruct y as [[ev|]|e| | ]; try (injection H as <- <- <-; exact Hr1).
  destruct ev; try (injection H as <- <- <-; exact Hr1). eapply IH; [|exact H]. exact Hr1.
Qed.

Lemma decode_next_bytes_J r s r' ob' x : J r -> decode_next_bytes L r (OSlice s) = (r', ob', x) ->
  J r' /\ (exists s', ob' = OSlice s' /\ length s' = length s) /\
  match x with Ok n => (n <= length s)%nat | Err _ => True | Panic | Hang => False end.
Proof.
  intros Hr H. destruct (Jgood r Hr) as [Hg Ho].
  destruct (decode_next_bytes_ok L safe umax Humax o r s r' ob' x (conj Hg Ho) H) as (_ & Hs & Hx).
  split; [|split; [exact Hs|exact Hx]]. unfold decode_next_bytes in H.
  destruct (decode_next L r (OSlice s)) as [[r1 ob1] y] eqn:E.
  pose proof (Jnext _ _ _ _ _ Hr E) as Hr1.
  destruct y as [[ev|]|e| | ]; try destruct ev; injection H as <- <- <-; exact Hr1.
Qed.

Lemma run_dop_J d op d' y : limit_ok umax (o_limit o) -> dcd_good L d -> J (dc_rd L d) -> op_ok umax op ->
  run_dop L umax d op = (d', y) -> J (dc_rd L d').
Proof.
  intros Ha Hd Hh Ho H. destruct op as [ | |buf|buf]; cbn [run_dop] in H.
  - destruct (next_frame_info L d) as [d1 x] eqn:E. injection H as <- <-.
    eapply next_frame_info_loop_J; eassumption.
  - destruct (read_next_frame L umax d) as [d1 x] eqn:E. injection H as <- <-.
    unfold read_next_frame in E. destruct (next_frame_info L d) as [d2 z] eqn:En.
    pose proof (next_frame_info_loop_J _ _ _ _ Hh En) as Hh2.
    destruct (next_frame_info_returns L safe umax Humax d d2 z Hd En) as (Hz & Hd2 & _).
    destruct z as [[|]|e| | ]; try (injection E as <- <-; exact Hh2).
    pose proof Hd2 as (Hr2 & Hf2 & Hl2 & _). pose proof Hf2 as (_ & _ & _ & _ & Hw & Hhh & _).
    destruct (dc_ty L d2).
    + destruct (conv_read_frame umax (Reader.rd L) (decode_next_bytes L) (dc_rd L d2) (dc_conv L d2) (dc_cur L d2))
        as [[[r c] f] z] eqn:Ec.
      apply (conv_read_frame_ok umax _ _ J) in Ec.
      2:{ intros. eapply decode_next_bytes_J; eassumption. }
      2:{ exact Hw. } 2:{ exact Hhh. } 2:{ exact Humax. }
      2:{ rewrite Hl2. destruct (Jgood _ Hh2) as [_ ->]. exact Ha. }
      2:{ exact Hh2. }
      destruct Ec as (Hr & _). destruct z; injection E as <- <-; exact Hr.
    + unfold copy_lzw_into_buffer in E.
      destruct (copy_lzw_loop L (ev_fuel L (dc_rd L d2)) (dc_rd L d2) ([] ++ [min_code_size])) as [[r v] z] eqn:Ec.
      apply copy_lzw_loop_J in Ec; [|exact Hh2]. destruct z; injection E as <- <-; exact Ec.
  - destruct (read_into_buffer L umax d buf) as [[d1 b] x] eqn:E. injection H as <- <-.
    unfold read_into_buffer in E. pose proof Hd as (_ & Hf2 & _). pose proof Hf2 as (_ & _ & _ & _ & Hw & Hhh & _).
    destruct (conv_read_into_buffer umax (Reader.rd L) (decode_next_bytes L) (dc_rd L d) (dc_conv L d) (dc_cur L d) buf)
      as [[[r c] b1] z] eqn:Ec.
    apply (conv_read_into_buffer_ok umax _ _ J) in Ec;
      [|intros; eapply decode_next_bytes_J; eassumption|exact Hw|exact Humax|exact Ho|exact Hh].
    destruct Ec as (Hr & _). injection E as <- <- <-. exact Hr.
  - destruct (fill_buffer L d buf) as [[d1 b] x] eqn:E. injection H as <- <-.
    unfold fill_buffer in E.
    destruct (conv_fill_buffer (Reader.rd L) (decode_next_bytes L) (dc_rd L d) (dc_conv L d) (dc_cur L d) buf)
      as [[[r c] b1] z] eqn:Ec.
    apply (conv_fill_buffer_ok _ _ J) in Ec; [|intros; eapply decode_next_bytes_J; eassumption|exact Hh].
    destruct Ec as (Hr & _). injection E as <- <- <-. exact Hr.
Qed.

End Closed.

Lemma next_frame_info_loop_hist fuel d d' x : hist (dc_rd L d) ->
  next_frame_info_loop L fuel d = (d', x) -> hist (dc_rd L d').
Proof. apply (next_frame_info_loop_J hist (h_next src o) (h_take src o)). Qed.

Lemma opened_good d : limit_ok umax (o_limit o) -> opened src o d ->
  dcd_good L d /\ dopts L d = o /\ hist (dc_rd L d).
Proof.
  intros Ha. induction 1 as [d Hi|d op d' y Hd (IH1 & IH2 & IH3) Hop E|d Hd (IH1 & IH2 & IH3)].
  - destruct (read_info_returns L safe umax Humax src o Hsrc) as [_ H]. destruct (H d Hi) as [A B].
    split; [exact A|]. split; [exact B|]. refine (init_loop_J hist (h_next src o) _ (with_no_init L src o) d _ Hi). apply h_new.
  - assert (Ha' : alloc_ok L umax d) by (unfold alloc_ok; rewrite IH2; exact Ha).
    destruct (run_dop_returns L safe umax Humax d op d' y IH1 Ha' Hop E) as (_ & A & [B _]).
    split; [exact A|]. split; [congruence|]. exact (run_dop_J hist hist_good (h_next src o) (h_take src o) d op d' y Ha IH1 IH3 Hop E).
  - split; [|split; [exact IH2|exact IH3]]. apply set_cur_good; [exact IH1|].
    destruct IH1 as (_ & Hf & _). unfold frame_ok in *. cbn. tauto.
Qed.
End Src.
End Opened.
