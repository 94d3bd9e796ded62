(** [FrameDecoder]: always returns, and its output stays within the memory limit. *)
From Verif Require Import Base Common Lzw Encoder Stream Converter Reader
  StreamInv Interlace Ranges ConvInv.
Open Scope N_scope.

Section FD.
Variable L : lzw_codec.
Variable umax : N.
Hypothesis safe : lzw_safe L.
Hypothesis Humax : 2 ^ 32 - 1 <= umax.

Definition fd_inv (x : lzw_reader L * list N) : Prop := lr_decoder L (fst x) <> None.

Lemma fd_loop_ok fuel : forall x s x' ob' r, fd_inv x -> (length (snd x) < fuel)%nat ->
  fd_loop L fuel x (OSlice s) = (x', ob', r) ->
  fd_inv x' /\ (exists s', ob' = OSlice s' /\ length s' = length s) /\
  match r with Ok n => (n <= length s)%nat | Err _ => True | Panic | Hang => False end.
Proof.
  induction fuel as [|fuel IH]; intros x s x' ob' r Hx Hf H; [lia|]. cbn [fd_loop] in H.
  destruct (lr_decode_bytes L (fst x) (snd x) (OSlice s)) as [[r1 ob1] y] eqn:E.
  destruct (lr_decode_bytes_safe L safe _ _ _ _ _ _ E Hx) as (Hd & _ & (s1 & -> & Hl) & Hy).
  destruct y as [[n k]|e| | ]; try easy.
  - destruct Hy as [Hn Hk]. cbn zeta in H.
    destruct ((0 <? k)%nat || (n =? 0)%nat || is_nil (skipn n (snd x))) eqn:Ec.
    + injection H as <- <- <-. split; [exact Hd|]. split; [eauto|exact Hk].
    + apply orb_false_iff in Ec. destruct Ec as [Ec _]. apply orb_false_iff in Ec. destruct Ec as [_ Ec].
      apply Nat.eqb_neq in Ec.
      apply IH in H; [|exact Hd|cbn [snd]; rewrite skipn_length; lia].
      destruct H as (A & (s2 & -> & Hl2) & C). split; [exact A|]. split; [eexists; split; [reflexivity|lia]|].
      destruct r; auto. lia.
  - injection H as <- <- <-. split; [exact Hd|]. split; [eauto|exact I].
Qed.
Lemma fd_callback_ok x s x' ob' r : fd_inv x -> fd_callback L x (OSlice s) = (x', ob', r) ->
  fd_inv x' /\ (exists s', ob' = OSlice s' /\ length s' = length s) /\
  match r with Ok n => (n <= length s)%nat | Err _ => True | Panic | Hang => False end.
Proof. intros Hx H. eapply fd_loop_ok; [exact Hx| |exact H]. lia. Qed.

Lemma lr_reset_cases r m r' x : lr_reset L r m = (r', x) ->
  (x = Ok tt /\ lr_decoder L r' <> None) \/ x = Err (DFormat InvalidMinimalCodeSize).
Proof.
  unfold lr_reset. destruct (check_code_size m); [|intros [= _ <-]; now right].
  destruct (lr_decoder L r); [destruct (negb _)|]; intros [= <- <-]; left; (split; [reflexivity|discriminate]).
Qed.

Theorem decode_into_buffer_returns fd f buf fd' b x : u16_ok (f_width f) -> len buf <= umax / 2 ->
  decode_lzw_encoded_frame_into_buffer L umax fd f buf = (fd', b, x) ->
  returns x /\ length b = length buf /\ same_settings (fd_conv L fd) (fd_conv L fd').
Proof.
  intros Hw Hl H. unfold decode_lzw_encoded_frame_into_buffer in H.
  destruct (match f_buffer f with [] => (2, []) | m :: data => (m, data) end) as [m data].
  destruct (lr_reset L (fd_lzw L fd) m) as [r y] eqn:Er.
  destruct (lr_reset_cases _ _ _ _ Er) as [[-> Hd]| ->].
  - destruct (conv_read_into_buffer umax (lzw_reader L * list N) (fd_callback L) (r, data) (fd_conv L fd) f buf)
      as [[[[r1 d1] c] b1] z] eqn:Ec.
    apply (conv_read_into_buffer_ok umax _ _ fd_inv fd_callback_ok) in Ec; [|exact Hw|exact Humax|exact Hl|exact Hd].
    destruct Ec as (_ & Hb & Hs & Hz). injection H as <- <- <-. auto.
  - injection H as <- <- <-. split; [exact I|]. split; [reflexivity|apply same_settings_refl].
Qed.

Theorem decode_lzw_encoded_frame_returns fd f fd' f' x :
  u16_ok (f_width f) -> u16_ok (f_height f) -> limit_ok umax (cv_limit (fd_conv L fd)) ->
  decode_lzw_encoded_frame L umax fd f = (fd', f', x) ->
  returns x /\ same_settings (fd_conv L fd) (fd_conv L fd') /\
  match x with
  | Ok _ => f_interlaced f' = false /\ f_width f' = f_width f /\ f_height f' = f_height f /\
            len (f_buffer f') = line_length (fd_conv L fd) f * f_height f /\
            match cv_limit (fd_conv L fd) with Some l => len (f_buffer f') <= l | None => True end
  | _ => f' = f
  end.
Proof.
  intros Hw Hh Hl H. unfold decode_lzw_encoded_frame in H.
  pose proof (check_buffer_size_ok umax (fd_conv L fd) f Hw Hh) as Hc.
  destruct (check_buffer_size umax (fd_conv L fd) f) as [n|e| | ]; try easy.
  2:{ injection H as <- <- <-. split; [exact I|]. split; [apply same_settings_refl|reflexivity]. }
  destruct Hc as [Hn Hlim]. pose proof (frame_bytes_bound (fd_conv L fd) f Hw Hh) as Hb.
  destruct (N.ltb_spec (umax / 2) n) as [Hlt|Hlt].
  { exfalso. unfold limit_ok in Hl. destruct (cv_limit (fd_conv L fd)); lia. }
  destruct (decode_lzw_encoded_frame_into_buffer L umax fd f (repeat 0 (N.to_nat n))) as [[fd1 b] y] eqn:E.
  apply decode_into_buffer_returns in E; [|exact Hw|unfold len; rewrite repeat_length; lia].
  destruct E as (Hy & Hlb & Hs). rewrite repeat_length in Hlb.
  destruct y as [u|e| | ]; try easy; injection H as <- <- <-.
  - split; [exact I|]. split; [exact Hs|]. cbn [f_buffer f_interlaced f_width f_height set_interlaced set_buffer].
    assert (El : len b = n) by (unfold len; lia). rewrite El. auto.
  - split; [exact I|]. split; [exact Hs|reflexivity].
Qed.
End FD.
