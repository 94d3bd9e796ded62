(** Encoder calls write a fixed byte string, or stop with the writer's error inside it. *)
From Verif Require Import Base Common Lzw Encoder.
Open Scope N_scope.

(** Outcomes of [Write::write] that [write_all] survives. *)
Definition harmless (a : wact) : Prop := match a with WIntr => True | WAccept n => (0 < n)%nat | WFail _ => False end.
(** Error reported for the others. *)
Definition fault (a : wact) : option iokind :=
  match a with WFail k => Some (OtherIo k) | WAccept O => Some WriteZero | _ => None end.

(** What became of writer [w] when [bs] were to be written with result [r]. *)
Inductive wrote {A} (w w' : writer) (bs : list N) (r x : eres A) : Prop :=
| wrote_all used : w_out w' = w_out w ++ bs -> x = r -> w_plan w = used ++ w_plan w' -> Forall harmless used ->
    wrote w w' bs r x
| wrote_part used a k pre suf : bs = pre ++ suf -> suf <> [] -> w_out w' = w_out w ++ pre -> x = Err (EIo k) ->
    w_plan w = used ++ a :: w_plan w' -> Forall harmless used -> fault a = Some k -> wrote w w' bs r x.

Definition wlin {A} (m : W A) (bs : list N) (r : eres A) : Prop :=
  forall w w' x, m w = (w', x) -> wrote w w' bs r x.

Lemma wlin_eq {A} (m : W A) bs bs' r : wlin m bs r -> bs = bs' -> wlin m bs' r.
Proof. intros H <-. exact H. Qed.

Lemma wlin_ret {A} (a : A) : wlin (wret a) [] (Ok a).
Proof.
  intros w w' x [= <- <-]. apply wrote_all with (used := []); auto. now rewrite app_nil_r.
Qed.
Lemma wlin_err {A} e : wlin (@werr A e) [] (Err e).
Proof.
  intros w w' x [= <- <-]. apply wrote_all with (used := []); auto. now rewrite app_nil_r.
Qed.

Lemma wlin_bind {A B} (m : W A) (f : A -> W B) b1 a b2 r :
  wlin m b1 (Ok a) -> wlin (f a) b2 r -> wlin (wbind m f) (b1 ++ b2) r.
Proof.
  intros Hm Hf w w' x H. unfold wbind in H. destruct (m w) as [w1 y] eqn:E.
  apply Hm in E. destruct E as [used E1 E2 E3 E4|used ac k pre suf E1 E2 E3 E4 E5 E6 E7]; subst y.
  - apply Hf in H. destruct H as [used2 H1 H2 H3 H4|used2 ac k pre suf H1 H2 H3 H4 H5 H6 H7].
    + apply wrote_all with (used := used ++ used2); auto.
      * rewrite H1, E1. now rewrite app_assoc.
      * rewrite E3, H3. now rewrite app_assoc.
      * apply Forall_app. auto.
    + apply wrote_part with (used := used ++ used2) (a := ac) (k := k) (pre := b1 ++ pre) (suf := suf); auto.
      * rewrite H1. now rewrite app_assoc.
      * rewrite H3, E1. now rewrite app_assoc.
      * rewrite E3, H5. now rewrite app_assoc.
      * apply Forall_app. auto.
  - injection H as <- <-.
    apply wrote_part with (used := used) (a := ac) (k := k) (pre := pre) (suf := suf ++ b2); auto.
    + rewrite E1. now rewrite app_assoc.
    + destruct suf; [congruence|discriminate].
Qed.
Lemma wlin_bind_err {A B} (m : W A) (f : A -> W B) b1 e : wlin m b1 (Err e) -> wlin (wbind m f) b1 (Err e).
Proof.
  intros Hm w w' x H. unfold wbind in H. destruct (m w) as [w1 y] eqn:E.
  apply Hm in E. destruct E as [used E1 E2 E3 E4|used ac k pre suf E1 E2 E3 E4 E5 E6 E7]; subst y; injection H as <- <-.
  - eapply wrote_all; eauto.
  - eapply wrote_part; eauto.
Qed.

Lemma write_all_lin buf : wlin (write_all buf) buf (Ok tt).
Proof.
  intros w w' x. unfold write_all. destruct w as [out plan]. cbn [w_out w_plan].
  revert out buf w' x. induction plan as [|a plan IH]; intros out buf w' x H.
  - destruct buf as [|b buf]; injection H as <- <-; apply wrote_all with (used := []); auto.
    cbn. now rewrite app_nil_r.
  - destruct buf as [|b buf].
    { injection H as <- <-. apply wrote_all with (used := []); auto. cbn. now rewrite app_nil_r. }
    cbn [write_all_plan] in H.
    destruct a as [[|n]| |k].
    + injection H as <- <-. apply wrote_part with (used := []) (a := WAccept 0) (k := WriteZero) (pre := []) (suf := b :: buf); auto;
        [discriminate|]. cbn. now rewrite app_nil_r.
    + apply IH in H. destruct H as [used H1 H2 H3 H4|used ac k pre suf H1 H2 H3 H4 H5 H6 H7]; cbn [w_out w_plan] in *.
      * apply wrote_all with (used := WAccept (S n) :: used); auto.
        -- cbn [w_out]. rewrite H1, <- app_assoc, firstn_skipn. reflexivity.
        -- cbn. now rewrite H3.
        -- constructor; [cbn; lia|exact H4].
      * idtac.
        apply wrote_part with (used := WAccept (S n) :: used) (a := ac) (k := k) (pre := firstn (S n) (b :: buf) ++ pre) (suf := suf); auto.
        -- rewrite <- app_assoc, <- H1, firstn_skipn. reflexivity.
        -- cbn [w_out]. rewrite H3, app_assoc. reflexivity.
        -- cbn. now rewrite H5.
        -- constructor; [cbn; lia|exact H6].
    + apply IH in H. cbn [w_out w_plan] in H. destruct H as [used H1 H2 H3 H4|used ac k pre suf H1 H2 H3 H4 H5 H6 H7].
      * apply wrote_all with (used := WIntr :: used); auto; [cbn in *; now rewrite H3|constructor; [exact I|exact H4]].
      * eapply wrote_part with (used := WIntr :: used); eauto; [cbn in *; now rewrite H5|constructor; [exact I|exact H6]].
    + injection H as <- <-. apply wrote_part with (used := []) (a := WFail k) (k := OtherIo k) (pre := []) (suf := b :: buf); auto;
        [discriminate|]. cbn. now rewrite app_nil_r.
Qed.

Lemma write_u8_lin n : wlin (write_u8 n) [n] (Ok tt).
Proof. apply write_all_lin. Qed.
Lemma write_u16_lin n : wlin (write_u16 n) (le16 n) (Ok tt).
Proof. apply write_all_lin. Qed.

Lemma tb_writes_ok n bs : forall d, (length d + length (concat bs) <= n)%nat ->
  tb_writes (mk_tmp n d) bs = Ok (mk_tmp n (d ++ concat bs)).
Proof.
  induction bs as [|b bs IH]; intros d H; cbn [tb_writes concat] in *; [now rewrite app_nil_r|].
  rewrite app_length in H. unfold tb_write. cbn [tb_data tb_n].
  destruct (Nat.leb_spec (length d + length b) n); [|lia].
  rewrite IH by (rewrite app_length; lia). now rewrite app_assoc.
Qed.
Lemma tmp_lin n bs : length (concat bs) = n -> wlin (tmp_then_finish n bs) (concat bs) (Ok tt).
Proof.
  intros Hn w w' x H. unfold tmp_then_finish, tmp_buf in H. rewrite tb_writes_ok in H by (cbn; lia).
  unfold tb_finish in H. cbn [tb_data tb_n app] in H. rewrite Hn, Nat.eqb_refl, Nat.sub_diag in H. cbn [repeat] in H.
  rewrite app_nil_r in H. apply write_all_lin in H. exact H.
Qed.

Lemma wfor_lin {A} (f : A -> W unit) (g : A -> list N) l : (forall x, In x l -> wlin (f x) (g x) (Ok tt)) ->
  wlin (wfor f l) (flat_map g l) (Ok tt).
Proof.
  induction l as [|x l IH]; intros H; cbn [wfor flat_map]; [apply wlin_ret|].
  eapply wlin_bind; [apply H; now left|]. apply IH. intros y Hy. apply H. now right.
Qed.

(** The same at the level of the encoder: [bs] are written and [r] returned, whatever the encoder's
    scratch buffer; [gp'] says whether there is a global palette afterwards. *)
Definition elin {A} (op : encoder -> encoder * eres A) (gp : bool) (bs : list N) (r : eres A) : Prop :=
  forall e w, e_w e = Some w -> e_global_palette e = gp ->
  forall e' x, op e = (e', x) ->
  exists w', e_w e' = Some w' /\ e_width e' = e_width e /\ e_height e' = e_height e /\ wrote w w' bs r x /\
    e_global_palette e' = gp.

Lemma with_writer_elin {A} (m : W A) bs r gp : wlin m bs r -> elin (fun e => with_writer e m) gp bs r.
Proof.
  intros Hm e w Hw Hg e' x H. unfold with_writer in H. rewrite Hw in H.
  destruct (m w) as [w' y] eqn:E. apply Hm in E. injection H as <- <-.
  exists w'. auto 10.
Qed.
