(** Properties of the encoder in the form in which they are claimed. *)
From Verif Require Import Base Common Lzw Encoder Stream SpecGif SpecEnc EncLin EncSpec EncSession.
Open Scope N_scope.

(** ** Colour tables (C04) *)
Lemma table_rule p : bytes_ok p ->
  (check_color_table p = Err (EFormat TooManyColors) <-> (256 < length p / 3)%nat) /\
  ((length p / 3 <= 256)%nat -> exists t padding k, check_color_table p = Ok (t, padding, k) /\
     t = firstn (3 * (length p / 3)) p /\
     N.of_nat (length p / 3) + padding = 2 ^ (k + 1) /\ k <= 7 /\
     forall k', N.of_nat (length p / 3) <= 2 ^ (k' + 1) -> k <= k').
Proof.
  intros _. rewrite check_color_table_spec. unfold table_check. unfold colors. set (n := (length p / 3)%nat).
  destruct (Nat.ltb_spec 256 n) as [H|H].
  - split; [split; [lia|reflexivity]|lia].
  - split; [split; [discriminate|lia]|]. intros _. eexists _, _, _. split; [reflexivity|]. split; [reflexivity|].
    destruct (size_field_fits n H) as [H1 H2]. split; [lia|]. split; [exact H2|].
    intros k' Hk'. assert (Hs : forall k, In k [0;1;2;3;4;5;6;7] -> N.of_nat n <= 2 ^ (k + 1) -> size_field n <= k).
    { intros k Hin Hk.
      assert (Hall : forallb (fun n => forallb (fun k => implb (N.of_nat n <=? 2 ^ (k + 1)) (size_field n <=? k)) [0;1;2;3;4;5;6;7]) (seq 0 257) = true)
        by (vm_compute; reflexivity).
      rewrite forallb_forall in Hall. specialize (Hall n ltac:(apply in_seq; lia)). rewrite forallb_forall in Hall.
      specialize (Hall k Hin). apply N.leb_le in Hk. rewrite Hk in Hall. now apply N.leb_le. }
    destruct (N.leb_spec 8 k') as [H8|H8]; [lia|]. apply Hs; [|exact Hk'].
    assert (C : k' = 0 \/ k' = 1 \/ k' = 2 \/ k' = 3 \/ k' = 4 \/ k' = 5 \/ k' = 6 \/ k' = 7) by lia.
    cbn [In]. intuition.
Qed.

(** The bytes written for a table: the colours in their places, then black. *)
Lemma table_bytes p t padding k w w' : w_plan w = [] -> check_color_table p = Ok (t, padding, k) ->
  write_color_table t padding w = (w', Ok tt) -> w_out w' = w_out w ++ t ++ repeat 0 (3 * N.to_nat padding).
Proof.
  intros Hp Hc Hw. rewrite check_color_table_spec in Hc. unfold table_check in Hc. destruct (_ <? _)%nat; [discriminate|].
  injection Hc as <- <- <-. pose proof (color_table_lin p w w' _ Hw) as H.
  destruct H as [used F1 F2 F3 F4|used ac k pre suf F1 F2 F3 F4 F5 F6 F7]; [|discriminate F4].
  rewrite F1. unfold padded. do 3 f_equal. lia.
Qed.

(** ** Sub-block framing (C06) *)

(** A reader of sub-blocks: size byte, that many bytes, until size zero. *)
Fixpoint unframe (fuel : nat) (s : list N) : option (list (list N) * list N) :=
  match fuel, s with
  | S f, n :: s' =>
    if n =? 0 then Some ([], s')
    else if (N.to_nat n <=? length s')%nat then
      match unframe f (skipn (N.to_nat n) s') with
      | Some (bs, r) => Some (firstn (N.to_nat n) s' :: bs, r)
      | None => None
      end
    else None
  | _, _ => None
  end.

Lemma unframe_ser_subs subs : Forall (fun b => (0 < length b <= 255)%nat) subs -> forall tl fuel,
  (length (ser_subs subs) <= fuel)%nat -> unframe fuel (ser_subs subs ++ tl) = Some (subs, tl).
Proof.
  unfold ser_subs. induction subs as [|b subs IH]; intros Hs tl fuel Hf.
  { destruct fuel as [|fuel]; [cbn in Hf; lia|]. reflexivity. }
  inversion Hs as [|? ? H1 H2]; subst. cbn [map concat] in *. change (ser_sub b) with (N.of_nat (length b) :: b) in *.
  rewrite <- !app_assoc in *. cbn [app length] in *. destruct fuel as [|fuel]; [lia|]. cbn [unframe].
  destruct (N.eqb_spec (N.of_nat (length b)) 0); [lia|]. rewrite Nat2N.id.
  destruct (Nat.leb_spec (length b) (length (b ++ concat (map ser_sub subs) ++ 0 :: tl))) as [_|Hx].
  2:{ rewrite !app_length in Hx. lia. }
  rewrite firstn_app, skipn_app, firstn_all, skipn_all, Nat.sub_diag. cbn [firstn skipn app]. rewrite app_nil_r.
  change (0 :: tl) with ([0] ++ tl). rewrite app_assoc.
  rewrite IH; [reflexivity|exact H2|]. rewrite !app_length in *. lia.
Qed.

Lemma frames_of_data (data : list N) tl : exists subs,
  Forall (fun b => (0 < length b <= 255)%nat) subs /\ concat subs = data /\
  forall fuel, (length (ser_subs subs) <= fuel)%nat -> unframe fuel (ser_subs subs ++ tl) = Some (subs, tl).
Proof.
  exists (cut_subs data). split; [apply cut_subs_sizes|]. split; [apply cut_subs_concat|]. intros fuel Hf.
  apply unframe_ser_subs; [apply cut_subs_sizes|exact Hf].
Qed.

Lemma image_block_framing m data w w' : w_plan w = [] ->
  write_encoded_image_block (m :: data) w = (w', Ok tt) ->
  exists fr subs, w_out w' = w_out w ++ m :: fr /\ concat subs = data /\ Forall (fun b => (0 < length b <= 255)%nat) subs /\
    forall tl fuel, (length fr <= fuel)%nat -> unframe fuel (fr ++ tl) = Some (subs, tl).
Proof.
  intros Hp H. apply image_block_lin in H. destruct H as [used F1 F2 F3 F4|used ac k pre suf F1 F2 F3 F4 F5 F6 F7]; [|discriminate F4].
  exists (ser_subs (cut_subs data)), (cut_subs data). split; [exact F1|]. split; [apply cut_subs_concat|]. split; [apply cut_subs_sizes|].
  intros tl fuel Hf. apply unframe_ser_subs; [apply cut_subs_sizes|exact Hf].
Qed.

Lemma raw_ext_framing e w l data e' : e_w e = Some w -> w_plan w = [] ->
  write_raw_extension e l data = (e', Ok tt) ->
  exists w' fr subs, e_w e' = Some w' /\ w_out w' = w_out w ++ 0x21 :: l :: fr /\ concat subs = concat data /\
    Forall (fun b => (0 < length b <= 255)%nat) subs /\
    forall tl fuel, (length fr <= fuel)%nat -> unframe fuel (fr ++ tl) = Some (subs, tl).
Proof.
  intros Hw Hp H. unfold write_raw_extension in H.
  assert (Hl : wlin (write_u8 (block_u8 BkExtension) ;;; write_u8 l ;;;
     wfor (fun block => wfor (fun chunk => write_u8 (len chunk mod 256) ;;; write_all chunk) (chunks 255 block)) data ;;;
     write_u8 0) (0x21 :: l :: ser_subs (flat_map cut_subs data)) (Ok tt)).
  { eapply wlin_eq.
    - eapply wlin_bind; [apply write_u8_lin|]. eapply wlin_bind; [apply write_u8_lin|]. eapply wlin_bind; [apply raw_lin|apply write_u8_lin].
    - reflexivity. }
  apply with_writer_elin with (gp := e_global_palette e) in Hl. destruct (Hl e w Hw eq_refl _ _ H) as (w' & V1 & _ & _ & V4 & _).
  destruct V4 as [used F1 F2 F3 F4|used ac k pre suf F1 F2 F3 F4 F5 F6 F7]; [|discriminate F4].
  assert (Hs : Forall (fun b => (0 < length b <= 255)%nat) (flat_map cut_subs data)).
  { apply Forall_forall. intros b Hin. apply in_flat_map in Hin. destruct Hin as (blk & _ & Hb).
    exact (proj1 (Forall_forall _ _) (cut_subs_sizes blk) b Hb). }
  exists w', (ser_subs (flat_map cut_subs data)), (flat_map cut_subs data). split; [exact V1|]. split; [exact F1|].
  split.
  { clear. induction data as [|b data IH]; [reflexivity|]. cbn [flat_map concat]. now rewrite concat_app, cut_subs_concat, IH. }
  split; [exact Hs|]. intros tl fuel Hf. now apply unframe_ser_subs.
Qed.

(** ** Code size (C12) *)
Lemma code_size_rule data : bytes_ok data ->
  2 <= min_code_size data <= 8 /\ Forall (fun b => b < 2 ^ min_code_size data) data /\
  forall m, 2 <= m -> Forall (fun b => b < 2 ^ m) data -> min_code_size data <= m.
Proof.
  intros Hb. rewrite min_code_size_spec by exact Hb. split; [apply code_bits_range|]. split; [now apply code_bits_fit|].
  intros m Hm Hf. destruct (N.leb_spec 8 m) as [H8|H8]; [pose proof (code_bits_range data); lia|].
  unfold code_bits. assert (Hfb : forallb (fun b => b <? 2 ^ m) data = true).
  { apply forallb_forall. intros b Hin. apply N.ltb_lt. exact (proj1 (Forall_forall _ _) Hf b Hin). }
  cbn [find]. assert (C : m = 2 \/ m = 3 \/ m = 4 \/ m = 5 \/ m = 6 \/ m = 7) by lia.
  repeat (match goal with |- context [if ?b then _ else _] => destruct b eqn:? end;
    [repeat (destruct C as [->|C]; [first [lia|congruence]|]); subst m; first [lia|congruence]|]).
  repeat (destruct C as [->|C]; [congruence|]); subst m; congruence.
Qed.

(** ** Accepting and refusing (C09) *)
Lemma write_frame_accepts L dbg e w f e' r : frame_rng f -> e_w e = Some w -> Forall harmless (w_plan w) ->
  (dbg = false \/ 0 < f_width f * f_height f) ->
  run_op L dbg e (OWriteFrame f) = (e', r) ->
  let bad_size := len (f_buffer f) < f_width f * f_height f in
  let bad_palette := match f_palette f with
                     | Some p => (256 < length p / 3)%nat
                     | None => e_global_palette e = false
                     end in
  (r = Ok tt <-> ~ bad_size /\ ~ bad_palette) /\
  (bad_size -> r = Err (EIo InvalidInput) /\ e_w e' = Some w) /\ (r = Ok tt \/ exists er, r = Err er).
Proof.
  intros Rf Hw Hh Hd H. cbn zeta.
  destruct (op_lin L dbg (OWriteFrame f) (e_global_palette e) Rf e w Hw eq_refl _ _ H) as (w' & V1 & _ & _ & V4 & V5).
  destruct V4 as [used F1 F2 F3 F4|used ac k pre suf F1 F2 F3 F4 F5 F6 F7].
  2:{ exfalso. rewrite F5 in Hh. apply Forall_app in Hh. destruct Hh as [_ Hh]. inversion Hh; subst. eapply fault_not_harmless; eauto. }
  cbn [op_result] in F2. destruct (N.ltb_spec (len (f_buffer f)) (f_width f * f_height f)) as [Hb|Hb].
  - subst r. split; [split; [discriminate|tauto]|]. split; [|right; eauto]. intros _. split; [reflexivity|].
    rewrite V1. f_equal. cbn [run_op] in H. unfold write_frame in H. apply N.ltb_lt in Hb. rewrite Hb in H. injection H as <-. congruence.
  - replace (dbg && (f_width f * f_height f =? 0) && negb (is_nil (f_buffer f))) with false in F2.
    2:{ destruct Hd as [->|Hd]; [reflexivity|]. destruct (N.eqb_spec (f_width f * f_height f) 0); [lia|]. destruct dbg; reflexivity. }
    unfold palette_error in F2. split; [|split; [lia|]].
    + destruct (f_palette f) as [p|].
      * change (colors p) with (length p / 3)%nat in F2. destruct (Nat.ltb_spec 256 (length p / 3)) as [Hp|Hp]; subst r.
        -- split; [discriminate|]. intros [_ Hx]. contradiction.
        -- split; [intros _; split; lia|reflexivity].
      * destruct (e_global_palette e); subst r; [split; [intros _; split; [lia|discriminate]|reflexivity]|].
        split; [discriminate|]. intros [_ Hx]. congruence.
    + subst r. destruct (f_palette f) as [p|]; [destruct (256 <? colors p)%nat|destruct (e_global_palette e)]; eauto.
Qed.

(** ** Independence of the history (C13) *)
Lemma frame_bytes_history L dbg o e1 e2 w1 w2 e1' e2' r1 r2 : op_rng o ->
  e_w e1 = Some w1 -> e_w e2 = Some w2 -> e_global_palette e1 = e_global_palette e2 ->
  Forall harmless (w_plan w1) -> Forall harmless (w_plan w2) ->
  run_op L dbg e1 o = (e1', r1) -> run_op L dbg e2 o = (e2', r2) ->
  r1 = r2 /\ exists w1' w2' bs, e_w e1' = Some w1' /\ e_w e2' = Some w2' /\ w_out w1' = w_out w1 ++ bs /\ w_out w2' = w_out w2 ++ bs.
Proof.
  intros Ro H1 H2 Hg P1 P2 E1 E2.
  destruct (op_lin L dbg o (e_global_palette e1) Ro e1 w1 H1 eq_refl _ _ E1) as (w1' & V1 & _ & _ & V4 & _).
  destruct (op_lin L dbg o (e_global_palette e1) Ro e2 w2 H2 (eq_sym Hg) _ _ E2) as (w2' & U1 & _ & _ & U4 & _).
  destruct V4 as [used F1 F2 F3 F4|used ac k pre suf F1 F2 F3 F4 F5 F6 F7].
  2:{ exfalso. rewrite F5 in P1. apply Forall_app in P1. destruct P1 as [_ P1]. inversion P1; subst. eapply fault_not_harmless; eauto. }
  destruct U4 as [used2 G1 G2 G3 G4|used2 ac k pre suf G1 G2 G3 G4 G5 G6 G7].
  2:{ exfalso. rewrite G5 in P2. apply Forall_app in P2. destruct P2 as [_ P2]. inversion P2; subst. eapply fault_not_harmless; eauto. }
  split; [congruence|]. exists w1', w2', (op_bytes L dbg (e_global_palette e1) o). auto.
Qed.

(** ** Control extensions (C05) *)
Lemma control_bytes L dbg e w delay d ui t e' : u16_ok delay -> (forall x, t = Some x -> byte_ok x) ->
  e_w e = Some w -> w_plan w = [] ->
  run_op L dbg e (OExt (new_control_ext delay d ui t)) = (e', Ok tt) ->
  exists w' p, e_w e' = Some w' /\ w_out w' = w_out w ++ [0x21; 0xF9; 4] ++ p ++ [0] /\ length p = 4%nat /\ bytes_ok p /\
    ctl_of p = mk_ctl delay d t ui.
Proof.
  intros Rd Rt Hw Hp H.
  pose proof (control_ext_spec (mk_frame delay d t ui 0 0 0 0 false None [])) as Ec. cbn [f_delay f_dispose f_needs_user_input f_transparent] in Ec.
  rewrite Ec in H.
  destruct (control_lin (control_flags d ui t) delay (match t with Some t => t | None => 0 end) (e_global_palette e) Rd e w Hw eq_refl _ _ H)
    as (w' & V1 & _ & _ & V4 & _).
  destruct V4 as [used F1 F2 F3 F4|used ac k pre suf F1 F2 F3 F4 F5 F6 F7]; [|discriminate F4].
  exists w', ([control_flags d ui t] ++ word delay ++ [match t with Some t => t | None => 0 end]).
  split; [exact V1|]. split; [rewrite F1; reflexivity|]. split; [reflexivity|]. split.
  - unfold u16_ok in Rd. repeat constructor; unfold byte_ok; try lia.
    + unfold control_flags. destruct d, ui, t; cbn; lia.
    + destruct t as [x|]; [apply (Rt x eq_refl)|lia].
  - unfold ctl_of, word. cbn [app nth]. assert (Hd : delay mod 256 + 256 * (delay / 256) = delay) by lia. rewrite Hd.
    unfold control_flags. destruct d, ui, t; reflexivity.
Qed.
