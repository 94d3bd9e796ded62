(** The encoder's calls write the blocks they stand for ([SpecEnc]). *)
From Verif Require Import Base Common Lzw Encoder Stream SpecGif SpecEnc EncLin.
Open Scope N_scope.

(** ** Sub-blocks *)
Lemma chunks_exact_pieces fuel : forall n l, (0 < n)%nat -> (length l <= fuel)%nat ->
  let '(cs, r) := chunks_exact_f fuel n l in
  pieces fuel n l = cs ++ (if is_nil r then [] else [r]) /\ Forall (fun c => length c = n) cs /\ (length r < n)%nat.
Proof.
  induction fuel as [|fuel IH]; intros n l Hn Hl.
  { destruct l; [|cbn in Hl; lia]. cbn. auto. }
  cbn [chunks_exact_f pieces]. destruct (Nat.leb_spec n (length l)) as [H|H].
  - specialize (IH n (skipn n l) Hn). rewrite skipn_length in IH.
    destruct (chunks_exact_f fuel n (skipn n l)) as [cs r]. destruct IH as (I1 & I2 & I3); [lia|].
    destruct l as [|x l]; [cbn in H; lia|]. rewrite I1. split; [reflexivity|]. split; [|exact I3].
    constructor; [rewrite firstn_length; lia|exact I2].
  - destruct l as [|x l]; cbn [is_nil app]; [split; [reflexivity|]; split; [constructor|lia]|].
    rewrite firstn_all2, skipn_all2 by lia. split; [|split; [constructor|lia]].
    destruct fuel; reflexivity.
Qed.

Lemma chunks_pieces l : chunks 255 l = cut_subs l.
Proof.
  unfold chunks, chunks_exact, cut_subs. pose proof (chunks_exact_pieces (length l) 255 l ltac:(lia) (Nat.le_refl _)) as H.
  destruct (chunks_exact_f (length l) 255 l) as [cs r]. destruct H as [H _]. now rewrite H.
Qed.

Lemma pieces_spec fuel : forall n l, (0 < n)%nat -> (length l <= fuel)%nat ->
  concat (pieces fuel n l) = l /\ Forall (fun b => (0 < length b <= n)%nat) (pieces fuel n l) /\
  (bytes_ok l -> Forall bytes_ok (pieces fuel n l)).
Proof.
  induction fuel as [|fuel IH]; intros n l Hn Hl.
  { destruct l; [|cbn in Hl; lia]. cbn. repeat split; constructor. }
  destruct l as [|x l]; cbn [pieces]; [repeat split; constructor|].
  destruct (IH n (skipn n (x :: l)) Hn) as (I1 & I2 & I3); [rewrite skipn_length; cbn [length] in *; lia|].
  cbn [concat]. rewrite I1, firstn_skipn. split; [reflexivity|]. split.
  - constructor; [rewrite firstn_length; cbn [length]; lia|exact I2].
  - intros Hb. constructor; [|apply I3].
    + apply Forall_forall. intros y Hy. eapply Forall_forall; [exact Hb|]. rewrite <- (firstn_skipn n (x :: l)). apply in_or_app. auto.
    + apply Forall_forall. intros y Hy. eapply Forall_forall; [exact Hb|]. rewrite <- (firstn_skipn n (x :: l)). apply in_or_app. auto.
Qed.
Lemma cut_subs_concat l : concat (cut_subs l) = l.
Proof. apply pieces_spec; lia. Qed.
Lemma cut_subs_sizes l : Forall (fun b => (0 < length b <= 255)%nat) (cut_subs l).
Proof. apply pieces_spec; lia. Qed.
Lemma cut_subs_bytes l : bytes_ok l -> Forall bytes_ok (cut_subs l).
Proof. apply pieces_spec; lia. Qed.
Lemma cut_subs_nil l : cut_subs l = [] -> l = [].
Proof. intros H. rewrite <- (cut_subs_concat l), H. reflexivity. Qed.

Lemma flat_map_map {A B C} (f : A -> B) (g : B -> list C) l : flat_map g (map f l) = flat_map (fun x => g (f x)) l.
Proof. rewrite !flat_map_concat_map, map_map. reflexivity. Qed.

Lemma ser_sub_len b : (length b <= 255)%nat -> len b mod 256 = N.of_nat (length b).
Proof. intros H. unfold len. apply N.mod_small. lia. Qed.

Lemma image_block_lin m data : wlin (write_encoded_image_block (m :: data)) (m :: ser_subs (cut_subs data)) (Ok tt).
Proof.
  unfold write_encoded_image_block. pose proof (chunks_exact_pieces (length data) 255 data ltac:(lia) (Nat.le_refl _)) as H.
  unfold chunks_exact. destruct (chunks_exact_f (length data) 255 data) as [cs r].
  destruct H as (H1 & H2 & H3). fold (cut_subs data) in H1.
  eapply wlin_eq.
  { eapply wlin_bind; [apply write_u8_lin|]. eapply wlin_bind.
    { apply wfor_lin with (g := ser_sub). intros b Hb. unfold ser_sub.
      eapply Forall_forall in H2; [|exact Hb]. rewrite H2. change (N.of_nat 255) with 0xFF.
      change (0xFF :: b) with ([0xFF] ++ b). eapply wlin_bind; [apply write_u8_lin|apply write_all_lin]. }
    eapply wlin_bind with (b1 := concat (map ser_sub (if is_nil r then [] else [r]))) (a := tt).
    { destruct r as [|x r]; cbn [is_nil map concat]; [apply wlin_ret|].
      eapply wlin_eq; [eapply wlin_bind; [apply write_u8_lin|apply write_all_lin]|].
      rewrite ser_sub_len by (cbn [length] in *; lia). rewrite app_nil_r. reflexivity. }
    apply write_u8_lin. }
  rewrite H1. unfold ser_subs. rewrite map_app, concat_app, <- !flat_map_concat_map, <- app_assoc. reflexivity.
Qed.

Lemma raw_lin data : wlin (wfor (fun block => wfor (fun chunk => write_u8 (len chunk mod 256) ;;; write_all chunk)
    (chunks 255 block)) data) (concat (map ser_sub (flat_map cut_subs data))) (Ok tt).
Proof.
  eapply wlin_eq.
  { apply wfor_lin with (g := fun block => flat_map ser_sub (cut_subs block)). intros block _. rewrite chunks_pieces.
    apply wfor_lin. intros c Hc. pose proof (cut_subs_sizes block) as Hs. eapply Forall_forall in Hs; [|exact Hc].
    eapply wlin_eq; [eapply wlin_bind; [apply write_u8_lin|apply write_all_lin]|].
    rewrite ser_sub_len by lia. reflexivity. }
  induction data as [|b data IH]; [reflexivity|]. cbn [flat_map]. rewrite map_app, concat_app, IH.
  f_equal. apply flat_map_concat_map.
Qed.

(** ** Colour tables *)
Lemma flag_size_spec n : (n <= 256)%nat -> flag_size (N.of_nat n) = size_field n.
Proof.
  assert (H : forallb (fun n => flag_size (N.of_nat n) =? size_field n) (seq 0 257) = true) by (vm_compute; reflexivity).
  intros Hn. rewrite forallb_forall in H. apply N.eqb_eq. apply H. apply in_seq. lia.
Qed.
Lemma size_field_fits n : (n <= 256)%nat -> N.of_nat n <= 2 ^ (size_field n + 1) /\ size_field n <= 7.
Proof.
  assert (H : forallb (fun n => (N.of_nat n <=? 2 ^ (size_field n + 1)) && (size_field n <=? 7)) (seq 0 257) = true) by (vm_compute; reflexivity).
  intros Hn. rewrite forallb_forall in H. specialize (H n). rewrite andb_true_iff in H.
  destruct H as [H1 H2]; [apply in_seq; lia|]. split; apply N.leb_le; assumption.
Qed.

Definition table_check (p : list N) : eres (list N * N * N) :=
  if (256 <? colors p)%nat then Err (EFormat TooManyColors)
  else Ok (firstn (3 * colors p) p, 2 ^ (size_field (colors p) + 1) - N.of_nat (colors p), size_field (colors p)).

Lemma check_color_table_spec p : check_color_table p = table_check p.
Proof.
  unfold check_color_table, table_check, colors. set (n := (length p / 3)%nat).
  assert (E : len p / 3 = N.of_nat n) by (unfold len, n; lia). rewrite E.
  destruct (Nat.ltb_spec 256 n) as [H|H]; destruct (N.ltb_spec 256 (N.of_nat n)); try lia; [reflexivity|].
  rewrite flag_size_spec by lia. replace (N.to_nat (N.of_nat n * 3)) with (3 * n)%nat by lia.
  replace (N.shiftl 2 (size_field n)) with (2 ^ (size_field n + 1)); [reflexivity|].
  rewrite N.shiftl_mul_pow2, N.pow_add_r. change (2 ^ 1) with 2. lia.
Qed.

Lemma color_table_lin p : wlin (write_color_table (firstn (3 * colors p) p) (2 ^ (size_field (colors p) + 1) - N.of_nat (colors p)))
  (padded p) (Ok tt).
Proof.
  unfold write_color_table, padded. eapply wlin_eq.
  { eapply wlin_bind; [apply write_all_lin|]. apply wfor_lin with (g := fun _ => [0; 0; 0]). intros u _. apply write_all_lin. }
  f_equal. replace (N.to_nat (2 ^ (size_field (colors p) + 1) - N.of_nat (colors p))) with
    (N.to_nat (2 ^ (size_field (colors p) + 1)) - colors p)%nat by lia.
  generalize (N.to_nat (2 ^ (size_field (colors p) + 1)) - colors p)%nat as k. induction k as [|k IH]; [reflexivity|].
  cbn [repeat flat_map]. rewrite IH. replace (3 * S k)%nat with (3 + 3 * k)%nat by lia. reflexivity.
Qed.
Lemma padded_length p : (colors p <= 256)%nat -> length (padded p) = (3 * N.to_nat (2 ^ (size_field (colors p) + 1)))%nat.
Proof.
  intros H. unfold padded. rewrite app_length, repeat_length, firstn_length.
  destruct (size_field_fits _ H) as [H1 _]. unfold colors in *. lia.
Qed.

(** ** Code size *)
Lemma scan_max_spec data : forall m, m <= 127 -> bytes_ok data ->
  let M := scan_max m data in
  (M <= 127 /\ m <= M /\ Forall (fun b => b <= M) data /\ (M = m \/ In M data)) \/ (127 < M < 256 /\ In M data).
Proof.
  induction data as [|b data IH]; intros m Hm Hb; cbn [scan_max].
  { left. split; [exact Hm|]. split; [lia|]. split; [constructor|auto]. }
  inversion Hb as [|? ? Hb1 Hb2]; subst. unfold byte_ok in Hb1.
  destruct (N.ltb_spec m b) as [H|H]; [destruct (N.ltb_spec 127 b) as [H'|H']|].
  - right. split; [lia|now left].
  - destruct (IH b H' Hb2) as [(I1 & I2 & I3 & I4)|(I1 & I2)].
    + left. split; [exact I1|]. split; [lia|]. split; [constructor; [lia|exact I3]|].
      destruct I4 as [I4|I4]; [rewrite I4; right; now left|right; now right].
    + right. split; [exact I1|now right].
  - destruct (IH m Hm Hb2) as [(I1 & I2 & I3 & I4)|(I1 & I2)].
    + left. split; [exact I1|]. split; [lia|]. split; [constructor; [lia|exact I3]|].
      destruct I4 as [I4|I4]; [now left|right; now right].
    + right. split; [exact I1|now right].
Qed.

Lemma min_code_size_1 x : x < 256 -> trailing_zeros (next_power_of_two (N.max (x + 1) 4)) = code_bits [x].
Proof.
  assert (H : forallb (fun x => trailing_zeros (next_power_of_two (N.max (N.of_nat x + 1) 4)) =? code_bits [N.of_nat x]) (seq 0 256) = true)
    by (vm_compute; reflexivity).
  intros Hx. rewrite forallb_forall in H. specialize (H (N.to_nat x)). rewrite N2Nat.id in H. apply N.eqb_eq. apply H.
  apply in_seq. lia.
Qed.

Lemma find_ext {A} (f g : A -> bool) l : (forall x, In x l -> f x = g x) -> find f l = find g l.
Proof.
  induction l as [|x l IH]; intros H; [reflexivity|]. cbn [find]. rewrite (H x) by now left.
  destruct (g x); [reflexivity|]. apply IH. intros y Hy. apply H. now right.
Qed.

Lemma min_code_size_spec data : bytes_ok data -> min_code_size data = code_bits data.
Proof.
  intros Hb. unfold min_code_size. set (M := scan_max 0 data).
  assert (HM : M < 256).
  { destruct (scan_max_spec data 0 ltac:(lia) Hb) as [(H1 & _)|(H1 & _)]; fold M in H1; lia. }
  rewrite min_code_size_1 by exact HM. unfold code_bits.
  erewrite find_ext; [reflexivity|]. intros m Hm. cbn beta. cbn [forallb]. rewrite andb_true_r.
  destruct (scan_max_spec data 0 ltac:(lia) Hb) as [(H1 & H2 & H3 & H4)|(H1 & H2)]; fold M in H1, H2; [fold M in H3, H4|].
  - destruct (M <? 2 ^ m) eqn:E; symmetry.
    + apply forallb_forall. intros b Hin. eapply Forall_forall in H3; [|exact Hin]. apply N.ltb_lt in E. apply N.ltb_lt. lia.
    + destruct H4 as [H4|H4].
      * exfalso. apply N.ltb_ge in E. rewrite H4 in E. pose proof (N.pow_nonzero 2 m ltac:(lia)). lia.
      * destruct (forallb (fun b => b <? 2 ^ m) data) eqn:E2; [|reflexivity].
        rewrite forallb_forall in E2. specialize (E2 _ H4). congruence.
  - destruct (M <? 2 ^ m) eqn:E.
    + assert (m = 8) as ->.
      { apply N.ltb_lt in E. repeat (destruct Hm as [<-|Hm]; [try reflexivity; change (2 ^ 2) with 4 in E;
          change (2 ^ 3) with 8 in E; change (2 ^ 4) with 16 in E; change (2 ^ 5) with 32 in E; change (2 ^ 6) with 64 in E;
          change (2 ^ 7) with 128 in E; lia|]). destruct Hm. }
      symmetry. apply forallb_forall. intros b Hin. eapply Forall_forall in Hb; [|exact Hin]. apply N.ltb_lt. exact Hb.
    + destruct (forallb (fun b => b <? 2 ^ m) data) eqn:E2; [|reflexivity].
      rewrite forallb_forall in E2. specialize (E2 _ H2). congruence.
Qed.

Lemma code_bits_range px : 2 <= code_bits px <= 8.
Proof.
  unfold code_bits. destruct (find _ _) as [m|] eqn:E; [|lia]. apply find_some in E. destruct E as [E _].
  repeat (destruct E as [<-|E]; [lia|]). destruct E.
Qed.
Lemma code_bits_fit px : bytes_ok px -> Forall (fun b => b < 2 ^ code_bits px) px.
Proof.
  intros Hb. unfold code_bits. destruct (find _ _) as [m|] eqn:E.
  - apply find_some in E. destruct E as [_ E]. rewrite forallb_forall in E. apply Forall_forall. intros b Hin. apply N.ltb_lt. auto.
  - apply Forall_forall. intros b Hin. eapply Forall_forall in Hb; [|exact Hin]. exact Hb.
Qed.

Lemma lzw_encode_nil L data : bytes_ok data ->
  lzw_encode L data [] = code_bits data :: lz_encode L (code_bits data) data.
Proof.
  intros Hb. unfold lzw_encode. rewrite min_code_size_spec by exact Hb. cbn [app].
  rewrite firstn_all2; [reflexivity|]. cbn [length]. lia.
Qed.

(** ** Extensions *)
Lemma le16_word n : u16_ok n -> le16 n = word n.
Proof. unfold u16_ok, le16, word. intros H. do 2 f_equal. rewrite (N.mod_small (n / 256)) by lia. reflexivity. Qed.

Lemma control_lin flags delay t gp : u16_ok delay ->
  elin (fun e => write_extension e (EControl flags delay t)) gp (ser_blk (control_blk flags delay t)) (Ok tt).
Proof.
  intros Hd. unfold write_extension. apply with_writer_elin. rewrite le16_word by exact Hd. eapply wlin_eq.
  { eapply wlin_bind; [apply write_u8_lin|]. eapply wlin_bind; [apply tmp_lin; reflexivity|apply write_u8_lin]. }
  reflexivity.
Qed.

Lemma repeat_lin r gp : repeat_rng r ->
  elin (fun e => write_extension e (ERepetitions r)) gp (ser_blocks (repeat_blks r)) (Ok tt).
Proof.
  intros Hr. assert (Hgo : forall n, u16_ok n -> elin (fun e => with_writer e (write_u8 (block_u8 BkExtension) ;;;
      tmp_then_finish 17 [[extension_u8 XApplication]; [11]; NETSCAPE2_0; [3]; [1]; le16 n] ;;; write_u8 0)) gp
     (ser_blocks [loop_blk n]) (Ok tt)).
  { intros n Hn. apply with_writer_elin. rewrite le16_word by exact Hn. eapply wlin_eq.
    { eapply wlin_bind; [apply write_u8_lin|]. eapply wlin_bind; [apply tmp_lin; reflexivity|apply write_u8_lin]. }
    reflexivity. }
  destruct r as [n|]; cbn [repeat_blks write_extension].
  - destruct n as [|p]; [|apply Hgo; exact Hr].
    intros e w Hw Hg e' x [= <- <-]. exists w. split; [exact Hw|]. split; [reflexivity|]. split; [reflexivity|].
    split; [|exact Hg]. apply wrote_all with (used := []); auto. now rewrite app_nil_r.
  - apply (Hgo 0). unfold u16_ok. lia.
Qed.

(** ** Composition on the encoder *)
Lemma elin_ret {A} gp (r : eres A) : elin (fun e => (e, r)) gp [] r.
Proof.
  intros e w Hw Hg e' x [= <- <-]. exists w. split; [exact Hw|]. split; [reflexivity|]. split; [reflexivity|].
  split; [|exact Hg]. apply wrote_all with (used := []); auto. now rewrite app_nil_r.
Qed.
Lemma elin_ext {A} (op1 op2 : encoder -> encoder * eres A) gp bs r :
  (forall e w, e_w e = Some w -> e_global_palette e = gp -> op2 e = op1 e) -> elin op1 gp bs r -> elin op2 gp bs r.
Proof. intros H H1 e w Hw Hg e' x E. rewrite (H e w Hw Hg) in E. eapply H1; eauto. Qed.
Lemma elin_bytes {A} (op : encoder -> encoder * eres A) gp bs bs' r : elin op gp bs r -> bs = bs' -> elin op gp bs' r.
Proof. intros H <-. exact H. Qed.

Lemma elin_bind {A B} (op1 : encoder -> encoder * eres A) (op2 : A -> encoder -> encoder * eres B) gp b1 a b2 r :
  elin op1 gp b1 (Ok a) -> elin (op2 a) gp b2 r ->
  elin (fun e => let '(e1, x) := op1 e in
        match x with Ok a => op2 a e1 | Err er => (e1, Err er) | Panic => (e1, Panic) | Hang => (e1, Hang) end)
    gp (b1 ++ b2) r.
Proof.
  intros H1 H2 e w Hw Hg e' x H. destruct (op1 e) as [e1 y] eqn:E.
  destruct (H1 e w Hw Hg _ _ E) as (w1 & W1 & W2 & W3 & W4 & W5).
  destruct W4 as [used E1 E2 E3 E4|used ac k pre suf E1 E2 E3 E4 E5 E6 E7]; subst y.
  - destruct (H2 e1 w1 W1 W5 _ _ H) as (w' & V1 & V2 & V3 & V4 & V5).
    exists w'. split; [exact V1|]. split; [congruence|]. split; [congruence|]. split; [|exact V5].
    destruct V4 as [used2 F1 F2 F3 F4|used2 ac k pre suf F1 F2 F3 F4 F5 F6 F7].
    + apply wrote_all with (used := used ++ used2); auto.
      * rewrite F1, E1. now rewrite app_assoc.
      * rewrite E3, F3. now rewrite app_assoc.
      * apply Forall_app. auto.
    + apply wrote_part with (used := used ++ used2) (a := ac) (k := k) (pre := b1 ++ pre) (suf := suf); auto.
      * rewrite F1. now rewrite app_assoc.
      * rewrite F3, E1. now rewrite app_assoc.
      * rewrite E3, F5. now rewrite app_assoc.
      * apply Forall_app. auto.
  - injection H as <- <-. exists w1. split; [exact W1|]. split; [exact W2|]. split; [exact W3|].
    split; [|exact W5].
    apply wrote_part with (used := used) (a := ac) (k := k) (pre := pre) (suf := suf ++ b2); auto.
    + rewrite E1. now rewrite app_assoc.
    + destruct suf; [congruence|discriminate].
Qed.

(** ** Frames *)
Lemma control_ext_spec f :
  new_control_ext (f_delay f) (f_dispose f) (f_needs_user_input f) (f_transparent f) =
  EControl (control_flags (f_dispose f) (f_needs_user_input f) (f_transparent f)) (f_delay f)
    (match f_transparent f with Some t => t | None => 0 end).
Proof.
  unfold new_control_ext, control_flags.
  destruct (f_transparent f), (f_dispose f), (f_needs_user_input f); reflexivity.
Qed.

Definition header_bytes (f : frame) : list N :=
  0x2C :: word (f_left f) ++ word (f_top f) ++ word (f_width f) ++ word (f_height f) ++
  [(if f_interlaced f then 64 else 0) + match f_palette f with Some p => 128 + size_field (colors p) | None => 0 end] ++
  match f_palette f with Some p => padded p | None => [] end.

Lemma size_field_lor k : k <= 7 ->
  N.lor (N.lor 0 128) k = 128 + k /\ N.lor (N.lor 64 128) k = 64 + (128 + k) /\
  N.lor (N.lor 0x80 k) (N.shiftl k 4) = 128 + 16 * k + k.
Proof.
  intros H. assert (C : k = 0 \/ k = 1 \/ k = 2 \/ k = 3 \/ k = 4 \/ k = 5 \/ k = 6 \/ k = 7) by lia.
  repeat (destruct C as [->|C]; [repeat split; reflexivity|]). subst k. repeat split; reflexivity.
Qed.

(** [write_frame_header] after the control extension. *)
Definition descriptor (f : frame) (e1 : encoder) : encoder * eres unit :=
  let flags0 := if f_interlaced f then 0x40 else 0 in
  let checked :=
    match f_palette f with
    | Some p =>
      match check_color_table p with
      | Ok (pal, padding, table_size) =>
          Ok (N.lor (N.lor flags0 0x80) table_size, Some (pal, padding))
      | Err er => Err er | Panic => Panic | Hang => Hang
      end
    | None => if e_global_palette e1 then Ok (flags0, None)
              else Err (EFormat MissingColorPalette)
    end in
  match checked with
  | Ok (flags, palette) =>
    with_writer e1
      (tmp_then_finish 10 [[block_u8 BkImage]; le16 (f_left f); le16 (f_top f);
                           le16 (f_width f); le16 (f_height f); [flags]] ;;;
       match palette with
       | Some (pal, padding) => write_color_table pal padding
       | None => wret tt
       end)
  | Err er => (e1, Err er)
  | Panic => (e1, Panic)
  | Hang => (e1, Hang)
  end.
Definition header_result (gp : bool) (f : frame) : eres unit :=
  match palette_error gp f with Some e => Err (EFormat e) | None => Ok tt end.
Lemma frame_header_lin f gp : frame_rng f ->
  elin (fun e => write_frame_header e f) gp
    (ser_blk (control_of f) ++ (if palette_error gp f then [] else header_bytes f)) (header_result gp f).
Proof.
  intros (R1 & R2 & R3 & R4 & R5 & R6 & R7 & R8). set (c := EControl (control_flags (f_dispose f) (f_needs_user_input f) (f_transparent f)) (f_delay f)
    (match f_transparent f with Some t => t | None => 0 end)).
  apply elin_ext with (op1 := fun e => let '(e1, r) := write_extension e c in
     match r with Ok _ => descriptor f e1 | Err er => (e1, Err er) | Panic => (e1, Panic) | Hang => (e1, Hang) end).
  { intros e w _ _. unfold write_frame_header. rewrite control_ext_spec. fold c.
    destruct (write_extension e c) as [e1 r]. destruct r; reflexivity. }
  eapply elin_bind with (op2 := fun _ e1 => descriptor f e1); [apply control_lin; exact R1|].
  unfold descriptor, header_result, palette_error, header_bytes. rewrite !le16_word by assumption.
  destruct (f_palette f) as [p|] eqn:Ep.
  - rewrite check_color_table_spec. unfold table_check. destruct (Nat.ltb_spec 256 (colors p)) as [Hc|Hc]; [apply elin_ret|].
    apply with_writer_elin. eapply wlin_eq.
    + eapply wlin_bind; [apply tmp_lin; reflexivity|]. apply color_table_lin.
    + destruct (size_field_fits _ Hc) as [_ Hk]. destruct (size_field_lor _ Hk) as (K1 & K2 & _).
      destruct (f_interlaced f); rewrite ?K1, ?K2; reflexivity.
  - destruct gp.
    + eapply elin_ext; [intros e w Hw Hg; rewrite Hg; reflexivity|].
      apply with_writer_elin. eapply wlin_eq.
      * eapply wlin_bind; [apply tmp_lin; reflexivity|]. apply wlin_ret.
      * destruct (f_interlaced f); reflexivity.
    + eapply elin_ext; [intros e w Hw Hg; rewrite Hg; reflexivity|]. apply elin_ret.
Qed.

Lemma ser_frame_blks f m data : ser_blocks (frame_blks f m data) =
  ser_blk (control_of f) ++ header_bytes f ++ m :: ser_subs (cut_subs data).
Proof.
  unfold ser_blocks, frame_blks. cbn [map concat]. rewrite app_nil_r. f_equal.
Qed.

Lemma elin_bind_err {A B} (op1 : encoder -> encoder * eres A) (op2 : A -> encoder -> encoder * eres B) gp b1 er :
  elin op1 gp b1 (Err er) ->
  elin (fun e => let '(e1, x) := op1 e in
        match x with Ok a => op2 a e1 | Err er => (e1, Err er) | Panic => (e1, Panic) | Hang => (e1, Hang) end)
    gp b1 (Err er).
Proof.
  intros H1 e w Hw Hg e' x H. destruct (op1 e) as [e1 y] eqn:E.
  destruct (H1 e w Hw Hg _ _ E) as (w1 & W1 & W2 & W3 & W4 & W5).
  destruct W4 as [used E1 E2 E3 E4|used ac k pre suf E1 E2 E3 E4 E5 E6 E7]; subst y; injection H as <- <-.
  - exists w1. split; [exact W1|]. split; [exact W2|]. split; [exact W3|].
    split; [|exact W5]. eapply wrote_all; eauto.
  - exists w1. split; [exact W1|]. split; [exact W2|]. split; [exact W3|].
    split; [|exact W5]. eapply wrote_part; eauto.
Qed.

Lemma frame_lin (op2 : encoder -> encoder * eres unit) f gp m data : frame_rng f ->
  elin op2 gp (m :: ser_subs (cut_subs data)) (Ok tt) ->
  elin (fun e => let '(e1, x) := write_frame_header e f in match x with Ok a => op2 e1 | _ => (e1, x) end)
    gp (match palette_error gp f with Some _ => ser_blk (control_of f) | None => ser_blocks (frame_blks f m data) end)
    (header_result gp f).
Proof.
  intros Hf H2. pose proof (frame_header_lin f gp Hf) as H1. unfold header_result in *.
  apply elin_ext with (op1 := fun e => let '(e1, x) := write_frame_header e f in
        match x with Ok a => op2 e1 | Err er => (e1, Err er) | Panic => (e1, Panic) | Hang => (e1, Hang) end).
  { intros e w _ _. destruct (write_frame_header e f) as [e1 x]. destruct x; reflexivity. }
  destruct (palette_error gp f) as [er|].
  - rewrite app_nil_r in H1. now apply elin_bind_err with (op2 := fun _ => op2).
  - rewrite ser_frame_blks, app_assoc. now apply elin_bind with (a := tt) (op2 := fun _ => op2).
Qed.

Theorem op_lin L dbg o gp : op_rng o ->
  elin (fun e => run_op L dbg e o) gp (op_bytes L dbg gp o) (op_result dbg gp o).
Proof.
  destruct o as [r|f|f|l data|x]; intros R; cbn [run_op].
  - exact (repeat_lin r gp R).
  - unfold op_bytes, op_result. unfold write_frame.
    destruct (len (f_buffer f) <? f_width f * f_height f); [apply elin_ret|].
    assert (Ed : negb ((0 <? f_width f) && (0 <? f_height f) || is_nil (f_buffer f)) =
      (f_width f * f_height f =? 0) && negb (is_nil (f_buffer f))).
    { rewrite negb_orb. f_equal. destruct (N.ltb_spec 0 (f_width f)), (N.ltb_spec 0 (f_height f)),
        (N.eqb_spec (f_width f * f_height f) 0); cbn [andb negb]; try reflexivity; nia. }
    rewrite Ed, <- andb_assoc. destruct (dbg && _); [apply elin_ret|].
    eapply elin_bytes; [apply frame_lin with (op2 := fun e1 => write_image_block L e1 (f_buffer f))
       (m := code_bits (f_buffer f)) (data := lz_encode L (code_bits (f_buffer f)) (f_buffer f)); [exact R|]|].
    + destruct R as (_ & _ & _ & _ & _ & _ & _ & Hb).
      pose proof (with_writer_elin _ _ _ gp (image_block_lin (code_bits (f_buffer f)) (lz_encode L (code_bits (f_buffer f)) (f_buffer f)))) as H.
      rewrite <- lzw_encode_nil in H by exact Hb. intros e w Hw Hg e' x E. unfold write_image_block in E.
      apply (H (mk_enc (e_w e) (e_global_palette e) (e_width e) (e_height e) (lzw_encode L (f_buffer f) [])) w Hw Hg _ _ E).
    + unfold header_result, palette_error. destruct (f_palette f) as [p|]; [destruct (256 <? colors p)%nat|destruct gp]; reflexivity.
  - unfold op_bytes, op_result, write_lzw_pre_encoded_frame.
    destruct (f_buffer f) as [|m data] eqn:Eb.
    + eapply elin_bytes; [apply frame_lin with (op2 := fun e1 => with_writer e1 (write_encoded_image_block [])) (m := 2) (data := []); [exact R|]|].
      * apply with_writer_elin. exact (image_block_lin 2 []).
      * cbn [op_blocks]. rewrite Eb. unfold header_result, palette_error. destruct (f_palette f) as [p|]; [destruct (256 <? colors p)%nat|destruct gp]; reflexivity.
    + assert (Em : (11 <? m) || (m <? 2) = negb ((2 <=? m) && (m <=? 11))) by (rewrite negb_andb, <- !N.ltb_antisym; apply orb_comm).
      rewrite Em. destruct ((2 <=? m) && (m <=? 11)); cbn [negb]; [|apply elin_ret].
      eapply elin_bytes; [apply frame_lin with (op2 := fun e1 => with_writer e1 (write_encoded_image_block (m :: data))) (m := m) (data := data); [exact R|]|].
      * apply with_writer_elin. exact (image_block_lin m data).
      * cbn [op_blocks]. rewrite Eb. unfold header_result, palette_error. destruct (f_palette f) as [p|]; [destruct (256 <? colors p)%nat|destruct gp]; reflexivity.
  - apply with_writer_elin. eapply wlin_eq.
    + eapply wlin_bind; [apply write_u8_lin|]. eapply wlin_bind; [apply write_u8_lin|]. eapply wlin_bind; [apply raw_lin|apply write_u8_lin].
    + unfold op_bytes, op_result, op_blocks, ser_blocks. cbn [map concat ser_blk app]. rewrite app_nil_r. reflexivity.
  - destruct x as [flags delay t|r]; [|exact (repeat_lin r gp R)].
    destruct R as (_ & R & _). eapply elin_bytes; [apply control_lin; exact R|].
    unfold op_bytes, op_result, op_blocks, ser_blocks. cbn [map concat]. now rewrite app_nil_r.
Qed.
