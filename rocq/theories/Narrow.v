(** C78: the true-colour constructors with the machine's [usize].

    [Common.from_rgba_speed] computes the expected length in unbounded arithmetic. Here the products are those of
    [usize], which for a 32-bit target can overflow: [umax] is [usize::MAX]; with overflow checks ([chk], the default
    of debug builds) an overflow is a panic, without them the result wraps around. *)
From Verif Require Import Base Common Lzw Encoder FrameProps.
Open Scope N_scope.

(** The two sizes of [usize] for which the standard library, which the crate uses, exists. *)
Definition usize_ok (umax : N) : Prop := umax = 2 ^ 32 - 1 \/ umax = 2 ^ 64 - 1.

(** [a * b] and [a + b] of two [usize] values; [None] is the panic. *)
Definition wrap (umax : N) (chk : bool) (x : N) : option N :=
  if x <=? umax then Some x else if chk then None else Some (x mod (umax + 1)).
Definition mul_u (umax : N) (chk : bool) (a b : N) : option N := wrap umax chk (a * b).
Definition add_u (umax : N) (chk : bool) (a b : N) : option N := wrap umax chk (a + b).
Definition obind {A B} (x : option A) (f : A -> option B) : option B := match x with Some a => f a | None => None end.

(** src/common.rs 213-261 [Frame::from_rgba_speed] with the product of line 214 in [usize]. *)
Definition from_rgba_speed_u (umax : N) (chk : bool) (q : neuquant) (w h : N) (pixels : list N) (speed : Z)
  : option (list rgba * frame) :=
  obind (obind (mul_u umax chk w h) (fun n => mul_u umax chk n 4)) (fun expected =>
  if negb (expected =? len pixels) then None
  else if negb ((1 <=? speed)%Z && (speed <=? 30)%Z) then None
  else
    let ps0 := chunks4 pixels in
    let tr := last_transparent ps0 in
    let ps := map norm_alpha ps0 in
    let cols := color_set ps in
    if (256 <? N.of_nat (length cols)) then
      Some (ps, mk_frame 0 DKeep (option_map (fun t => nq_index q speed ps t mod 256) tr) false
                  0 0 w h false (Some (nq_map q speed ps))
                  (map (fun p => nq_index q speed ps p mod 256) ps))
    else
      let cv := sort_rgba cols in
      Some (ps, mk_frame 0 DKeep (option_map (index_of cv) tr) false 0 0 w h false
                  (Some (flat_map (fun '(r, g, b, _) => [r; g; b]) cv))
                  (map (index_of cv) ps))).

(** src/common.rs 338-346 [Frame::from_rgb_speed]: the product of line 339, the sum of line 341 and the limit
    [isize::MAX] of a [Vec] (reserving or growing beyond it panics). Whether smaller reservations succeed is the subject
    of [EncOom.from_rgb_speed_o]; here they do. *)
Definition from_rgb_speed_u (umax : N) (chk : bool) (q : neuquant) (w h : N) (pixels : list N) (speed : Z)
  : option frame :=
  obind (obind (mul_u umax chk w h) (fun n => mul_u umax chk n 3)) (fun expected =>
  if negb (expected =? len pixels) then None
  else
    obind (obind (mul_u umax chk w h) (fun n => add_u umax chk (len pixels) n)) (fun reserve =>
    if umax / 2 <? reserve then None
    else
      let vec := flat_map (fun '(r, g, b) => [r; g; b; 0xFF]) (chunks3 pixels) in
      if umax / 2 <? len vec then None
      else option_map snd (from_rgba_speed_u umax chk q w h vec speed))).

(** src/common.rs 193-195 and 317-319: speed 1. *)
Definition from_rgba_u umax chk q w h pixels := from_rgba_speed_u umax chk q w h pixels 1%Z.
Definition from_rgb_u umax chk q w h pixels := from_rgb_speed_u umax chk q w h pixels 1%Z.

Lemma wrap_fits umax chk x : x <= umax -> wrap umax chk x = Some x.
Proof. intros H. unfold wrap. apply N.leb_le in H. now rewrite H. Qed.
Lemma area_fits umax w h : usize_ok umax -> w < 65536 -> h < 65536 -> w * h <= 65535 * 65535 /\ w * h <= umax.
Proof.
  intros U Hw Hh. assert (H : w * h <= 65535 * 65535) by (apply N.mul_le_mono; lia).
  split; [exact H|]. destruct U as [-> | ->]; lia.
Qed.

Section S.
Variables (umax : N) (w h : N).
Hypothesis U : usize_ok umax.
Hypothesis Hw : w < 65536.
Hypothesis Hh : h < 65536.

(** The constructor with [usize] is the one of [Common] as long as the product fits. *)
Lemma rgba_fits chk q px speed : w * h * 4 <= umax ->
  from_rgba_speed_u umax chk q w h px speed = from_rgba_speed q w h px speed.
Proof.
  intros H. destruct (area_fits umax w h U Hw Hh) as [_ Ha]. unfold from_rgba_speed_u, mul_u.
  rewrite (wrap_fits _ _ _ Ha). cbn [obind]. rewrite (wrap_fits _ _ _ H). reflexivity.
Qed.

(** If it does not fit: overflow checks panic; otherwise the length is compared with the wrapped product. *)
Lemma rgba_checked q px speed : umax < w * h * 4 -> from_rgba_speed_u umax true q w h px speed = None.
Proof.
  intros H. destruct (area_fits umax w h U Hw Hh) as [_ Ha]. unfold from_rgba_speed_u, mul_u.
  rewrite (wrap_fits _ _ _ Ha). cbn [obind]. unfold wrap. destruct (N.leb_spec (w * h * 4) umax); [lia|reflexivity].
Qed.
Lemma chunks4_length : forall n l, length l = (4 * n)%nat -> length (chunks4 l) = n.
Proof.
  induction n as [|n IH]; intros l Hl; [destruct l; [reflexivity|discriminate Hl]|].
  destruct l as [|a [|b [|c [|d l]]]]; cbn [length] in Hl; try lia. cbn [chunks4 length]. rewrite IH by lia. reflexivity.
Qed.
Lemma rgba_wrapped q px speed : umax < w * h * 4 ->
  (from_rgba_speed_u umax false q w h px speed = None <->
     len px <> (w * h * 4) mod (umax + 1) \/ ~ (1 <= speed <= 30)%Z) /\
  forall ps f, from_rgba_speed_u umax false q w h px speed = Some (ps, f) ->
    f_width f = w /\ f_height f = h /\ 4 * len (f_buffer f) = len px /\ len (f_buffer f) < w * h.
Proof.
  intros H. destruct (area_fits umax w h U Hw Hh) as [Hmax Ha].
  assert (M : umax + 1 = 2 ^ 32). { destruct U as [-> | ->]; [reflexivity|]. lia. }
  unfold from_rgba_speed_u, mul_u. rewrite (wrap_fits _ _ _ Ha). cbn [obind]. unfold wrap.
  destruct (N.leb_spec (w * h * 4) umax); [lia|]. cbn [obind]. rewrite M.
  destruct (N.eqb_spec ((w * h * 4) mod 2 ^ 32) (len px)) as [E|E]; cbn [negb].
  2:{ split; [|discriminate]. split; [intros _; left; congruence|reflexivity]. }
  destruct (Z.leb_spec 1 speed), (Z.leb_spec speed 30); cbn [andb negb];
    try (split; [split; [intros _; right; lia|reflexivity]|discriminate]).
  assert (Hl : exists n, length px = (4 * n)%nat /\ N.of_nat n < w * h).
  { exists (N.to_nat (w * h - 2 ^ 30 * ((w * h * 4) / 2 ^ 32))). unfold len in E.
    pose proof (N.div_mod (w * h * 4) (2 ^ 32) ltac:(lia)) as D. rewrite E in D.
    assert (K : 1 <= (w * h * 4) / 2 ^ 32). { apply N.div_le_lower_bound; lia. }
    revert D K. generalize ((w * h * 4) / 2 ^ 32). intros k D K. change (2 ^ 32) with (4 * 2 ^ 30) in D. split; lia. }
  destruct Hl as (n & Hl & Hn). pose proof (chunks4_length n px Hl) as Hc.
  split.
  - split; [|intros [Hx|Hx]; [congruence|lia]]. destruct (256 <? _); discriminate.
  - intros ps f Hf. destruct (256 <? _); injection Hf as _ <-; cbn [f_width f_height f_buffer];
      (split; [reflexivity|split; [reflexivity|]]); unfold len; rewrite !map_length, Hc; lia.
Qed.

(** [from_rgb_speed] never is deceived: where the first product wraps around, the assertion inside the inner call
    notices. It panics if the four-byte pixels would not fit in a [Vec], and otherwise is the one of [Common]. *)
Lemma rgb_exact chk q px speed : len px <= umax / 2 ->
  from_rgb_speed_u umax chk q w h px speed =
  if w * h * 4 <=? umax / 2 then from_rgb_speed q w h px speed else None.
Proof.
  intros Hpx. destruct (area_fits umax w h U Hw Hh) as [Hmax Ha]. unfold from_rgb_speed_u, mul_u, add_u.
  rewrite (wrap_fits _ _ _ Ha). cbn [obind].
  assert (Hlen : len (flat_map (fun '(r, g, b) => [r; g; b; 0xFF]) (chunks3 px)) = 4 * (len px / 3)).
  { unfold len. rewrite opaque_length. rewrite Nat2N.inj_mul, Nat2N.inj_div. reflexivity. }
  destruct (N.leb_spec (w * h * 4) (umax / 2)) as [H4|H4].
  - assert (Hu : umax / 2 <= umax) by (apply N.div_le_upper_bound; lia).
    rewrite wrap_fits by lia. cbn [obind]. unfold from_rgb_speed. destruct (N.eqb_spec (w * h * 3) (len px)) as [E|E]; [|reflexivity].
    cbn [negb]. rewrite wrap_fits by lia. cbn [obind]. destruct (N.ltb_spec (umax / 2) (len px + w * h)); [lia|].
    assert (Hq : len px / 3 = w * h) by (rewrite <- E; apply N.div_mul; lia).
    rewrite Hlen, Hq. destruct (N.ltb_spec (umax / 2) (4 * (w * h))); [lia|]. rewrite rgba_fits by lia. reflexivity.
  - assert (M : umax = 2 ^ 32 - 1).
    { destruct U as [-> | ->]; [reflexivity|]. exfalso. change ((2 ^ 64 - 1) / 2) with (2 ^ 63 - 1) in H4. lia. }
    pose proof rgba_wrapped as R. rewrite M in *. change ((2 ^ 32 - 1) / 2) with (2 ^ 31 - 1) in *.
    unfold wrap at 1. destruct (N.leb_spec (w * h * 3) (2 ^ 32 - 1)) as [H3|H3].
    + cbn [obind]. destruct (N.eqb_spec (w * h * 3) (len px)) as [E|E]; [|reflexivity]. cbn [negb].
      rewrite wrap_fits by lia. cbn [obind]. destruct (N.ltb_spec (2 ^ 31 - 1) (len px + w * h)); [reflexivity|lia].
    + destruct chk; [reflexivity|]. cbn [obind]. change (2 ^ 32 - 1 + 1) with (2 ^ 32).
      destruct (N.eqb_spec ((w * h * 3) mod 2 ^ 32) (len px)) as [E|E]; [|reflexivity]. cbn [negb].
      destruct (wrap _ _ _) as [reserve|]; [|reflexivity]. cbn [obind]. destruct (_ <? reserve); [reflexivity|].
      destruct (_ <? len _); [reflexivity|].
      assert (N4 : from_rgba_speed_u (2 ^ 32 - 1) false q w h (flat_map (fun '(r, g, b) => [r; g; b; 255]) (chunks3 px)) speed = None).
      { assert (Hov : 2 ^ 32 - 1 < w * h * 4) by lia. apply R; [exact Hov|].
        left. rewrite Hlen. change (2 ^ 32 - 1 + 1) with (2 ^ 32).
        pose proof (N.div_mod (w * h * 3) (2 ^ 32) ltac:(lia)) as D3. rewrite E in D3.
        pose proof (N.div_mod (w * h * 4) (2 ^ 32) ltac:(lia)) as D4.
        pose proof (N.mod_lt (w * h * 4) (2 ^ 32) ltac:(lia)) as L4.
        pose proof (N.div_mod (len px) 3 ltac:(lia)) as D. pose proof (N.mod_lt (len px) 3 ltac:(lia)) as Lm.
        revert D3 D4 L4 D Lm. generalize (w * h * 3 / 2 ^ 32), (w * h * 4 / 2 ^ 32), ((w * h * 4) mod 2 ^ 32), (len px / 3), (len px mod 3).
        intros k3 k4 r4 p r D3 D4 L4 D Lm E4. lia. }
      rewrite N4. reflexivity.
Qed.
End S.

(** What became of such a frame: [write_frame] refuses it. *)
Lemma wrapped_refused umax q w h px speed ps f L dbg e : usize_ok umax -> w < 65536 -> h < 65536 -> umax < w * h * 4 ->
  from_rgba_speed_u umax false q w h px speed = Some (ps, f) -> write_frame L dbg e f = (e, Err (EIo InvalidInput)).
Proof.
  intros U Hw Hh H Hf. destruct (proj2 (rgba_wrapped umax w h U Hw Hh q px speed H) ps f Hf) as (E1 & E2 & _ & Hlt).
  unfold write_frame. rewrite E1, E2. apply N.ltb_lt in Hlt. now rewrite Hlt.
Qed.
