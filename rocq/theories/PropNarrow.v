(** Property C78: the true-colour constructors on 32-bit and 64-bit machines. *)
From Verif Require Import Base Common Lzw Encoder LzwRef FrameProps Refuted Narrow.
Open Scope N_scope.

(** ** C78 *)
Theorem C78_rgba_fits : forall umax w h, usize_ok umax -> w < 65536 -> h < 65536 ->
  forall chk q px speed, w * h * 4 <= umax ->
  from_rgba_speed_u umax chk q w h px speed = from_rgba_speed q w h px speed.
Proof. exact rgba_fits. Qed.
Theorem C78_rgba_checked : forall umax w h, usize_ok umax -> w < 65536 -> h < 65536 ->
  forall q px speed, umax < w * h * 4 -> from_rgba_speed_u umax true q w h px speed = None.
Proof. exact rgba_checked. Qed.
Theorem C78_rgba_wrapped : forall umax w h, usize_ok umax -> w < 65536 -> h < 65536 ->
  forall q px speed, umax < w * h * 4 ->
  (from_rgba_speed_u umax false q w h px speed = None <->
     len px <> (w * h * 4) mod (umax + 1) \/ ~ (1 <= speed <= 30)%Z) /\
  forall ps f, from_rgba_speed_u umax false q w h px speed = Some (ps, f) ->
    f_width f = w /\ f_height f = h /\ 4 * len (f_buffer f) = len px /\ len (f_buffer f) < w * h.
Proof. exact rgba_wrapped. Qed.
Theorem C78_refused : forall umax q w h px speed ps f L dbg e, usize_ok umax -> w < 65536 -> h < 65536 -> umax < w * h * 4 ->
  from_rgba_speed_u umax false q w h px speed = Some (ps, f) -> write_frame L dbg e f = (e, Err (EIo InvalidInput)).
Proof. exact wrapped_refused. Qed.
Theorem C78_rgb : forall umax w h, usize_ok umax -> w < 65536 -> h < 65536 ->
  forall chk q px speed, len px <= umax / 2 ->
  from_rgb_speed_u umax chk q w h px speed = if w * h * 4 <=? umax / 2 then from_rgb_speed q w h px speed else None.
Proof. exact rgb_exact. Qed.
(** The documentation promises a panic unless the length is [width * height * 4]. With 32-bit [usize] and without
    overflow checks one pixel passes for an image of 17173 x 62525, and its compressed form is written to a file. *)
Theorem C78_length_refuted : forall q, exists ps f e,
  from_rgba_u (2 ^ 32 - 1) false q 17173 62525 [1; 2; 3; 255] = Some (ps, f) /\ 4 <> 17173 * 62525 * 4 /\
  f_width f = 17173 /\ f_height f = 62525 /\ f_buffer f = [0] /\
  write_lzw_pre_encoded_frame (fst (encoder_new fresh 17173 62525 [])) (make_lzw_pre_encoded lzw_ref f) = (e, Ok tt).
Proof. intros q. do 3 eexists. repeat split; try discriminate; vm_compute; reflexivity. Qed.
Print Assumptions C78_rgba_fits.
Print Assumptions C78_rgba_checked.
Print Assumptions C78_rgba_wrapped.
Print Assumptions C78_refused.
Print Assumptions C78_rgb.
Print Assumptions C78_length_refuted.
(** Cases: an ordinary image on a 32-bit machine; the largest image, which never fits there; the image of the refutation. *)
Example C78_case : usize_ok (2 ^ 32 - 1) /\
  (exists r, from_rgba_u (2 ^ 32 - 1) true nq0 2 1 [1; 2; 3; 0; 9; 9; 9; 255] = Some r /\
             from_rgba nq0 2 1 [1; 2; 3; 0; 9; 9; 9; 255] = Some r) /\
  (exists f, from_rgb_u (2 ^ 32 - 1) false nq0 2 1 [1; 2; 3; 9; 9; 9] = Some f /\ f_buffer f = [0; 1]) /\
  from_rgba_u (2 ^ 32 - 1) true nq0 65535 65535 [] = None /\
  2 ^ 32 - 1 < 17173 * 62525 * 4 /\ (17173 * 62525 * 4) mod 2 ^ 32 = 4 /\ 65535 * 65535 * 4 <= 2 ^ 64 - 1.
Proof.
  split; [now left|]. split; [eexists; split; vm_compute; reflexivity|]. split; [eexists; split; vm_compute; reflexivity|].
  repeat split; vm_compute; congruence.
Qed.
