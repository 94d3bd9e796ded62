(** Property C63: the palettes of true-colour frames. *)
From Verif Require Import Base SpecPixels Common FrameProps Quantise.
From Coq Require Import Permutation Sorting.Sorted.
Open Scope N_scope.

(** At most 256 colours: the palette lists exactly the colours that occur (alpha made 0 or 255), each once, in ascending order;
    the transparent entry is that of the last transparent pixel. *)
Theorem C63_palette : forall q w h px speed ps f, from_rgba_speed q w h px speed = Some (ps, f) ->
  few_colors 256 px (N.to_nat (w * h)) ->
  exists cs t, f_palette f = Some (flat_map rgb_list cs) /\ StronglySorted color_lt cs /\
    (forall c, In c cs <-> In c (flat_pixels px (N.to_nat (w * h)))) /\
    last_clear px (N.to_nat (w * h)) t /\
    match t with
    | Some p => exists i, f_transparent f = Some (N.of_nat i) /\ nth_error cs i = Some p
    | None => f_transparent f = None
    end.
Proof. exact from_rgba_palette. Qed.
Print Assumptions C63_palette.

(** More than 256 colours: palette and indices are those of the quantiser for these pixels and this speed; the transparent
    entry is the one it gives to the last transparent pixel. *)
Theorem C63_many : forall q w h px speed ps f, from_rgba_speed q w h px speed = Some (ps, f) ->
  ~ few_colors 256 px (N.to_nat (w * h)) ->
  let pixels := flat_pixels px (N.to_nat (w * h)) in
  exists t, last_clear px (N.to_nat (w * h)) t /\
    f = mk_frame 0 DKeep (option_map (fun p => nq_index q speed pixels p mod 256) t) false 0 0 w h false
          (Some (nq_map q speed pixels)) (map (fun p => nq_index q speed pixels p mod 256) pixels).
Proof. exact from_rgba_many. Qed.
Print Assumptions C63_many.

(** RGB frames are those of the same pixels with alpha 255. *)
Theorem C63_rgb : forall q w h px speed, len px = w * h * 3 ->
  from_rgb_speed q w h px speed = option_map snd (from_rgba_speed q w h (with_alpha px (N.to_nat (w * h))) speed).
Proof. exact from_rgb_opaque. Qed.
Print Assumptions C63_rgb.

(** The variants without a speed use 1, the best quality. *)
Theorem C63_speed : forall q w h px,
  from_rgba q w h px = from_rgba_speed q w h px 1 /\ from_rgb q w h px = from_rgb_speed q w h px 1.
Proof. exact default_speed. Qed.
Print Assumptions C63_speed.

(** ** Cases *)
(** Two transparent pixels of different colour among four pixels: the last one counts. *)
Definition cx_q : neuquant := mk_nq (fun speed _ p => let '(r, _, _, _) := p in r + Z.to_N speed) (fun speed ps => [Z.to_N speed; len (map (fun p : rgba => let '(r, _, _, _) := p in r) ps)]).
Definition cx_px : list N := [9; 9; 9; 0; 200; 1; 1; 77; 5; 5; 5; 0; 5; 5; 5; 255].
Example C63_palette_case : exists ps f, from_rgba_speed cx_q 2 2 cx_px 10 = Some (ps, f) /\ few_colors 256 cx_px (N.to_nat (2 * 2)) /\
  f_palette f = Some [5; 5; 5; 5; 5; 5; 9; 9; 9; 200; 1; 1] /\ f_transparent f = Some 0 /\ f_buffer f = [2; 3; 0; 1].
Proof.
  do 2 eexists. split; [vm_compute; reflexivity|]. split; [|repeat split].
  exists [(5, 5, 5, 0); (5, 5, 5, 255); (9, 9, 9, 0); (200, 1, 1, 255)]. split; [cbn; lia|]. intros k Hk.
  change (N.to_nat (2 * 2)) with 4%nat in Hk. do 4 (destruct k as [|k]; [vm_compute; auto|]). lia.
Qed.
(** 300 colours, one of them transparent. *)
Definition cx_many : list N :=
  flat_map (fun k => [N.of_nat k mod 256; N.of_nat k / 256; 7; if Nat.eqb k 40 then 0 else 255]) (seq 0 300).
Example C63_many_case : exists ps f, from_rgba_speed cx_q 300 1 cx_many 3 = Some (ps, f) /\ ~ few_colors 256 cx_many (N.to_nat (300 * 1)) /\
  f_palette f = Some [3; 300] /\ f_transparent f = Some 43 /\ nth 260 (f_buffer f) 0 = 7 /\ nth 253 (f_buffer f) 1 = 0.
Proof.
  do 2 eexists. split; [vm_compute; reflexivity|]. split; [|repeat split].
  rewrite (cols_few cx_many (N.to_nat (300 * 1))) by (vm_compute; reflexivity).
  assert (H : (length (color_set (map norm_alpha (chunks4 cx_many))) <=? 256)%nat = false) by (vm_compute; reflexivity).
  apply Nat.leb_gt in H. lia.
Qed.
Example C63_rgb_case : len [1; 2; 3; 4; 5; 6] = 2 * 1 * 3 /\ with_alpha [1; 2; 3; 4; 5; 6] 2 = [1; 2; 3; 255; 4; 5; 6; 255].
Proof. split; reflexivity. Qed.
