(** Property C75: how many bytes the encoder writes. *)
From Verif Require Import Base Common Lzw Encoder Stream SpecGif SpecEnc EncLin EncSpec EncSession SpecSize EncSize LzwRef LzwRefSpec PropEnc.
Open Scope N_scope.

Theorem C75_new : forall w width height pal e, u16_ok width -> u16_ok height -> encoder_new w width height pal = (e, Ok tt) ->
  exists w', e_w e = Some w' /\ length (w_out w') = (length (w_out w) + 13 + table_room (colors pal))%nat.
Proof. exact new_size. Qed.
Print Assumptions C75_new.
(** Whatever the result, unless the writer failed. *)
Theorem C75_call : forall L dbg e w o e' r, e_w e = Some w -> op_rng o -> run_op L dbg e o = (e', r) -> ~ writer_error r ->
  exists w', e_w e' = Some w' /\ length (w_out w') = (length (w_out w) + call_room L o r)%nat.
Proof. exact call_size. Qed.
Print Assumptions C75_call.
Theorem C75_file : forall L dbg w width height pal ops e1 e2 rs e3 w3, u16_ok width -> u16_ok height -> Forall op_rng ops ->
  encoder_new w width height pal = (e1, Ok tt) -> run_each L dbg e1 ops = (e2, rs) -> Forall (fun r => ~ writer_error r) rs ->
  into_inner e2 = (e3, Ok w3) ->
  length (w_out w3) = (length (w_out w) + 13 + table_room (colors pal) + calls_room L ops rs + 1)%nat.
Proof. exact file_size. Qed.
Print Assumptions C75_file.

(** A loop count (19 bytes), a comment of 300 bytes (3 + 300 + 2), a frame refused for want of a palette (8), one refused for want
    of pixels (none), a frame with a palette of three colours and six pixels. *)
Definition len_ops : list enc_op :=
  [OSetRepeat (RFinite 5); ORawExt 0xFE [repeat 65 300]; OWriteFrame ex_bad; OWriteFrame (set_buffer ex_f1 [0]); OWriteFrame ex_f1].
Definition len_rs : list (eres unit) := [Ok tt; Ok tt; Err (EFormat MissingColorPalette); Err (EIo InvalidInput); Ok tt].
Example C75_case :
  let e1 := fst (encoder_new ex_w 4 4 []) in
  let '(e2, rs) := run_each lzw_ref true e1 len_ops in
  rs = len_rs /\ Forall op_rng len_ops /\ Forall (fun r => ~ writer_error r) rs /\ table_room (colors []) = 6%nat /\
  map (fun '(o, r) => call_room lzw_ref o r) (combine len_ops rs) = [19; 305; 8; 0; 36]%nat /\
  match snd (into_inner e2) with Ok w => length (w_out w) = 388%nat | _ => False end.
Proof.
  assert (R : Forall op_rng len_ops).
  { apply Forall_forall. intros o [<-|[<-|[<-|[<-|[<-|[]]]]]]; try exact (Forall_inv (Forall_inv_tail (Forall_inv_tail ex_rng))).
    - unfold op_rng, repeat_rng, u16_ok. lia.
    - split; [unfold byte_ok; lia|]. constructor; [|constructor]. apply Forall_forall. intros x Hx. apply repeat_spec in Hx. subst x.
      unfold byte_ok. lia.
    - crush_rng.
    - crush_rng. }
  cbv zeta. destruct (run_each lzw_ref true (fst (encoder_new ex_w 4 4 [])) len_ops) as [e2 rs] eqn:E.
  assert (A : rs = len_rs) by (replace rs with (snd (e2, rs)) by reflexivity; rewrite <- E; vm_compute; reflexivity).
  assert (B : e2 = fst (run_each lzw_ref true (fst (encoder_new ex_w 4 4 [])) len_ops)) by now rewrite E.
  subst rs. split; [reflexivity|]. split; [exact R|]. split.
  { unfold len_rs. repeat constructor; intros [H|[k H]]; discriminate. }
  split; [reflexivity|]. split; [vm_compute; reflexivity|]. rewrite B. vm_compute. reflexivity.
Qed.
