(** Property C72: which errors a call may return. For every call there is a list; the error returned is on the list, or is the
    reader's. Every error on the list does occur. *)
From Verif Require Import Base Common Lzw Encoder Stream Converter Reader LzwRef LzwRefSpec Validate ConvInv DecoderSafe DecInv
  SpecStream SpecErrors Errors Refuted PropDec.
Open Scope N_scope.

Theorem C72_open : forall L, lzw_safe L -> forall src o e, src_ok src -> read_info L src o = Err e -> among open_errors src o e.
Proof. intros L safe src o e Hs. exact (read_info_err L safe src o Hs e). Qed.
Print Assumptions C72_open.

Theorem C72_seek : forall L, lzw_safe L -> forall umax, 2 ^ 32 - 1 <= umax -> forall src o, src_ok src -> limit_ok umax (o_limit o) ->
  forall d d' e, opened L umax src o d -> next_frame_info L d = (d', Err e) -> among seek_errors src o e.
Proof. exact next_frame_info_err. Qed.
Print Assumptions C72_seek.

(** Compressed data that are only copied cannot be wrong. *)
Theorem C72_frame : forall L, lzw_safe L -> forall umax, 2 ^ 32 - 1 <= umax -> forall src o, src_ok src -> limit_ok umax (o_limit o) ->
  forall d d' e, opened L umax src o d -> read_next_frame L umax d = (d', Err e) ->
  among (if o_skip_frame_decoding o then seek_errors else frame_errors) src o e.
Proof. exact read_next_frame_err. Qed.
Print Assumptions C72_frame.
Theorem C72_iterator : forall L, lzw_safe L -> forall umax, 2 ^ 32 - 1 <= umax -> forall src o, src_ok src -> limit_ok umax (o_limit o) ->
  forall it it' e, opened L umax src o (it_dec L it) -> iter_next L umax it = (it', IErr e) ->
  among (if o_skip_frame_decoding o then seek_errors else frame_errors) src o e.
Proof. exact iter_next_err. Qed.
Print Assumptions C72_iterator.

(** At any time. *)
Theorem C72_fill : forall L, lzw_safe L -> forall umax, 2 ^ 32 - 1 <= umax -> forall src o, src_ok src -> limit_ok umax (o_limit o) ->
  forall d buf d' b e, opened L umax src o d -> fill_buffer L d buf = (d', b, Err e) -> among fill_errors src o e.
Proof. exact fill_buffer_err. Qed.
Print Assumptions C72_fill.
Theorem C72_into : forall L, lzw_safe L -> forall umax, 2 ^ 32 - 1 <= umax -> forall src o, src_ok src -> limit_ok umax (o_limit o) ->
  forall d buf d' b e, opened L umax src o d -> read_into_buffer L umax d buf = (d', b, Err e) -> among into_errors src o e.
Proof. exact read_into_buffer_err. Qed.
Print Assumptions C72_into.

(** Used as documented: directly after [next_frame_info] announced a frame. *)
Theorem C72_fill_fresh : forall L, lzw_safe L -> forall umax, 2 ^ 32 - 1 <= umax -> forall src o, src_ok src -> limit_ok umax (o_limit o) ->
  forall d d1 buf d' b e, opened L umax src o d -> o_skip_frame_decoding o = false ->
  next_frame_info L d = (d1, Ok true) -> fill_buffer L d1 buf = (d', b, Err e) -> among fill_fresh_errors src o e.
Proof. exact fill_fresh_err. Qed.
Print Assumptions C72_fill_fresh.
(** A frame may be read in parts: the same errors, as long as the buffers before were filled. *)
Theorem C72_fill_parts : forall L, lzw_safe L -> forall umax, 2 ^ 32 - 1 <= umax -> forall src o, src_ok src -> limit_ok umax (o_limit o) ->
  forall d d1 bufs d2 ys buf d' b e, opened L umax src o d -> o_skip_frame_decoding o = false ->
  next_frame_info L d = (d1, Ok true) -> run_dops L umax d1 (map OpFill bufs) = (d2, ys) ->
  Forall (fun y => exists b, y = OutFill b (Ok true)) ys ->
  fill_buffer L d2 buf = (d', b, Err e) -> among fill_fresh_errors src o e.
Proof. exact fills_err. Qed.
Print Assumptions C72_fill_parts.
Theorem C72_into_fresh : forall L, lzw_safe L -> forall umax, 2 ^ 32 - 1 <= umax -> forall src o, src_ok src -> limit_ok umax (o_limit o) ->
  forall d d1 buf d' b e, opened L umax src o d -> o_skip_frame_decoding o = false ->
  next_frame_info L d = (d1, Ok true) -> read_into_buffer L umax d1 buf = (d', b, Err e) -> among into_fresh_errors src o e.
Proof. exact into_fresh_err. Qed.
Print Assumptions C72_into_fresh.

Theorem C72_streaming : forall L, lzw_safe L -> forall o s buf tl evs ob s' ob' e, driven L o s (buf ++ tl) evs ->
  update L s buf ob = (s', ob', Err e) ->
  with_options o e /\ (In e update_errors \/ e = DIo Unsupported /\ is_vec ob = true /\ o_skip_frame_decoding o = false).
Proof. exact update_err. Qed.
Print Assumptions C72_streaming.

Theorem C72_frame_decoder_into : forall L, lzw_safe L -> forall umax, 2 ^ 32 - 1 <= umax -> forall fd f buf fd' b e,
  decode_lzw_encoded_frame_into_buffer L umax fd f buf = (fd', b, Err e) ->
  In e lzw_into_errors /\ (e = DFormat OddSizedBuffer -> cv_color (fd_conv L fd) = CRgba).
Proof. exact fd_into_err. Qed.
Print Assumptions C72_frame_decoder_into.
Theorem C72_frame_decoder : forall L, lzw_safe L -> forall umax, 2 ^ 32 - 1 <= umax -> forall fd f fd' f' e,
  u16_ok (f_width f) -> u16_ok (f_height f) -> decode_lzw_encoded_frame L umax fd f = (fd', f', Err e) ->
  In e lzw_frame_errors /\ (e = DFormat OddSizedBuffer -> cv_color (fd_conv L fd) = CRgba).
Proof. exact fd_frame_err. Qed.
Print Assumptions C72_frame_decoder.

(** No call of [Decoder] reports "file does not contain any image data" (src/reader/mod.rs 297-299) or "bad state"
    (src/reader/decoder.rs 468, 578): the end of the header always comes before the trailer, and there is a current frame
    whenever one is needed. *)
Lemma among_not l src o m : among l src o (DFormat m) -> In (DFormat m) l.
Proof. intros [[H _]|[H|(k & _ & H)]]; [exact H|discriminate H..]. Qed.
Ltac not_in H := apply among_not in H; cbn in H; repeat (destruct H as [H|H]; [discriminate H|]); exact H.
Theorem C72_never : forall L, lzw_safe L -> forall umax, 2 ^ 32 - 1 <= umax -> forall src o, src_ok src -> limit_ok umax (o_limit o) ->
  forall m, m = NoImageData \/ m = BadState -> read_info L src o <> Err (DFormat m) /\
  forall d, opened L umax src o d -> snd (next_frame_info L d) <> Err (DFormat m) /\ snd (read_next_frame L umax d) <> Err (DFormat m) /\
    forall buf, snd (fill_buffer L d buf) <> Err (DFormat m) /\ snd (read_into_buffer L umax d buf) <> Err (DFormat m).
Proof.
  intros L safe umax Hu src o Hs Hl m Hm. split.
  { intros H. apply (C72_open L safe src o _ Hs) in H. destruct Hm as [-> | ->]; not_in H. }
  intros d Hd. split; [|split].
  - intros H. destruct (next_frame_info L d) as [d' x] eqn:E. cbn in H. subst x. apply (C72_seek L safe umax Hu src o Hs Hl) in E; [|exact Hd].
    destruct Hm as [-> | ->]; not_in E.
  - intros H. destruct (read_next_frame L umax d) as [d' x] eqn:E. cbn in H. subst x. apply (C72_frame L safe umax Hu src o Hs Hl) in E; [|exact Hd].
    destruct (o_skip_frame_decoding o), Hm as [-> | ->]; not_in E.
  - intros buf. split; intros H.
    + destruct (fill_buffer L d buf) as [[d' b] x] eqn:E. cbn in H. subst x. apply (C72_fill L safe umax Hu src o Hs Hl) in E; [|exact Hd].
      destruct Hm as [-> | ->]; not_in E.
    + destruct (read_into_buffer L umax d buf) as [[d' b] x] eqn:E. cbn in H. subst x. apply (C72_into L safe umax Hu src o Hs Hl) in E; [|exact Hd].
      destruct Hm as [-> | ->]; not_in E.
Qed.
Print Assumptions C72_never.

(** ** Every error does occur *)
Definition srcb (src : list revent) : bool := forallb (fun e => forallb (fun b => b <? 256) (ev_bytes e)) src.
Lemma srcb_ok src : srcb src = true -> src_ok src.
Proof.
  intros H. apply Forall_forall. intros e He. apply Forall_forall. intros b Hb.
  apply N.ltb_lt. exact (proj1 (forallb_forall _ _) (proj1 (forallb_forall _ _) H e He) b Hb).
Qed.

Fixpoint calls (d : dcd lzw_ref) (ops : list dop) : dcd lzw_ref :=
  match ops with [] => d | op :: ops => calls (fst (run_dop lzw_ref umax64 d op)) ops end.
Lemma calls_opened ops : forall src o d, Forall (op_ok umax64) ops -> opened lzw_ref umax64 src o d -> opened lzw_ref umax64 src o (calls d ops).
Proof.
  induction ops as [|op ops IH]; intros src o d H Hd; [exact Hd|]. inversion H; subst. cbn [calls]. apply IH; [assumption|].
  destruct (run_dop lzw_ref umax64 d op) as [d' y] eqn:E. eapply op_call; eassumption.
Qed.
Definition out_error (y : dout) : option derr :=
  match y with OutBool (Err e) | OutInto _ (Err e) | OutFill _ (Err e) => Some e | _ => None end.
Definition opsb (ops : list dop) : bool := forallb (fun op => match op with OpInto b | OpFill b => len b <=? umax64 / 2 | _ => true end) ops.
Lemma opsb_ok ops : opsb ops = true -> Forall (op_ok umax64) ops.
Proof.
  intros H. apply Forall_forall. intros op Hop. pose proof (proj1 (forallb_forall _ _) H op Hop) as A.
  destruct op; try exact I; cbn in *; now apply N.leb_le.
Qed.
(** A file, options, calls, and the last call, which fails. *)
Definition failing : Type := (list revent * options * list dop * dop)%type.
Definition call_error (c : failing) : option derr :=
  let '(src, o, ops, op) := c in
  match read_info lzw_ref src o with
  | Ok d => if srcb src && opsb (op :: ops) then out_error (snd (run_dop lzw_ref umax64 (calls d ops) op)) else None
  | _ => None
  end.
Definition fails (kind : dop -> Prop) (o : options) (e : derr) : Prop := exists src d op d' y, src_ok src /\
  opened lzw_ref umax64 src o d /\ kind op /\ op_ok umax64 op /\ run_dop lzw_ref umax64 d op = (d', y) /\ out_error y = Some e.
Lemma fails_by (kind : dop -> Prop) src o ops op e : call_error (src, o, ops, op) = Some e -> kind op -> fails kind o e.
Proof.
  cbn [call_error]. intros H Hk. destruct (read_info lzw_ref src o) as [d|x| | ] eqn:E; try discriminate H.
  destruct (srcb src && opsb (op :: ops)) eqn:Eb; [|discriminate H]. apply andb_prop in Eb as [H1 H2].
  apply srcb_ok in H1. apply opsb_ok in H2. inversion H2; subst.
  exists src, (calls d ops), op. destruct (run_dop lzw_ref umax64 (calls d ops) op) as [d' y] eqn:Er. exists d', y.
  repeat (split; [first [assumption|apply calls_opened; [assumption|now apply op_info]]|]). split; [reflexivity|exact H].
Qed.
Lemma all_fail (kind : dop -> Prop) (Q : options -> Prop) (ws : list failing) l : map call_error ws = map Some l ->
  Forall (fun c => kind (snd c) /\ Q (snd (fst (fst c)))) ws -> forall e, In e l -> exists o, Q o /\ fails kind o e.
Proof.
  revert l. induction ws as [|[[[src o] ops] op] ws IH]; intros [|e0 l] H Hk e He; cbn [map] in H; try discriminate H; [destruct He|].
  injection H as H0 H. inversion Hk as [|? ? [K1 K2] K3]; subst. destruct He as [<-|He].
  - exists o. split; [exact K2|]. eapply fails_by; eassumption.
  - exact (IH l H K3 e He).
Qed.

Definition px1 : list N := img_desc 0 0 1 1 0 ++ data_of 2 [1].
Definition bad_px : list N := img_desc 0 0 1 1 0 ++ [2; 1; 7; 0].
Definition far_px : list N := img_desc 4 0 1 1 0 ++ data_of 2 [0].
Definition bad_size : list N := img_desc 0 0 1 1 0 ++ [0; 1; 7; 0].
Definition no_px : list N := img_desc 0 0 1 1 0 ++ data_of 2 [].
Definition unknown : list N := [0x99; 0].
Definition short_gce : list N := [0x21; 0xF9; 3; 0; 0; 0; 0].
Definition comment : list N := [0x21; 0xFE; 3; 1; 2; 3; 0].
Definition file (l : list N) : list revent := [RChunk (head44 ++ l)].
Definition bare (l : list N) : list revent := [RChunk (GIF89a ++ [4; 0; 4; 0; 0; 0; 0] ++ l)].
Definition opt (lim : option N) (col : color_output) (skip : bool) : options := mk_opts lim col true skip false false.
Definition ix : options := opt (Some 100) CIndexed false.
Definition ix1 : options := opt (Some 1) CIndexed false.
Definition rgba : options := opt (Some 100) CRgba false.
Definition raw : options := opt (Some 2) CIndexed true.

Definition open_error (src : list revent) (o : options) : option derr :=
  match read_info lzw_ref src o with Err e => Some e | _ => None end.
Lemma open_by src o e : srcb src = true -> open_error src o = Some e -> exists src o, src_ok src /\ read_info lzw_ref src o = Err e.
Proof.
  unfold open_error. intros Hb H. exists src, o. split; [now apply srcb_ok|].
  destruct (read_info lzw_ref src o); try discriminate H. congruence.
Qed.
Theorem C72_open_occurs : forall e, In e open_errors \/ (exists k, e = DIo k) ->
  exists src o, src_ok src /\ read_info lzw_ref src o = Err e.
Proof.
  intros e [H|(k & ->)].
  - cbn in H. destruct H as [<-|[<-|[<-|[<-|[]]]]].
    + apply (open_by [RChunk [0; 0; 0; 0; 0; 0]] ix); vm_compute; reflexivity.
    + apply (open_by (file [0x21; 0x99; 0]) ix); vm_compute; reflexivity.
    + apply (open_by (file short_gce) ix); vm_compute; reflexivity.
    + apply (open_by (file comment) ix1); vm_compute; reflexivity.
  - apply (open_by [RErr k] ix); reflexivity.
Qed.
Print Assumptions C72_open_occurs.

(** By the call: [next_frame_info], [read_next_frame], [fill_buffer], [read_into_buffer]. *)
Definition is_info (op : dop) : Prop := match op with OpInfo => True | _ => False end.
Definition is_frame (op : dop) : Prop := match op with OpFrame => True | _ => False end.
Definition is_fill (op : dop) : Prop := match op with OpFill _ => True | _ => False end.
Definition is_into (op : dop) : Prop := match op with OpInto _ => True | _ => False end.
Ltac kinds := repeat (apply Forall_cons; [split; [exact I|reflexivity]|]); apply Forall_nil.

Definition seek_cases (skip : bool) (op : dop) : list failing :=
  [(file (px1 ++ unknown), opt (Some 100) CIndexed skip, [OpFrame], op);
   (file (px1 ++ short_gce), opt (Some 100) CIndexed skip, [OpFrame], op);
   (file (px1 ++ comment), opt (Some 2) CIndexed skip, [OpFrame], op);
   (file far_px, opt (Some 100) CIndexed skip, [], op);
   (file bad_size, opt (Some 100) CIndexed skip, [], op);
   (bare px1, opt (Some 100) CIndexed skip, [], op)].
Lemma seek_all skip op : is_info op \/ is_frame op -> map call_error (seek_cases skip op) = map Some (tl seek_errors).
Proof. destruct op; intros [H|H]; try destruct H; destruct skip; vm_compute; reflexivity. Qed.
Theorem C72_seek_occurs : forall e, In e seek_errors ->
  (exists o, o_skip_frame_decoding o = false /\ fails is_info o e) /\
  (e <> DIo InvalidData -> exists o, o_skip_frame_decoding o = true /\ fails is_info o e).
Proof.
  intros e He. split.
  - apply (all_fail is_info (fun o => o_skip_frame_decoding o = false) ((file bad_px, ix, [OpFrame], OpInfo) :: seek_cases false OpInfo) seek_errors);
      [|kinds|exact He].
    cbn [map]. rewrite seek_all by (left; exact I). vm_compute. reflexivity.
  - intros Hn. apply (all_fail is_info (fun o => o_skip_frame_decoding o = true) (seek_cases true OpInfo) (tl seek_errors)).
    + apply seek_all. left. exact I.
    + kinds.
    + destruct He as [<-|He]; [congruence|exact He].
Qed.
Print Assumptions C72_seek_occurs.

Definition frame_cases : list failing := [
   (file (img_desc 0 0 2 2 0 ++ data_of 2 [0; 0; 0; 0]), ix1, [], OpFrame);
   (file (img_desc 0 0 0 2 0 ++ data_of 2 []), rgba, [], OpFrame);
   (file no_px, ix, [], OpFrame); (file bad_px, ix, [], OpFrame)] ++ seek_cases false OpFrame.
Theorem C72_frame_occurs : forall e,
  (In e frame_errors -> exists o, o_skip_frame_decoding o = false /\ fails is_frame o e) /\
  (In e seek_errors -> e <> DIo InvalidData -> exists o, o_skip_frame_decoding o = true /\ fails is_frame o e).
Proof.
  intros e. split; intros He.
  - apply (all_fail is_frame (fun o => o_skip_frame_decoding o = false) frame_cases frame_errors); [vm_compute; reflexivity|kinds|exact He].
  - intros Hn. apply (all_fail is_frame (fun o => o_skip_frame_decoding o = true) (seek_cases true OpFrame) (tl seek_errors)).
    + apply seek_all. right. exact I.
    + kinds.
    + destruct He as [<-|He]; [congruence|exact He].
Qed.
Print Assumptions C72_frame_occurs.

Definition fill_cases (op small : dop) : list failing := [
   (file bad_px, ix, [OpInfo], op);
   (file (px1 ++ unknown), ix, [OpFrame; OpFill [0]; OpFill [0]], op);
   (file (px1 ++ short_gce), ix, [OpFrame; OpFill [0]; OpFill [0]; OpFill [0]; OpFill [0]], op);
   (file (px1 ++ comment), ix1, [OpFrame; OpFill [0]; OpFill [0]; OpFill [0]], op);
   (file far_px, ix, [OpFill [0]], op);
   (file bad_size, ix, [OpFill [0]], op);
   (file px1, rgba, [OpInfo], small);
   (file px1, ix, [], op)].
Theorem C72_fill_occurs : forall e, In e fill_errors -> exists o, o_skip_frame_decoding o = false /\ fails is_fill o e.
Proof.
  apply (all_fail is_fill (fun o => o_skip_frame_decoding o = false) (fill_cases (OpFill [0]) (OpFill [0])) fill_errors); [vm_compute; reflexivity|kinds].
Qed.
Print Assumptions C72_fill_occurs.
Definition into_cases : list failing :=
  (file px1, ix, [OpInfo], OpInto []) :: (file no_px, ix, [OpInfo], OpInto [0]) ::
  firstn 6 (fill_cases (OpInto [0]) (OpInto [0])) ++
  [(file (img_desc 0 0 0 2 0 ++ data_of 2 []), rgba, [OpInfo], OpInto [0]); (file px1, ix, [], OpInto [0])].
Theorem C72_into_occurs : forall e, In e into_errors -> exists o, o_skip_frame_decoding o = false /\ fails is_into o e.
Proof.
  apply (all_fail is_into (fun o => o_skip_frame_decoding o = false) into_cases into_errors); [vm_compute; reflexivity|kinds].
Qed.
Print Assumptions C72_into_occurs.

(** Directly after the announcement. *)
Definition fresh_error (src : list revent) (o : options) (op : dop) : option derr :=
  match read_info lzw_ref src o with
  | Ok d => match next_frame_info lzw_ref d with (d1, Ok true) => out_error (snd (run_dop lzw_ref umax64 d1 op)) | _ => None end
  | _ => None
  end.
Lemma fresh_spec src o op e : fresh_error src o op = Some e -> exists d d1 d' y, opened lzw_ref umax64 src o d /\
  next_frame_info lzw_ref d = (d1, Ok true) /\ run_dop lzw_ref umax64 d1 op = (d', y) /\ out_error y = Some e.
Proof.
  unfold fresh_error. intros H. destruct (read_info lzw_ref src o) as [d|x| | ] eqn:E; try discriminate H.
  destruct (next_frame_info lzw_ref d) as [d1 [[|]|x| | ]] eqn:Ei; try discriminate H.
  destruct (run_dop lzw_ref umax64 d1 op) as [d' y] eqn:Er.
  exists d, d1, d', y. repeat (split; [first [assumption|now apply op_info|reflexivity]|]). exact H.
Qed.
Theorem C72_fresh_occurs :
  (forall e, In e fill_fresh_errors -> exists src o d d1 buf d' y, src_ok src /\ opened lzw_ref umax64 src o d /\
    next_frame_info lzw_ref d = (d1, Ok true) /\ run_dop lzw_ref umax64 d1 (OpFill buf) = (d', y) /\ out_error y = Some e) /\
  (forall e, In e into_fresh_errors -> exists src o d d1 buf d' y, src_ok src /\ opened lzw_ref umax64 src o d /\
    next_frame_info lzw_ref d = (d1, Ok true) /\ run_dop lzw_ref umax64 d1 (OpInto buf) = (d', y) /\ out_error y = Some e).
Proof.
  assert (F : forall src o buf e, srcb src = true -> fresh_error src o (OpFill buf) = Some e ->
    exists src o d d1 buf d' y, src_ok src /\ opened lzw_ref umax64 src o d /\
    next_frame_info lzw_ref d = (d1, Ok true) /\ run_dop lzw_ref umax64 d1 (OpFill buf) = (d', y) /\ out_error y = Some e).
  { intros src o buf e Hb H. apply srcb_ok in Hb. destruct (fresh_spec _ _ _ _ H) as (d & d1 & d' & y & A).
    exists src, o, d, d1, buf, d', y. auto. }
  assert (G : forall src o buf e, srcb src = true -> fresh_error src o (OpInto buf) = Some e ->
    exists src o d d1 buf d' y, src_ok src /\ opened lzw_ref umax64 src o d /\
    next_frame_info lzw_ref d = (d1, Ok true) /\ run_dop lzw_ref umax64 d1 (OpInto buf) = (d', y) /\ out_error y = Some e).
  { intros src o buf e Hb H. apply srcb_ok in Hb. destruct (fresh_spec _ _ _ _ H) as (d & d1 & d' & y & A).
    exists src, o, d, d1, buf, d', y. auto. }
  split; intros e H; cbn in H.
  - destruct H as [<-|[<-|[]]].
    + apply (F (file bad_px) ix [0]); vm_compute; reflexivity.
    + apply (F (file px1) rgba [0]); vm_compute; reflexivity.
  - destruct H as [<-|[<-|[<-|[<-|[]]]]].
    + apply (G (file px1) ix []); vm_compute; reflexivity.
    + apply (G (file no_px) ix [0]); vm_compute; reflexivity.
    + apply (G (file bad_px) ix [0]); vm_compute; reflexivity.
    + apply (G (file (img_desc 0 0 0 2 0 ++ data_of 2 [])) rgba [0]); vm_compute; reflexivity.
Qed.
Print Assumptions C72_fresh_occurs.

(** One pixel, then a wrong code. *)
Definition late_bad : list N := img_desc 0 0 2 1 0 ++ [2; 1; 0xC4; 1; 1; 0].
Example C72_fill_parts_case : src_ok (file late_bad) /\ limit_ok umax64 (o_limit ix) /\ o_skip_frame_decoding ix = false /\
  exists d d1 d2 ys, opened lzw_ref umax64 (file late_bad) ix d /\ next_frame_info lzw_ref d = (d1, Ok true) /\
    run_dops lzw_ref umax64 d1 (map OpFill [[9]]) = (d2, ys) /\ Forall (fun y => exists b, y = OutFill b (Ok true)) ys /\
    snd (fill_buffer lzw_ref d2 [9]) = Err (DIo InvalidData).
Proof.
  split; [apply srcb_ok; reflexivity|]. split; [left; vm_compute; discriminate|]. split; [reflexivity|].
  assert (H : match read_info lzw_ref (file late_bad) ix with
    | Ok d => match next_frame_info lzw_ref d with
      | (d1, Ok true) => let '(d2, ys) := run_dops lzw_ref umax64 d1 (map OpFill [[9]]) in
          ys = [OutFill [0] (Ok true)] /\ snd (fill_buffer lzw_ref d2 [9]) = Err (DIo InvalidData)
      | _ => False end
    | _ => False end) by (vm_compute; split; reflexivity).
  destruct (read_info lzw_ref (file late_bad) ix) as [d|x| | ] eqn:E; try contradiction.
  destruct (next_frame_info lzw_ref d) as [d1 [[|]|x| | ]] eqn:Ei; try contradiction.
  destruct (run_dops lzw_ref umax64 d1 (map OpFill [[9]])) as [d2 ys] eqn:Er. destruct H as [-> H].
  exists d, d1, d2, [OutFill [0] (Ok true)]. split; [now apply op_info|]. split; [exact Ei|]. split; [exact Er|].
  split; [repeat constructor; eexists; reflexivity|exact H].
Qed.

(** A caller of [update] who passes all that is left with the same kind of buffer every time. *)
Fixpoint feed (fuel : nat) (s : sd lzw_ref) (rest : list N) (ob : obuf) : option derr :=
  match fuel with
  | O => None
  | S fuel => match update lzw_ref s rest ob with
              | (s', _, Ok (n, _)) => feed fuel s' (skipn n rest) ob
              | (_, _, Err e) => Some e
              | _ => None
              end
  end.
Lemma feed_err o ob e fuel : forall s rest evs, driven lzw_ref o s rest evs -> feed fuel s rest ob = Some e ->
  exists s buf evs s' ob', driven lzw_ref o s (buf ++ []) evs /\ update lzw_ref s buf ob = (s', ob', Err e).
Proof.
  induction fuel as [|fuel IH]; intros s rest evs Hd H; cbn [feed] in H; [discriminate H|].
  destruct (update lzw_ref s rest ob) as [[s' ob'] [[n d]|x| | ]] eqn:E; try discriminate H.
  - eapply IH; [|exact H]. rewrite <- (app_nil_r (skipn n rest)). eapply dr_ok; [|exact E]. rewrite app_nil_r. exact Hd.
  - injection H as ->. exists s, rest, evs, s', ob'. rewrite app_nil_r. auto.
Qed.
Theorem C72_streaming_occurs : forall e, In e (DIo Unsupported :: update_errors) ->
  exists o s buf tl evs ob s' ob', driven lzw_ref o s (buf ++ tl) evs /\ update lzw_ref s buf ob = (s', ob', Err e).
Proof.
  assert (F : forall o file ob e, feed 30 (sd_new lzw_ref o) file ob = Some e ->
    exists o s buf tl evs ob s' ob', driven lzw_ref o s (buf ++ tl) evs /\ update lzw_ref s buf ob = (s', ob', Err e)).
  { intros o file ob e H. destruct (feed_err o ob e _ _ _ [] (dr_new _ _ _) H) as (s & buf & evs & s' & ob' & A & B).
    exists o, s, buf, [], evs, ob, s', ob'. auto. }
  intros e H. cbn in H. destruct H as [<-|[<-|[<-|[<-|[<-|[<-|[<-|[<-|[]]]]]]]]].
  - apply (F ix (head44 ++ px1) (OVec [])). vm_compute. reflexivity.
  - apply (F ix (head44 ++ bad_px) (OSlice [0])). vm_compute. reflexivity.
  - apply (F ix [0; 0; 0; 0; 0; 0] ONone). vm_compute. reflexivity.
  - apply (F ix (head44 ++ unknown) ONone). vm_compute. reflexivity.
  - apply (F ix (head44 ++ short_gce) ONone). vm_compute. reflexivity.
  - apply (F ix1 (head44 ++ comment) ONone). vm_compute. reflexivity.
  - apply (F ix (head44 ++ far_px) ONone). vm_compute. reflexivity.
  - apply (F ix (head44 ++ bad_size) ONone). vm_compute. reflexivity.
Qed.
Print Assumptions C72_streaming_occurs.

(** A frame of the given size with compressed data [b]. *)
Definition lzw_frame (w h : N) (b : list N) : frame :=
  mk_frame 0 DKeep None false 0 0 w h false (Some [1; 2; 3; 4; 5; 6]) b.
Definition lz (px : list N) : list N := 2 :: lz_encode lzw_ref 2 px.
Lemma u16b n : (n <? 65536) = true -> u16_ok n.
Proof. intros H. apply N.ltb_lt in H. exact H. Qed.
Ltac fd_case := split; [apply u16b; reflexivity|split; [apply u16b; reflexivity|vm_compute; reflexivity]].
Theorem C72_frame_decoder_occurs :
  (forall e, In e lzw_into_errors -> exists o f buf, u16_ok (f_width f) /\ u16_ok (f_height f) /\
    snd (decode_lzw_encoded_frame_into_buffer lzw_ref umax64 (fd_new lzw_ref o) f buf) = Err e) /\
  (forall e, In e lzw_frame_errors -> exists o f, u16_ok (f_width f) /\ u16_ok (f_height f) /\
    snd (decode_lzw_encoded_frame lzw_ref umax64 (fd_new lzw_ref o) f) = Err e).
Proof.
  split; intros e H; cbn in H.
  - destruct H as [<-|[<-|[<-|[<-|[<-|[]]]]]].
    + exists ix, (lzw_frame 1 1 [2; 7]), [0]. fd_case.
    + exists ix, (lzw_frame 1 1 [0; 7]), [0]. fd_case.
    + exists rgba, (lzw_frame 0 1 (lz [])), [0]. fd_case.
    + exists ix, (lzw_frame 1 1 (lz [])), [0]. fd_case.
    + exists ix, (lzw_frame 2 1 (lz [0; 0])), [0]. fd_case.
  - destruct H as [<-|[<-|[<-|[<-|[<-|[]]]]]].
    + exists ix, (lzw_frame 1 1 [2; 7]). fd_case.
    + exists ix1, (lzw_frame 2 2 (lz [0; 0; 0; 0])). fd_case.
    + exists ix, (lzw_frame 1 1 [0; 7]). fd_case.
    + exists rgba, (lzw_frame 0 1 (lz [])). fd_case.
    + exists ix, (lzw_frame 1 1 (lz [])). fd_case.
Qed.
Print Assumptions C72_frame_decoder_occurs.
