(** What was got from the iterator is what the file says. *)
From Verif Require Import Base Common Lzw LzwErrs LzwEnds Encoder Stream Converter Reader StreamInv ConvInv DecoderSafe CanonReader DocRead DocAll
  SpecGif SpecPixels SpecAccept SpecSound Sound SoundAcc Ending Iterate DecInv.
Open Scope N_scope.

Section IS.
Variable L : lzw_codec.
Variable S : lzw_spec L.
Variable umax : N.
Hypothesis Humax : 2 ^ 32 - 1 <= umax.
Variable src : list revent.
Variable o : options.
Hypothesis Hsrc : src_ok src.
Hypothesis Hlim : limit_ok umax (o_limit o).
Hypothesis noskip : o_skip_frame_decoding o = false.

(** The loop stopped at an image of height 0, with [fs] before it. *)
Definition stopped (d : dcd L) (fs : list frame) : Prop :=
  exists d' f, read_all L umax (Datatypes.S (length fs)) d = (d', fs ++ [f], Ok true) /\ f_buffer f = [] /\ f_height f = 0.

Theorem iter_sound (Z : lzw_errs S) d fs it : good_src src -> o_check_for_end_code o = false -> read_info L src o = Ok d ->
  iter_all L umax (Datatypes.S (length fs)) (mk_iter L d false) = (it, map IFrame fs ++ [INone]) ->
  stopped d fs \/
  exists g tl obs, concat (map ev_bytes src) = ser_gif g tl /\ file_acc true o g tl /\
    Forall2 (data_for Z) (acc_images g) obs /\ Forall2 (fun ci ob => shows umax o (snd ci) (fst ob)) (acc_images g) obs /\
    fs = all_seen o g (acc_images g) (map fst obs).
Proof.
  intros Hg Hc Hi H. destruct (loop_ends L umax (lz_is_safe _ S) Humax src o Hsrc Hlim d fs it (op_info L umax src o d Hi) H) as (d' & [E|(f & E)]).
  - right. destruct (read_sound L S umax Humax Z src o d _ d' fs Hsrc Hg Hlim noskip Hc Hi E) as (g & tl & obs & A & B & _ & C). exists g, tl, obs. auto.
  - left. exists d', f. exact E.
Qed.
Theorem iter_ends (Y : lzw_ends S) d fs it : o_check_for_end_code o = true -> read_info L src o = Ok d ->
  iter_all L umax (Datatypes.S (length fs)) (mk_iter L d false) = (it, map IFrame fs ++ [INone]) ->
  stopped d fs \/
  exists g tl, concat (map ev_bytes src) = ser_gif g tl /\ file_acc true o g tl /\
    Forall (fun b => match b with BImg i => lz_ends Y (lz_new L (im_mcs i)) (payload (im_subs i)) | _ => True end) (g_blocks g).
Proof.
  intros Hc Hi H. destruct (loop_ends L umax (lz_is_safe _ S) Humax src o Hsrc Hlim d fs it (op_info L umax src o d Hi) H) as (d' & [E|(f & E)]).
  - right. exact (read_ends L S Y o Hc umax Humax src d _ d' fs Hsrc Hlim noskip Hi E).
  - left. exists d', f. exact E.
Qed.
End IS.
