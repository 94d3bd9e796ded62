(** Property C60: the options builder. *)
From Verif Require Import Base Common Lzw Encoder Stream Converter Reader LzwRef LzwRefSpec ConvInv SpecGif SpecPixels
  DocRead DocAll Mixed SpecVerdict Verdict Validate Refuted PropEnc PropDec PropMore PropVerdict SpecBuild OptBuild.
Open Scope N_scope.

(** After any chain of calls, every setting is the argument of the last call for it, or else its documented default. *)
Theorem C60_settings : forall cs, settings_of cs (configure options_new cs).
Proof. exact configured. Qed.
Print Assumptions C60_settings.
(** That describes the settings completely. *)
Theorem C60_unique : forall A (pick : opt_call -> option A) dflt cs v w,
  last_set pick dflt cs v -> last_set pick dflt cs w -> v = w.
Proof. exact @last_set_unique. Qed.
Print Assumptions C60_unique.

(** The defaults: every way to start has them. *)
Theorem C60_defaults :
  options_new = mk_opts (Some 50000000) CIndexed false false false false /\
  options_default = options_new /\ decoder_build = options_new /\
  (forall L src, decoder_new L src = read_info L src options_new) /\
  (forall L, streaming_new L = sd_new L options_new).
Proof. repeat split. Qed.
Print Assumptions C60_defaults.

(** What the settings mean for a caller who reads a file frame by frame: the limit and the colour output of the last
    calls, or 50 million bytes and palette indices, decide what is delivered for each image. *)
Theorem C60_frames : forall L (S : lzw_spec L) umax, 2 ^ 64 - 1 <= umax ->
  forall cs g tl src outs, gif_ok (configure options_new cs) g -> delivers src (ser_gif g tl) ->
  last_set p_skip false cs false -> last_set p_end false cs false ->
  Forall2 (one_frame L S) (gif_images g) outs ->
  exists d d' rs, read_info L src (configure options_new cs) = Ok d /\
    read_each L umax d (map (fun _ => HFrame) outs) = (d', rs, Ok false) /\
    forall l c, last_set p_limit (Some 50000000) cs l -> last_set p_color CIndexed cs c ->
    Forall2 (fun cm r => delivered l c g (fst cm) (snd cm) r) (combine (gif_images g) outs) rs.
Proof. exact configured_frames. Qed.
Print Assumptions C60_frames.

(** Calls in any order; the limit is set twice. *)
Definition bx_calls : list opt_call :=
  [SetMemoryLimit (Some 3); SkipFrameDecoding true; AllowUnknownBlocks true; SetColorOutput CRgba; SkipFrameDecoding false;
   SetMemoryLimit (Some 20)].
Example C60_settings_case : configure options_new bx_calls = mk_opts (Some 20) CRgba false false false true /\
  last_set p_limit (Some 50000000) bx_calls (Some 20) /\ last_set p_skip false bx_calls false /\ last_set p_end false bx_calls false /\
  last_set p_color CIndexed bx_calls CRgba.
Proof.
  split; [reflexivity|]. split; [|split; [|split]].
  - left. exists [SetMemoryLimit (Some 3); SkipFrameDecoding true; AllowUnknownBlocks true; SetColorOutput CRgba; SkipFrameDecoding false],
      (SetMemoryLimit (Some 20)), []. split; [reflexivity|]. split; [reflexivity|]. intros x [].
  - left. exists [SetMemoryLimit (Some 3); SkipFrameDecoding true; AllowUnknownBlocks true; SetColorOutput CRgba],
      (SkipFrameDecoding false), [SetMemoryLimit (Some 20)]. split; [reflexivity|]. split; [reflexivity|]. intros x [<-|[]]. reflexivity.
  - right. split; [reflexivity|]. intros x Hx. repeat (destruct Hx as [<-|Hx]; [reflexivity|]). destruct Hx.
  - left. exists [SetMemoryLimit (Some 3); SkipFrameDecoding true; AllowUnknownBlocks true],
      (SetColorOutput CRgba), [SkipFrameDecoding false; SetMemoryLimit (Some 20)]. split; [reflexivity|]. split; [reflexivity|].
    intros x Hx. repeat (destruct Hx as [<-|Hx]; [reflexivity|]). destruct Hx.
Qed.
(** The images of [vy_gif]: two frames of 8 bytes, one of 24 bytes, which is refused, and the first one again. *)
Lemma bx_ok : gif_ok (configure options_new bx_calls) vy_gif.
Proof.
  split; [reflexivity|]. split; [reflexivity|]. split; [reflexivity|]. split; [reflexivity|]. split; [reflexivity|].
  split; [split; [crush_rng|reflexivity]|]. split; [discriminate|].
  split; [|exact I].
  unfold vy_gif at 2. cbn [g_blocks]. constructor; [|constructor; [|constructor; [|constructor; [|constructor; [|constructor]]]]].
  - split; [right; left; reflexivity|]. split; [split; [discriminate|crush_rng]|]. split; [reflexivity|vm_compute; discriminate].
  - vx_image.
  - vx_image.
  - vx_image.
  - vx_image.
Qed.
Example C60_frames_case : exists d d' rs, read_info lzw_ref vy_src (configure options_new bx_calls) = Ok d /\
  read_each lzw_ref umax64 d [HFrame; HFrame; HFrame; HFrame] = (d', rs, Ok false) /\
  map snd rs = [Ok true; Ok true; Err (DIo OutOfMemory); Ok true].
Proof.
  assert (Hd : delivers vy_src (ser_gif vy_gif dx_tail)) by (apply bytewise_delivers, bytes_by; vm_compute; reflexivity).
  assert (Hf : Forall2 (one_frame lzw_ref lzw_ref_spec) (gif_images vy_gif) [[1; 0]; [1; 0]; [0; 1; 2; 0; 1; 2; 3; 3; 3; 3]; [1; 0]]).
  { constructor; [|constructor; [|constructor; [|constructor; [|constructor]]]]; (split; [|cbn; lia]);
      first [exact dx_pending1|exact dx_pending2]. }
  destruct C60_settings_case as (_ & C1 & C2 & C3 & C4).
  assert (Hu : 2 ^ 64 - 1 <= umax64) by (vm_compute; discriminate).
  destruct (C60_frames lzw_ref lzw_ref_spec umax64 Hu bx_calls vy_gif dx_tail vy_src _ bx_ok Hd C2 C3 Hf) as (d & d' & rs & E1 & E2 & T).
  exists d, d', rs. split; [exact E1|]. split; [exact E2|]. specialize (T _ _ C1 C4). clear -T.
  inversion T as [|? [[f1 b1] x1] ? ? T1 T']; subst; clear T. inversion T' as [|? [[f2 b2] x2] ? ? T2 T]; subst; clear T'.
  inversion T as [|? [[f3 b3] x3] ? ? T3 T']; subst; clear T. inversion T' as [|? [[f4 b4] x4] ? ? T4 T]; subst; clear T'.
  inversion T; subst. destruct T1 as [T1 _]. destruct T2 as [T2 _]. destruct T4 as [T4 _]. cbn [snd] in *. cbn [map snd].
  rewrite T1, T2, T4. change (x3 = Err (DIo OutOfMemory)) in T3. rewrite T3. reflexivity.
Qed.
