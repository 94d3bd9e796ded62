(** What a caller of [StreamingDecoder::update] finds in the destinations it passes. *)
From Verif Require Import Base Common Lzw Encoder Stream SpecGif SpecWatch.
Open Scope N_scope.

(** The number of bytes an event reports as put into the destination. *)
Definition amount (d : decoded) : nat :=
  match d with DBytesDecoded k | DLzwDataCopied k => k | _ => O end.
(** Where the caller looks for the [k] bytes reported: at the start of a slice, at the end of a vector. *)
Definition taken (k : nat) (ob : obuf) : list N :=
  match ob with
  | OSlice s => firstn k s
  | OVec v => skipn (length v - k) v
  | ONone => []
  end.
(** A destination that has received the bytes [w] and is otherwise unchanged. *)
Definition put (ob : obuf) (w : list N) : obuf :=
  match ob with
  | OSlice s => OSlice (w ++ skipn (length w) s)
  | OVec v => OVec (v ++ w)
  | ONone => ONone
  end.

(** Destinations that lose nothing: room in a slice; a vector if the compressed data are asked for. *)
Definition keeps (o : options) (ob : obuf) : Prop :=
  match ob with
  | OSlice s => s <> []
  | OVec _ => o_skip_frame_decoding o = true
  | ONone => False
  end.
(** Those that are accepted for sure: a vector must also stay within the memory limit. *)
Definition accepted (o : options) (buf : list N) (ob : obuf) : Prop :=
  keeps o ob /\
  match ob with OVec v => fits (o_limit o) (N.of_nat (length v + length buf)) | _ => True end.

(** [collected L o file s rest obs imgs cur]: a new decoder was given pieces from the front of [file]. All
    calls succeeded and reported [obs], not counting [Nothing] and the amounts of image data. After
    [FrameMetadata] and until [DataEnd] the caller passed destinations that lose nothing and put what they
    received together: [imgs] for the images completed, [cur] for the one that has begun. Elsewhere it passed
    whatever it liked. The decoder is now [s] and [rest] is not consumed yet. *)
Inductive collected (L : lzw_codec) (o : options) (file : list N) :
  sd L -> list N -> list sight -> list (list N) -> option (list N) -> Prop :=
| co_new : collected L o file (sd_new L o) file [] [] None
| co_call s buf tl ob s' ob' n d obs imgs cur :
    collected L o file s (buf ++ tl) obs imgs cur ->
    (cur <> None -> keeps o ob) ->
    update L s buf ob = (s', ob', Ok (n, d)) ->
    collected L o file s' (skipn n buf ++ tl)
      (obs ++ match d with DNothing | DBytesDecoded _ | DLzwDataCopied _ => [] | _ => [observe s' d] end)
      (match d, cur with DDataEnd, Some data => imgs ++ [data] | _, _ => imgs end)
      (match d, cur with
       | DFrameMetadata _, _ => Some []
       | DDataEnd, _ => None
       | _, Some data => Some (data ++ taken (amount d) ob')
       | _, None => None
       end).

(** The data of an image as the caller is to get them: as they are in the file, or decompressed. *)
Definition image_data (L : lzw_codec) (S : lzw_spec L) (o : options) (ci : ctl * img) (out : list N) : Prop :=
  let i := snd ci in
  if o_skip_frame_decoding o then out = payload (im_subs i)
  else o_check_for_end_code o = false /\ lz_pending S (lz_new L (im_mcs i)) (payload (im_subs i)) out.
(** What has been collected is right so far: complete images first, then the beginning of the next. *)
Definition right_so_far (outs imgs : list (list N)) (cur : option (list N)) : Prop :=
  exists more, outs = imgs ++ more /\
    match cur with
    | None => True
    | Some data => exists rest outs', more = (data ++ rest) :: outs'
    end.

(** A caller that passes all that is left in each call, with these destinations: the events, and the bytes
    that came with each. *)
Fixpoint feed (L : lzw_codec) (s : sd L) (rest : list N) (dests : list obuf) : list (decoded * list N) :=
  match dests with
  | [] => []
  | ob :: dests' =>
    match update L s rest ob with
    | (s', ob', Ok (n, d)) => (d, taken (amount d) ob') :: feed L s' (skipn n rest) dests'
    | _ => []
    end
  end.
