(** What a caller sees who passes a well-formed file to [StreamingDecoder::update] piece by piece and, after
    each event, looks at [last_ext] or [current_frame]. *)
From Verif Require Import Base Common Lzw Encoder Stream SpecGif.
Open Scope N_scope.

(** An event, with [last_ext] after the events of extensions and [current_frame] after frame metadata. *)
Inductive sight :=
| SPlain (d : decoded)
| SExt (d : decoded) (x : N * list N * bool)
| SFrame (d : decoded) (f : option frame).
Definition observe {L} (s : sd L) (d : decoded) : sight :=
  match d with
  | DSubBlockFinished _ | DBlockFinished _ => SExt d (last_ext L s)
  | DFrameMetadata _ => SFrame d (sd_current L s)
  | _ => SPlain d
  end.

(** [watched L o file s rest obs]: a new decoder was given pieces from the front of [file], all calls
    succeeded and reported [obs], not counting [Nothing] and the amounts of copied image data (those depend
    on the pieces); the decoder is now [s] and [rest] is not consumed yet. *)
Inductive watched (L : lzw_codec) (o : options) (file : list N) : sd L -> list N -> list sight -> Prop :=
| wt_new : watched L o file (sd_new L o) file []
| wt_ok s buf tl s' ob' n d obs :
    watched L o file s (buf ++ tl) obs -> update L s buf ONone = (s', ob', Ok (n, d)) ->
    watched L o file s' (skipn n buf ++ tl)
      (obs ++ match d with DNothing | DLzwDataCopied _ => [] | _ => [observe s' d] end).

(** The sub-blocks of an extension after the first one, [sofar] being the data reported until then. *)
Fixpoint sub_sights (l : N) (sofar : list N) (subs : list (list N)) : list sight :=
  match subs with
  | [] => []
  | b :: subs' => SExt (DSubBlockFinished l) (l, sofar, false) :: sub_sights l (sofar ++ b) subs'
  end.
(** An extension: its data are the size byte of the first sub-block and the contents of all sub-blocks. *)
Definition ext_sights (l : N) (subs : list (list N)) : list sight :=
  match subs with
  | [] => []
  | b :: subs' =>
    let size := N.of_nat (length b) in
    SPlain (DBlockStart BkExtension) :: sub_sights l (size :: b) subs' ++
    [SExt (DBlockFinished l) (l, size :: payload subs, true)] ++
    match (if l =? 0xFF then loop_of (payload subs) else None) with
    | Some n => [SPlain (DRepetitions n)]
    | None => []
    end
  end.
(** A block of unknown kind shows up as a continuation of the last extension; [x] are the label (0 if there
    was none) and the data of that one. *)
Definition unk_sights (x : N * list N) (subs : list (list N)) : list sight :=
  match subs with
  | [] => []
  | b :: subs' =>
    let data := snd x ++ payload subs in
    sub_sights (fst x) (snd x ++ b) subs' ++
    [SExt (DBlockFinished (fst x)) (fst x, data, true)] ++
    match (if fst x =? 0xFF then loop_of (skipn 1 data) else None) with
    | Some n => [SPlain (DRepetitions n)]
    | None => []
    end
  end.
(** The blocks of a file and its trailer; [h] tells whether the end of the header was reported, [x] is the
    last extension. *)
Fixpoint blocks_sights (o : options) (h : bool) (c : ctl) (x : N * list N) (bs : list blk) : list sight :=
  let header_end := if h then [] else [SPlain DHeaderEnd] in
  match bs with
  | [] => header_end ++ [SPlain (DBlockStart BkTrailer)]
  | BExt l subs :: bs' =>
    ext_sights l subs ++ blocks_sights o h (if l =? 0xF9 then ctl_of (payload subs) else c)
                           (l, N.of_nat (length (hd [] subs)) :: payload subs) bs'
  | BImg i :: bs' =>
    header_end ++
    [SPlain (DBlockStart BkImage);
     SFrame (DFrameMetadata (if o_skip_frame_decoding o then FLzw (im_mcs i) else FPixels))
       (Some (meta_frame c i (is_interlaced (im_flags i)) []));
     SPlain DDataEnd] ++ blocks_sights o true ctl_none x bs'
  | BUnk _ subs :: bs' =>
    header_end ++ unk_sights x subs ++ blocks_sights o true c (fst x, snd x ++ payload subs) bs'
  end.
Definition file_sights (o : options) (g : gif) : list sight :=
  [SPlain (DBackgroundColor (g_bg g)); SPlain (DGlobalPalette (g_gct g))] ++
  blocks_sights o false ctl_none (0, []) (g_blocks g).
