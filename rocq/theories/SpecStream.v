(** What a caller of [StreamingDecoder] does and may expect: the calls of [update] it makes, and the
    grammar of the events it sees. *)
From Verif Require Import Base Common Lzw Encoder Stream.
Open Scope N_scope.

(** [driven L o s rest evs]: starting from a new decoder with options [o] the caller has passed pieces of
    its byte stream to [update] and has seen the events [evs]; the decoder is now [s] and the stream
    continues with [rest]. Every call gets some (possibly empty) piece from the front of the stream and
    the stream moves on by the number of bytes the call took. After an error the caller may resume
    anywhere. The destination is chosen freely for each call. *)
Inductive driven (L : lzw_codec) (o : options) : sd L -> list N -> list decoded -> Prop :=
| dr_new rest : driven L o (sd_new L o) rest []
| dr_ok s buf tl ob s' ob' n d evs :
    driven L o s (buf ++ tl) evs -> update L s buf ob = (s', ob', Ok (n, d)) ->
    driven L o s' (skipn n buf ++ tl) (evs ++ [d])
| dr_err s buf tl ob s' ob' e rest evs :
    driven L o s (buf ++ tl) evs -> update L s buf ob = (s', ob', Err e) ->
    driven L o s' rest evs.

(** The grammar of events as an automaton. In [PBetween h r]: [h] tells whether [HeaderEnd] was seen,
    [r] whether an application extension has just ended, which a loop count may follow. *)
Inductive phase :=
| PStart | PPalette | PBetween (h r : bool) | PExt (h : bool) | PImage | PData | PEnd.

(** [unk]: unknown blocks are allowed; their events are those of an extension without its start. *)
Definition phase_step (unk : bool) (p : phase) (d : decoded) : option phase :=
  match p, d with
  | _, DNothing => Some p
  | PStart, DBackgroundColor _ => Some PPalette
  | PPalette, DGlobalPalette _ => Some (PBetween false false)
  | PBetween false _, DHeaderEnd => Some (PBetween true false)
  | PBetween h true, DRepetitions _ => Some (PBetween h false)
  | PBetween h _, DBlockStart BkExtension => Some (PExt h)
  | PBetween true _, DBlockStart BkImage => Some PImage
  | PBetween true _, DBlockStart BkTrailer => Some PEnd
  | PBetween true _, DSubBlockFinished _ => if unk then Some (PExt true) else None
  | PBetween true _, DBlockFinished x => if unk then Some (PBetween true (x =? 0xFF)) else None
  | PExt h, DSubBlockFinished _ => Some (PExt h)
  | PExt h, DBlockFinished x => Some (PBetween h (x =? 0xFF))
  | PImage, DFrameMetadata _ => Some PData
  | PData, DBytesDecoded _ => Some PData
  | PData, DLzwDataCopied _ => Some PData
  | PData, DDataEnd => Some (PBetween true false)
  | _, _ => None
  end.
Fixpoint phase_run (unk : bool) (p : phase) (evs : list decoded) : option phase :=
  match evs with
  | [] => Some p
  | d :: evs' => match phase_step unk p d with Some p' => phase_run unk p' evs' | None => None end
  end.

(** The part of the screen a frame covers lies within a screen of size [w] x [h]. *)
Definition in_bounds (w h : N) (f : frame) : Prop := f_left f + f_width f <= w /\ f_top f + f_height f <= h.
