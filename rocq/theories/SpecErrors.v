(** Vocabulary for C72: which errors a call may return. *)
From Verif Require Import Base Common Lzw Encoder Stream Converter Reader.
Open Scope N_scope.

(** Errors of the reader: the input ended too early, or an error made by the caller's reader. *)
Definition reader_error (src : list revent) (e : derr) : Prop :=
  e = DIo UnexpectedEof \/ exists k, In (RErr k) src /\ e = DIo k.

(** Errors that only occur with certain options. *)
Definition with_options (o : options) (e : derr) : Prop :=
  match e with
  | DFormat FrameOutOfBounds => o_check_frame_consistency o = true
  | DFormat MemoryLimitReached => o_limit o <> None
  | DIo InvalidData | DIo OutOfMemory => o_skip_frame_decoding o = false
  | DFormat OddSizedBuffer => o_color o = CRgba
  | _ => True
  end.

Definition among (l : list derr) (src : list revent) (o : options) (e : derr) : Prop :=
  (In e l /\ with_options o e) \/ reader_error src e.

(** [DecodeOptions::read_info]. *)
Definition open_errors : list derr :=
  map DFormat [MalformedHeader; UnknownBlockType; ControlWrongLength; MemoryLimitReached].
(** [Decoder::next_frame_info]. *)
Definition seek_errors : list derr :=
  DIo InvalidData ::
  map DFormat [UnknownBlockType; ControlWrongLength; MemoryLimitReached; FrameOutOfBounds; InvalidMinimalCodeSize; NoColorTable].
(** [Decoder::read_next_frame] and the iterator. *)
Definition frame_errors : list derr :=
  DIo OutOfMemory :: DFormat OddSizedBuffer :: DFormat ImageTruncated :: seek_errors.
(** [Decoder::fill_buffer], at any time. *)
Definition fill_errors : list derr :=
  DIo InvalidData ::
  map DFormat [UnknownBlockType; ControlWrongLength; MemoryLimitReached; FrameOutOfBounds; InvalidMinimalCodeSize;
               OddSizedBuffer; UnexpectedDataMsg].
(** [Decoder::read_into_buffer], at any time. *)
Definition into_errors : list derr := DFormat BufferTooSmall :: DFormat ImageTruncated :: fill_errors.
(** [fill_buffer] and [read_into_buffer] directly after a successful [next_frame_info] without [skip_frame_decoding]. *)
Definition fill_fresh_errors : list derr := [DIo InvalidData; DFormat OddSizedBuffer].
Definition into_fresh_errors : list derr := DFormat BufferTooSmall :: DFormat ImageTruncated :: fill_fresh_errors.
(** [StreamingDecoder::update]; the last one only if the caller passes a vector ([OutputBuffer::Vec]) although frames are to be decoded. *)
Definition update_errors : list derr :=
  DIo InvalidData ::
  map DFormat [MalformedHeader; UnknownBlockType; ControlWrongLength; MemoryLimitReached; FrameOutOfBounds; InvalidMinimalCodeSize].
(** [FrameDecoder::decode_lzw_encoded_frame_into_buffer] and [decode_lzw_encoded_frame]; there is no reader and no [skip_frame_decoding]. *)
Definition lzw_into_errors : list derr :=
  DIo InvalidData :: map DFormat [InvalidMinimalCodeSize; OddSizedBuffer; ImageTruncated; BufferTooSmall].
Definition lzw_frame_errors : list derr :=
  DIo InvalidData :: DIo OutOfMemory :: map DFormat [InvalidMinimalCodeSize; OddSizedBuffer; ImageTruncated].
