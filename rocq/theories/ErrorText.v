(** The error values themselves: src/reader/decoder.rs 20-97 and src/encoder.rs 14-80. *)
From Coq Require Import String.
From Verif Require Import Base.
Open Scope string_scope.

(** The literals passed to [DecodingError::format]: src/reader/decoder.rs 265, 278, 468, 547, 578, 592, 636, 648, 786,
    src/reader/mod.rs 57, 235, 297, 319, 389, 420, src/reader/converter.rs 102, 172-181. *)
Definition dfmt_text (m : dfmt) : string :=
  match m with
  | MalformedHeader => "malformed GIF header"
  | BadState => "bad state"
  | FrameOutOfBounds => "frame descriptor is out-of-bounds"
  | UnknownBlockType => "unknown block type encountered"
  | ControlWrongLength => "control extension has wrong length"
  | InvalidMinimalCodeSize => "invalid minimal code size"
  | MemoryLimitReached => "memory limit reached"
  | OddSizedBuffer => "odd-sized buffer"
  | BufferTooSmall => "buffer too small"
  | ImageTruncated => "image truncated"
  | UnexpectedDataMsg => "unexpected data"
  | NoImageData => "file does not contain any image data"
  | NoColorTable => "no color table available for current frame"
  end.

(** src/encoder.rs 26-35 [Display for EncodingFormatError]. *)
Definition efmt_text (m : efmt) : string :=
  match m with
  | TooManyColors => "the image has too many colors"
  | MissingColorPalette => "the GIF format requires a color palette but none was given"
  | InvalidMinCodeSize => "LZW data is invalid"
  end.

(** The types that implement [std::error::Error]. [VStr] is std's boxed [&'static str]; [VIo] is [std::io::Error]. *)
Inductive evalue :=
| VDec (e : derr) | VDecFormat (m : dfmt) | VStr (s : string)
| VEnc (e : eerr) | VEncFormat (m : efmt)
| VIo (k : iokind).

(** What [std::io::Error] shows and wraps depends on how it was made. *)
Record io_errors := mk_io { io_text : iokind -> string; io_source : iokind -> option evalue }.

(** src/reader/decoder.rs 26-31, 58-66; src/encoder.rs 26-35, 46-54 [Display::fmt]. *)
Definition display (io : io_errors) (v : evalue) : string :=
  match v with
  | VDec (DFormat m) | VDecFormat m => dfmt_text m
  | VDec (DIo k) | VEnc (EIo k) | VIo k => io_text io k
  | VStr s => s
  | VEnc (EFormat m) | VEncFormat m => efmt_text m
  end.

(** src/reader/decoder.rs 33-38, 68-76; src/encoder.rs 25 (the default), 56-64 [Error::source]. *)
Definition source (io : io_errors) (v : evalue) : option evalue :=
  match v with
  | VDec (DFormat m) => Some (VDecFormat m)
  | VDec (DIo k) | VEnc (EIo k) => Some (VIo k)
  | VDecFormat m => Some (VStr (dfmt_text m))
  | VStr _ => None
  | VEnc (EFormat m) => Some (VEncFormat m)
  | VEncFormat _ => None
  | VIo k => io_source io k
  end.

(** src/reader/decoder.rs 78-97; src/encoder.rs 66-78 [From]. *)
Definition from_io (k : iokind) : derr := DIo k.
Definition from_format (m : dfmt) : derr := DFormat m.
Definition enc_from_io (k : iokind) : eerr := EIo k.
Definition enc_from_format (m : efmt) : eerr := EFormat m.
