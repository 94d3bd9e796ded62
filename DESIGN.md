# Formal model of image-gif in Rocq (Coq 8.16.1)

Build: `cd rocq && coq_makefile -f _CoqProject -o Makefile && make -j4` (about 5 minutes).
`properties.jsonl` lists the properties, `MANIFEST.json` maps each to its theorems
(`tools/manifest.py` regenerates it), `seeded/LOG.jsonl` records the mutation tests.

## 1. Trusted base

* **Coq's kernel** (8.16.1, including `vm_compute`, which is used for concrete cases and
  counterexamples).
* **Axioms.** None of our own. After every property theorem stands a `Print Assumptions`; each prints
  *Closed under the global context*, i.e. the theorem uses no axiom at all. The standard library's `ZifyBool`
  (for `lia`) loads `Coq.ssr.ssrunder`, whose seven `Under_rel…` constants are declared through a module type,
  so tools that list everything loaded (`coqchk`, `vcheck`) show them; no theorem depends on them. No other library is used.
* **The transcription**: that the definitions of section 3 do what the cited lines of /repo do. Nothing was
  compiled or run; `Validate.v` computes the model on the repository's own sample files and checks what its tests
  assert (frame count, sizes, pixels, error kinds).
* **`weezl`** (LZW, source not in /repo) is not trusted silently: every theorem that needs it takes a codec `L` and a
  contract `lzw_spec L` (safety, a new decoder given nothing delivers nothing, prefix-wise progress, inversion; file `Lzw.v`) as explicit hypotheses.
  `LzwRefSpec.v` proves the contract (and `lzw_eager`) for an executable codec `lzw_ref`, so it is satisfiable and the
  concrete cases are real files. The theorems C79 also take a contract `lzw_errs` for data with invalid codes (the pixels
  before the code are delivered first, the error is not lost; file `LzwErrs.v`), proved for `lzw_ref` as well; C80 takes
  `lzw_errs` and, beside `lzw_eager`, its counterpart `lzw_alert` for invalid codes, proved for `lzw_ref` too.
  C85 takes `lzw_ends` (file `LzwEnds.v`, proved for `lzw_ref`): the state of the decoder is that after the bytes consumed,
  `has_ended` only after an end code, a call that neither takes nor gives anything reports `NoProgress` or an error
  unless at the end; C86 takes `lzw_marks`: `encode_all` emits an end code. **`color_quant`** (NeuQuant) is an uninterpreted record of functions.

## 2. Modelling decisions

* A byte is an `N`; hypotheses state `< 256`/`< 65536` where Rust's types guarantee it (`byte_ok`, `u16_ok`, `op_rng`).
  Lengths are `nat`. `usize::MAX` is the parameter `umax` where the code computes with products (row offsets, buffer
  sizes); theorems assume `2^32 - 1 <= umax` or say which width they need.
* `&mut self` becomes state returned next to the result, **also on the error path**, because callers may go on.
* A Rust panic (indexing, `unwrap`, arithmetic overflow, `assert!`, `debug_assert!`) is the explicit result `Panic`;
  `dbg` says whether debug assertions are compiled in.
* `while`/`loop` is recursion on fuel computed from the input; running out is the explicit result `Hang`. The
  termination theorems exclude `Hang`, so fuel is not a hidden bound.
* The reader is a list of events (`RChunk bytes`, `RErr kind`): every split of the input into reads, every placement of
  I/O errors (also `Interrupted`), and `Ok(0)` at the end for ever.
* The writer is a sink plus a list of outcomes of `write` (accept at most n bytes / `Interrupted` / fail), driven by
  std's `write_all` loop.
* Vector **capacities** are modelled where the code tests them (the two palettes).

## 3. What is modelled

Every definition carries the cited lines. Complete list by source file:

| source | modelled in | modelled | not modelled |
|---|---|---|---|
| `src/common.rs` | `Common.v` | `DisposalMethod`, `Block`, `Extension`, `AnyExtension`, `Frame`, `default`, `from_palette_pixels`, `from_indexed_pixels`, `from_rgba(_speed)`, `from_rgb(_speed)`, `take` | `Cow` (borrowed and owned buffers are the same list); hashing order (shown irrelevant: the code sorts) |
| `src/traits.rs` | `Encoder.v`, `WriteLe.v` | all (`u32`, `u64` are unused by the crate) | – |
| `src/encoder.rs` | `Encoder.v`, `EncoderExt.v` | `Encoder::new`, `set_repeat`, `write_extension`, `write_raw_extension`, `write_frame`, `write_lzw_pre_encoded_frame`, `write_frame_header`, `write_image_block`, `write_encoded_image_block`, `write_color_table`, `check_color_table`, `flag_size`, `write_screen_desc`, `into_inner`, `Drop` (with and without the default feature `raii_no_panic`), `get_ref`, `get_mut`, `lzw_encode`, `make_lzw_pre_encoded`, `ExtensionData::new_control_ext`, `Buf<N>`; the error types with `Display`, `source`, `From` (`ErrorText.v`) | `Debug` |
| `src/reader/decoder.rs` | `Stream.v`, `Reader.v` | `StreamingDecoder::{new,with_options,update,next_state,last_ext,current_frame,current_frame_mut,width,height,version}`, `read_control_extension`, `add_frame`, `LzwReader`, `OutputBuffer::append`, `FrameDecoder::{new,set_global_palette,decode_lzw_encoded_frame,decode_lzw_encoded_frame_into_buffer,buffer_size}`; the error types (`ErrorText.v`) | text of I/O errors |
| `src/reader/converter.rs` | `Converter.v` | all of `PixelConverter` and `InterlaceIterator` | reuse of a large enough old vector (same contents) |
| `src/reader/mod.rs` | `Stream.v`, `Converter.v`, `Reader.v` | `MemoryLimit`, `DecodeOptions` (as a record), `read_info`, `ReadDecoder::{decode_next,decode_next_bytes}`, `Decoder::{next_frame_info,read_next_frame,read_into_buffer,fill_buffer,buffer_size,line_length,palette,global_palette,width,height,bg_color,repeat,into_inner,into_iter}`, `DecoderIter::next`, the setters of `DecodeOptions` (`SpecBuild.v`) | – |
| `examples/explode.rs`, `examples/parallel.rs`, `examples/check.rs`, `fuzz/fuzz_targets/decode.rs` | `Programs.v` | the whole programs | arguments, file names, messages, timing; threads (their effect is an arbitrary order of messages); `BufWriter` (passes everything on) |
| `build.rs`, `benches`, `tests`, `gif-c`, `gif-afl` (the last two are written against an older API and do not compile with this source) | – | – | all |

Failure of memory allocation is modelled for all `try_reserve` calls (`OomModel.v`, C69; `EncOom.v`, C70); in all other
statements they succeed. (`vec!`, `resize` and the growth of vectors abort the program on failure, in Rust as here outside
the model.) Also outside the model: memory safety, running time (except the call counts of C49), threads.

Simplifications that are visible in statements: `BufRead::fill_buf` of std's `BufReader` is the reader list itself, so
"a read" in the model is one non-empty buffer content; that subsumes every buffer size.

## 4. Files (rocq/theories), in build order

| files | contents |
|---|---|
| `Base` | bytes, little endian, results, list helpers |
| `Common Lzw Encoder Stream Converter Reader Programs` | **the model** |
| `LzwRef LzwRefSpec` | reference codec, proved to meet the contract |
| `Validate RepoTests` | the model run on the repository's sample files and tests |
| `SpecPixels SpecGif SpecEnc SpecRound SpecStream SpecWatch SpecDamage SpecOptions` | **specifications**, written after the GIF89a standard; they use the data types of the model but none of its functions |
| `StreamInv Steps StepsRev ReaderInv Ranges ConvInv` | invariants of decoder states; `next_state` as a relation of 30-odd transitions, both directions |
| `DecoderSafe DecInv DecProps StreamProps FrameDec StreamCount` | theorems about **all inputs** (valid or not): return, limits, event grammar |
| `Canon CanonReader` | independence of read boundaries: every schedule follows the byte-at-a-time reading |
| `DocTrace DocBlocks Interlace Pixels PixelRead DocRead DocAll Mixed StreamTrace` | decoder correctness on well-formed files (`gif_ok`), every schedule, every mix of reading calls |
| `EncLin EncSpec EncSession EncFaults EncProps EncReject` | encoder output = serialisation of a document, with every writer fault |
| `RoundTrip RoundProps RawExt Rewrite FrameInv FrameProps ExtSrc Collect` | round trips and corollaries |
| `Refuted` | expected properties that are false, with counterexamples |
| `Truecolor` | pictures through `from_rgba_speed`, encoder and decoder |
| `ShortData` | images whose data hold too few pixels |
| `ZeroSize` | images of no pixels; when the iterator's `None` is final |
| `Unknown` | files with tolerated unknown blocks compared with the same files without them |
| `Damage` | correct beginnings followed by damage of every kind, or by anything |
| `Relax` | the same calls with stricter and with more permissive options, in lock step |
| `Copies` | the example programs: queue, copies of pictures |
| `SpecCount FrameCount` | frames against bytes; ends of loops |
| `SpecSizes Sizes` | announced sizes against what reading accepts |
| `SpecOutput StreamOut` | destinations of the streaming decoder |
| `SpecVerdict Verdict` | what callers are told about each image |
| `SpecBuild OptBuild` | options builder |
| `SpecRecolor Recolor` | RGBA against indexed output |
| `SpecAccept Accept AcceptDec` | everything accepted is a GIF; generic in what is known of the data of an image that has been passed (`whole`) |
| `Quantise ProgResult` | palettes of true-colour frames; what the results of the programs say |
| `AcceptFwd AcceptStream AcceptUnique` | everything of the lenient grammar is accepted, with the meaning it has there; the grammar is unambiguous |
| `SpecMut FrameMut` | callers that change the frame under construction |
| `EncoderExt` | **model** of `get_ref`, `get_mut`, `Drop` without `raii_no_panic` |
| `SpecUser EncUser` | sessions with a caller who uses the writer; encoders whose `Drop` panics |
| `SpecExt ExtView` | what `last_ext`, `version`, `width`, `height` show after each call of `update` |
| `OomModel SpecOom OomSim OomSafe OomNeed` | the readers with reservations of memory that may fail |
| `SpecEncOom EncOom` | the encoder with reservations of memory that may fail |
| `SpecMem MemHeld` | how much a decoder keeps (C71) |
| `SpecErrors Errors` | which errors a call may return (C72) |
| `ErrorText` | texts and sources of the error types (C73) |
| `WriteLe` | `write_le` for all types (C74) |
| `SpecSize EncSize` | C75: sizes of what the encoder's calls write |
| `Several` | C76: consecutive files in one stream |
| `Resume` | C77: calls repeated after errors and temporary ends of the reader |
| `Narrow` | C78: the constructors with the machine's `usize` |
| `LzwErrs Corrupt SpecCorrupt CorruptDoc` | C79: image data with invalid codes |
| `SpecUnpack Unpack UnpackBad UnpackDoc` | C80: the verdict of `FrameDecoder` on every frame |
| `SpecSound Sound SoundAcc` | C81: reading any file; what is read without an error is what the file says |
| `Transcode` | C82: reading any file and writing it again |
| `Checked` | C81 and C82 for readers with the check for end codes, from C54 (`Relax`) |
| `SpecPaint Paint` | C83: slices of the caller |
| `LzwEnds Ending` | the contract for end codes; files read with the check have them (C85) |
| `EncEnds` | the files of the encoder have end codes (C86) |
| `SpecIter Iterate IterSound` | C87: the iterator and the loop over `read_next_frame` |
| `SpecBlame Blame BlameDec BlameFrame` | C88: every error has its reason in the file |
| `PropEnc PropDec PropFrame PropStream PropMore PropDamage PropOptions PropSizes PropPrograms PropCount PropOutput PropVerdict PropBuild PropRecolor PropAccept PropColors PropExact PropMut PropUser PropExt PropOom PropEncOom PropMem PropErrors PropValues PropWitness PropLength PropSeveral PropResume PropNarrow PropCorrupt PropUnpack PropSound PropTranscode PropPaint PropCodes PropEnds PropChecked PropIter PropBlame` | **the property theorems**, each closed by `exact`, each with a concrete case and `Print Assumptions` |

## 5. Per property

| id | modelled by | proof |
|---|---|---|
| C01–C03 | `run_ops` sessions, `into_inner`, `Decoder` | `EncSession`: the bytes are `ser_gif (enc_gif …)`; `DocAll`: decoder on any `gif_ok` file; `RoundTrip` joins them |
| C04 | `check_color_table` | against `size_field`/`padded` (a search, not `log2`) |
| C05 | `new_control_ext`, `read_control_extension` | finite bit lemmas + composition |
| C06 | `write_encoded_image_block`, `write_raw_extension` | induction against an independent parser of sub-blocks |
| C07 | writer with fault plan | `wlin`: each call writes a prefix of a fixed byte string, all of it iff `Ok`; exception: `Encoder::new` (refuted) |
| C08 | `into_inner`, `Drop` | session bytes end with exactly one trailer |
| C09, C10, C47 | `write_frame_header` | exact refusal table `op_result`; what refused calls leave (`EncReject`) and that the file still reads as the accepted frames |
| C11 | `Encoder::new` + `Drop` | exact bytes; refuted expectation |
| C12, C13 | `lzw_encode` | `code_bits` (search) ; equality of bytes for direct and pre-encoded frames |
| C14, C15 | all decoder calls | invariant `pre`/`dec_wf`, measure `meas`; results are never `Panic`/`Hang`; 32-bit exceptions refuted |
| C16 | `update` | returns before the trailer; hangs after it (refuted) |
| C17, C18 | `next_frame_info`, raw frames | `Canon`: absorption lemma for a step on a shorter chunk; holds for **all** bytes |
| C19, C26, C31, C42, C43 | every reading mode | positions `docst` in a well-formed file; pixels via `lz_step`/`lz_drain` |
| C20, C46 | `ExtSrc` | a source and its extension run in lock-step until the shorter one ends |
| C21 | buffers | invariant over all reachable decoders |
| C22 | `ImageBlockStart` | case analysis of the `Option` comparison against `left + w <= W` |
| C23, C24, C40 | `InterlaceIterator` | against the four filters of GIF89a appendix E; permutation |
| C25 | `fill_buffer` | pointwise colour specification |
| C27 | error events in the reader list | simulation; refuted for whole frames |
| C28, C29 | `DecoderIter` | fusedness refuted; exact condition for a `None` that is not the end, over all reachable decoders |
| C30 | `check_for_end_code` | a beginning of the frames, then the end or InvalidData (from C54); more is refuted in two ways |
| C32, C33 | `FrameDecoder`, raw frames | contract of the codec, sessions |
| C34, C39 | palettes, background | invariants over all inputs |
| C35, C48 | `update` driven by a caller | trace of the whole file (`file_sights`) for every cut into pieces |
| C36 | unknown blocks | the grammar of `SpecGif` has them (`BUnk`, `unknown_ok`), so every theorem on well-formed files covers them; `Unknown` compares with the file without them; counterexample after a control extension |
| C45 | corner case | counterexample plus what holds |
| C44 | `conv_read_frame` on images of no pixels | counterexample, and the exact outcome over all reachable decoders |
| C37, C38 | constructors | induction over pixels, sorting, lookup |
| C41 | `update` on all inputs | event grammar as an automaton |
| C49 | `update` on all inputs | measure: at most a linear number of calls |
| C50 | `from_rgba_speed`, sessions, `Decoder` with RGBA output | `FrameProps` (constructor) joined with the round trip; padding a palette does not change its colours |
| C51 | `read_next_frame`, `read_into_buffer`, `fill_buffer`, `DecoderIter` on short data | induction over the rows and calls, then over the images of the file |
| C52 | every reading mode on `ser_cut g tz` (correct beginning, arbitrary rest) | induction over the images; the position lemmas do not look at the rest |
| C53 | error transitions of `next_state`, `conv` palette check | each kind of damage leads to its error (`fault`); a canonical reading restricted to a prefix gets stuck |
| C54 | every function that looks at an option | lock-step simulation of the strict run by the permissive one, up to the first refusal |
| C55 | accessors, `read_into_buffer`, `FrameDecoder` | invariant of all reachable decoders (`DecInv`), induction over rows; an excess of buffer is carried through each step |
| C56 | `explode`, `parallel`, `check`, the fuzz target | queue: the messages still to be written are a permutation of the numbered rest; copies: joined from the theorems on reading, `FrameDecoder` and sessions |
| C57 | `next_state`, `Decoder`, `explode`, `parallel` | potential: bytes read minus 13 per announced frame never fall below a number given by the state; checked on each transition of `nst`, lifted through `dnext`, the loops and the pixel callback |
| C58 | `update`, `next_state`, `obuf_append`, `lr_decode_bytes` | each step of `nst` writes what it reports; an invariant says what is still to come of the current image and a `full2` derivation what follows it (StreamOut.v) |
| C59 | reading calls of `Decoder`, `read_rows`, `check_buffer_size`, `obuf_append` | one lemma per way of reading, for any amount of data and any buffer; induction over the images; raw mode: the canonical reading gets to the piece that does not fit |
| C60 | the setters of `DecodeOptions` and the constructors that use the defaults | induction over the calls; the consequence for frames through C59 |
| C61 | Decoder, iterator and FrameDecoder in both colour outputs | simulation: the streaming decoder does not look at the colour output, the codec does not look at old slice contents; cell-wise comparison of the conversion |
| C62 | streaming decoder and Decoder on arbitrary bytes | invariant over single steps: what was consumed so far is a prefix of a serialisation, per state of the machine |
| C63 | `from_rgba_speed`, `from_rgb_speed` | insertion sort gives a strictly ascending list of the same members; fold for the last transparent pixel |
| C64 | streaming decoder and Decoder on the files of the lenient grammar | invariant over single steps: the unread input is the rest of a serialisation, per state of the machine, with the images and the loop count still to come | 
| C65 | `current_frame_mut` as an arbitrary change of the frame, `next_state`, `update` | two decoders that differ in the frame only step alike (case analysis on all states), induction over calls | 
| C66 | `get_ref`, `get_mut` (`EncoderExt.v`) with all calls | induction over the session from the linearity of single calls (C07); reading by the theorem on whole documents (`DocAll`) | 
| C67 | `encoder_drop_strict`, `encoder_new_strict`, `into_inner_strict` (`EncoderExt.v`) | linearity of writes, case analysis on the writer's plan | 
| C68 | `last_ext`, `version`, `width`, `height`, `update` | invariant over steps without event, case analysis of the step with the event | 
| C69 | the five `try_reserve` sites of the readers | simulation up to the first failing reservation; invariant weaker than C02's (an empty local palette may be left behind) for all calls after it; a caller without memory sees no data stored (`C69_starved`), which pins down where reservations are made | 
| C70 | the three `try_reserve` sites of encoder and frames | linearity lemma for the failing call; beginning of the file by C52's lemma | 
| C71 | sizes of all buffers of the readers | invariant of single steps, induction over calls; witness for the reservation | 
| C72 | errors of all reading calls | phases of the stream, induction over loops; a witness for every listed error | 
| C73 | error types with texts as strings | case analysis | 
| C74 | `write_le` for all four types | arithmetic of digits, linearity of writing | 
| C75 | `SpecSize` gives the sizes; `EncSize` derives them from the bytes of `SpecEnc` (`op_lin`) | `EncSize.op_room`: by cases on the call; cutting into sub-blocks by induction |
| C76 | `Several.read_files`: the loop a caller would write over `read_info`, `read_next_frame`, `into_inner` | induction over the files; `file_frames` for each, `hist` for what is left of the source |
| C77 | `Resume.calm`: the same source without its errors and empty reads; `persist_all`: the loop a caller would write | simulation of `decode_next` with and without the pauses (`next_settled`), then induction over the rounds of `fill_loop` and over the calls |
| C78 | `Narrow.from_rgba_speed_u`, `from_rgb_speed_u`: the constructors with the products, the sum and the capacity limit of `usize` | modular arithmetic: the product wraps at most twice, and the two assertions of `from_rgb` cannot both hold after a wrap |
| C79 | `Corrupt.bad`, `badr`, `CorruptDoc.inbad`: a decoder in data with an invalid code; contract `LzwErrs.lzw_errs`, proved for `lzw_ref` | the converter is run in lockstep on a source whose pixels are padded without end, for which the theorems of `Pixels` hold; the two agree until the error |
| C80 | `SpecUnpack.unpack_verdict`, `unpack_told`: the answer from frame, settings and pixels; `Unpack.fdb`: the callback over data with an invalid code; contracts `lzw_eager`, `lzw_alert` | induction over the frames; the callback is run through the converter theorems of `Pixels`, `ShortData` and `Corrupt`; `UnpackBad`: a buffer of any size and an invalid code, row by row; the last part combines `file_raw` and `file_verdicts` |
| C81 | `SpecSound.reading`: frames and result from the images and what their data stand for; `shows`, `refused` | `Sound`: one step of `read_next_frame` on any image (complete, too large, empty, short, corrupt) returns to the state between images or to a state from which nothing follows; induction over the images. `SoundAcc` does this for all files of the loose grammar of `SpecAccept`, on the forward invariant of `AcceptFwd` (what is still to come); with C62 (`read_accepts`) and C64 (uniqueness) for arbitrary bytes |
| C82 | the statement uses the API only (`copy_ops`, `rewrite_ops`: the calls a user makes); the provisos on the frames read | `Transcode`: C81 (what is read from any bytes is what the file says) gives the images; the frames are `frame_readable` (C22) and so the session writes a well-formed file (`enc_gif`); reading it is C19 again, and the pictures agree image by image (`picture_whole`); for compressed data the images are those of the original (`raw_images`), so C81_any describes the decoding of both from the same `obs` (`copied_agree`) |
| C83 | `SpecPaint.over`: what a call does to a slice, as one entry per byte (a value or nothing), `into_all`: the caller's loop | `Paint`: the callback stores the same bytes in slices of the same length (`update_loop_same`, C61), then the loops of the converter (overlays of rows are merged; the rows of an interlaced frame cover the frame, C23); `next_frame_info` does not depend on the frame last returned |
| C84 | the table of numbers in `C84_values` is from the specification | `PropCodes`: case analysis over the tests of `from_u8` |
| C85 | `LzwEnds.lzw_ends`: what an end code is, for any codec; `halts` for the reference codec | `Ending` on `AcceptDec`: the parser of `Accept` takes a predicate on the data of an image, here "has an end code", which holds whenever the decoder leaves the image without error; `endless_refused` from that, C54 (`Relax`) and uniqueness of parses |
| C86 | `LzwEnds.lzw_marks`: the library's encoder emits an end code, proved for `lzw_ref` | `EncEnds`: from the bytes of a session (C08), image by image |
| C87 | `SpecIter.items`: the items, from the frames and the result of the loop `read_all` | `Iterate`: decoders that differ in the current frame only behave alike, so taking the frame out changes nothing; `IterSound`: with C81 and C85 |
| C88 | `SpecBlame.blame`: per error, the bytes of a file with that fault, over the grammar of `SpecAccept` | `Blame`: the invariant of C62 (what the bytes read so far are) at the failing step, by cases on `nst`; `BlameDec`: carried through `decode_next`, the loops of `read_info` and `next_frame_info`; `BlameFrame`: through the copying of data (what was copied is what the file has there), with C72 for the pixels and C55 for empty frames; the calls with a buffer of the caller likewise |

## 6. Findings

Expected properties that the code does not have; each is a theorem `…_refuted` with a concrete witness, mostly in `Refuted.v`.

1. `StreamingDecoder::update` loops for ever when called with data after the trailer event (C16).
2. A frame refused because of its palette has already written its control extension (C10); a failed
   `Encoder::new` writes a lone trailer byte (C11, C07).
3. A session without any block gives a file the decoder rejects with `UnexpectedEof` (C45).
4. Frames of size zero can be written but not read (C44).
5. `DecoderIter` implements `FusedIterator` but is not fused (C28).
6. `check_for_end_code` rejects valid files (C30).
7. Raw frames of minimum code size 1 can be read but not written back (C33).
8. `bg_color()` can be `Some` without a palette (C34).
9. A raw extension without data, or with an unknown label, makes the file unreadable (C35).
10. `allow_unknown_blocks` treats an unknown block as a continuation of the previous extension (C36).
11. `from_rgba` maps different fully transparent colours to one index (C37).
12. On 32-bit targets without memory limit, large RGBA frames overflow `usize` (C14).
13. After an I/O error in the middle of a frame, `read_next_frame` never delivers that frame (C27).
14. A too short buffer for an interlaced frame is refused only when the row that does not fit is reached; the rows before
    it have been read and overwritten (C55).
15. A call of `StreamingDecoder::update` with an empty slice inside image data can drop compressed data without any error;
    the picture is then incomplete (C58).
16. With `skip_frame_decoding`, going on after `MemoryLimitReached` is unreliable: a length byte that has been used stays in
    the reader's buffer, so that the same file is read correctly or not depending on the pieces the reader delivers (C59).
17. Going on after corrupt LZW data (`InvalidData` from `read_next_frame`) is unreliable in the same way: a length byte that
    was used in the failing call is read again (C59, `C59_corrupt_recovery_refuted`). Frames that are skipped unread do no harm.
18. An empty first data block does not end the data of an extension, image or unknown block, contrary to GIF89a; what follows
    is read as further data (C62, `C62_liberties_case`).
19. A file that consists of header, screen descriptor and trailer is refused with `UnexpectedEof`, unless a byte follows the
    trailer (C62, `C62_empty_case`).
20. `Encoder::into_inner` and `Encoder::new` on a writer that keeps failing panic in `Drop` instead of returning the error, if the crate is built without `raii_no_panic` (`C67_error_refuted`).
21. Data of an unknown block after an extension is reported under the label of that extension, not 0 as documented, and added to its data in `last_ext` (`C68_label_refuted`).
22. After `OutOfMemory` a reader cannot be used reliably: an image descriptor that arrived in pieces is lost (`C69_retry_refuted`).
23. `write_frame` reports `OutOfMemory` only after half of the frame has been written; what follows in the file is unreadable (`C70_damage_refuted`). `make_lzw_pre_encoded` and `from_rgb_speed` panic without memory, which is not documented (`C70_panic_refuted`).
24. `read_next_frame` with `skip_frame_decoding` reserves width*height/4 bytes before it copies anything, whatever the memory limit (`C71_reserve_refuted`).
25. "file does not contain any image data" and "bad state" cannot be returned: a file without images is opened (its header ends at the trailer) and yields no frame (`C72_never`).
26. An empty slice given to `Encoder::new` does not mean "no global palette", as documented: the file declares a table of two black colours, and the decoder reports it (`C02_no_palette_refuted`).
27. `fill_buffer` called again after it returned false swallows the next frame's metadata, failing twice, and then returns that frame's pixels (`C31_surplus_fill_refuted`). The documentation forbids the call.
28. `allow_unknown_blocks` does not cover extensions with an unknown label; of the 256 labels 252 are refused (`C36_unknown_label_refuted`).
29. A caller of `StreamingDecoder::update` who ignores the number of consumed bytes trips a debug assertion (`C14_bytes_once_refuted`).
30. After a file without any block the recovered reader lacks the byte after the trailer, so a following file cannot be read (`C76_no_blocks_refuted`).
31. A `fill_buffer` that fails with a transient error of the reader has stored pixels without telling how many; repeated with the same slice it puts the following pixels at the start and returns `Ok(false)` (`C77_larger_slice_refuted`). One pixel at a time is safe (`C77_program`).
32. On a 32-bit target without overflow checks `Frame::from_rgba` compares the length with `width * height * 4` modulo 2^32: 4 bytes pass for an image of 17173 x 62525 (`C78_length_refuted`). `write_frame` notices, `write_lzw_pre_encoded_frame` does not. `from_rgb` is protected by the second assertion (`C78_rgb`).
33. An image whose data give exactly the pixels needed and then an invalid code is accepted or refused depending on the pieces in which the reader delivers the file (`C79_settled_refuted`, reference codec).
34. Frames can be read that, written again, make a file that cannot be read: a raw frame without data (`C82_no_data_refuted`, `UnexpectedEof`), and an interlaced frame without rows (`C82_no_rows_refuted`). The encoder accepts both.
35. With RGBA output `read_into_buffer` leaves the cells of indices outside the palette as they were, so a reused buffer shows pixels of an earlier frame there, where `read_next_frame` gives transparent black (`C83_rgba_refuted`).
36. A file that decodes without error can become undecodable by copying its compressed frames (`C82_late_refuted`): the copy joins sub-blocks, and an invalid code right behind the last pixel is then met before the frame is delivered.
