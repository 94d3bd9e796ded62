{"id": "C01", "title": "Encode/decode round trip of frames", "statement": "If an Encoder session (new, then any mix of set_repeat, write_frame, write_lzw_pre_encoded_frame of a make_lzw_pre_encoded frame, decodable raw extensions, then into_inner) returns Ok everywhere, decoding the produced bytes with read_next_frame yields exactly the written frames, in order, with the same delay, dispose, transparent, needs_user_input, left, top, width, height, the same local palette (padded with black to the next power of two) and the same indexed pixels (rows de-interlaced when the frame was flagged interlaced), and then Ok(None).", "quantifier": "every screen size, global palette, sequence of frames with at least one pixel each, every pixel content, and every way the reader splits the byte stream into reads", "why_tests_cant": "the tests round-trip a handful of sample files; the claim ranges over all frame sequences, sizes, palettes and read schedules", "anchors": ["src/encoder.rs: Encoder::new, write_frame, write_frame_header, write_image_block, into_inner", "src/reader/mod.rs: DecodeOptions::read_info, Decoder::read_next_frame", "src/reader/decoder.rs: StreamingDecoder::next_state"]}
{"id": "C02", "title": "Round trip of screen-level data", "statement": "For the same sessions, the decoder reports the width and height given to Encoder::new, and a global palette equal to the given one truncated to whole colours and padded with black to 2^(k+1) entries, where k is the smallest fit.", "quantifier": "every u16 width and height and every palette of at most 256 colours, any read schedule", "why_tests_cant": "palette_sizes samples one palette per size; width/height/palette contents are unbounded", "anchors": ["src/encoder.rs: write_global_palette, write_screen_desc, check_color_table, flag_size", "src/reader/mod.rs: Decoder::width, height, global_palette"]}
{"id": "C03", "title": "Loop count round trip", "statement": "After decoding the header, Decoder::repeat is the value of the last set_repeat call before the first frame that was not Finite(0), and Finite(0) when there was none; set_repeat calls after the first frame have no effect on it.", "quantifier": "every sequence of set_repeat calls (all u16 counts and Infinite) interleaved with frames and other extensions", "why_tests_cant": "65536 counts times all interleavings", "anchors": ["src/encoder.rs: set_repeat, write_extension", "src/reader/decoder.rs: ApplicationExtension state", "src/reader/mod.rs: Decoder::repeat, init"]}
{"id": "C04", "title": "Colour table size and padding rule", "statement": "check of a colour table accepts exactly the tables with at most 256 colours; the size flag k satisfies 2^(k+1) >= max(2,colours), is the least such value, is at most 7, and exactly 2^(k+1) - colours black entries are appended, so every colour keeps its index.", "quantifier": "every palette byte string", "why_tests_cant": "test_flag_size samples sizes but not table contents or the emitted bytes", "anchors": ["src/encoder.rs: check_color_table, write_color_table, flag_size"]}
{"id": "C05", "title": "Graphic control fields are packed losslessly", "statement": "Decoding the control extension emitted for (delay, dispose, needs_user_input, transparent) gives back exactly those four values.", "quantifier": "all u16 delays, 4 disposal methods, both flags, all 257 transparency values", "why_tests_cant": "33 million combinations, only a few sampled", "anchors": ["src/encoder.rs: ExtensionData::new_control_ext, write_extension", "src/reader/decoder.rs: read_control_extension"]}
{"id": "C06", "title": "Sub-block framing is lossless", "statement": "Image data and raw extension payloads are written as sub-blocks of 1 to 255 bytes followed by one zero byte; removing the framing gives back exactly the payload, and nothing of the following data is absorbed.", "quantifier": "every payload of every length (including multiples of 255) and every following byte string", "why_tests_cant": "boundary lengths and contents are unbounded", "anchors": ["src/encoder.rs: write_encoded_image_block, write_raw_extension"]}
{"id": "C07", "title": "Write faults never corrupt silently", "statement": "Whatever the writer does (short writes, Interrupted, errors at any byte), an Encoder session in which every call returned Ok has delivered exactly the fault-free byte stream; if a call on the encoder returned an I/O error the bytes delivered up to then are a proper prefix of the fault-free stream. The one exception, with a witness: an I/O error inside Encoder::new, whose half-built encoder still appends a trailer byte when it is dropped.", "quantifier": "every session and every schedule of write outcomes (every crash point)", "why_tests_cant": "crash points and short-write schedules cannot be enumerated by tests", "anchors": ["src/encoder.rs: all Write calls", "src/traits.rs: WriteBytesExt"]}
{"id": "C08", "title": "Exactly one trailer", "statement": "A finished encoder (into_inner, or drop) ends the stream with exactly one trailer byte 0x3B after the last block; into_inner followed by the implicit drop does not write a second one.", "quantifier": "every session history", "why_tests_cant": "depends on the interplay of into_inner and Drop for every history", "anchors": ["src/encoder.rs: into_inner, Drop for Encoder, write_trailer"]}
{"id": "C09", "title": "Which frames write_frame rejects", "statement": "With a fault-free writer, write_frame fails exactly when the buffer is shorter than width*height, or the local palette has more than 256 colours, or there is neither a local nor a non-empty global palette; otherwise it succeeds. A too-short buffer is rejected before any byte is written.", "quantifier": "every encoder state and every frame", "why_tests_cant": "unbounded frames", "anchors": ["src/encoder.rs: write_frame, write_frame_header"]}
{"id": "C10", "title": "What a rejected frame leaves behind", "statement": "The expected property 'a frame rejected by write_frame because of its palette leaves the output unchanged' is false (witness). What holds for every encoder and frame: a frame rejected for its size leaves the output unchanged, a frame rejected for its palette leaves exactly its graphic control extension.", "quantifier": "every encoder state and rejected frame", "why_tests_cant": "error paths for every frame", "anchors": ["src/encoder.rs: write_frame_header"]}
{"id": "C11", "title": "What a failed Encoder::new leaves behind", "statement": "The expected property 'when Encoder::new returns TooManyColors, nothing has been written' is false (witness). What holds for every such palette and harmless writer: exactly one byte, the trailer 0x3B, has been written.", "quantifier": "every palette with more than 256 colours", "why_tests_cant": "needs reasoning about Drop on the error path", "anchors": ["src/encoder.rs: Encoder::new, write_global_palette, Drop for Encoder"]}
{"id": "C12", "title": "Minimum code size choice", "statement": "The LZW minimum code size chosen for pixel data is between 2 and 8, every pixel value is below 2^size, and it is the smallest such size (not below 2).", "quantifier": "every pixel buffer", "why_tests_cant": "unbounded data, early-exit scan", "anchors": ["src/encoder.rs: lzw_encode"]}
{"id": "C13", "title": "Pre-encoding is equivalent to direct encoding", "statement": "make_lzw_pre_encoded followed by write_lzw_pre_encoded_frame writes byte for byte what write_frame writes for the original frame; the bytes of a frame do not depend on frames written before it.", "quantifier": "every frame accepted by write_frame and every encoder history", "why_tests_cant": "all frames, all histories (scratch buffer reuse)", "anchors": ["src/encoder.rs: make_lzw_pre_encoded, write_lzw_pre_encoded_frame, write_image_block"]}
{"id": "C14", "title": "Decoder never panics", "statement": "No sequence of Decoder calls (read_info, next_frame_info, read_next_frame, read_into_buffer, fill_buffer, iterator next) or FrameDecoder calls, including calls after errors, panics (including debug assertions and overflow checks), on any bytes, provided that on 32-bit platforms a memory limit of at most isize::MAX is set; without one there is a panic (witness), and Decoder::buffer_size panics there even with the default limit (witness).", "quantifier": "all byte strings, all read schedules including I/O errors, all option settings, all call sequences and buffer sizes", "why_tests_cant": "fuzzing samples; the claim is universal", "anchors": ["src/reader/mod.rs: Decoder, ReadDecoder", "src/reader/decoder.rs: next_state", "src/reader/converter.rs: fill_buffer, read_into_buffer"]}
{"id": "C15", "title": "Decoder always terminates", "statement": "Every Decoder call returns after finitely many steps for every finite input, on any bytes and read schedule.", "quantifier": "all byte strings, schedules, options, call sequences", "why_tests_cant": "tests use a one-second timer on a few files", "anchors": ["src/reader/mod.rs: decode_next, next_frame_info, init, copy_lzw_into_buffer", "src/reader/decoder.rs: update", "src/reader/converter.rs: fill_buffer"]}
{"id": "C16", "title": "StreamingDecoder::update terminates until the trailer event", "statement": "StreamingDecoder::update returns for every decoder state reached before the trailer event and every input slice. After the trailer event every call with a non-empty slice loops for ever (proved for every such state, with a witness).", "quantifier": "every state and input slice", "why_tests_cant": "non-termination is not observable by a finite test", "anchors": ["src/reader/decoder.rs: StreamingDecoder::update, Trailer state"]}
{"id": "C17", "title": "Metadata scan does not depend on read boundaries", "statement": "read_info followed by any number of next_frame_info calls gives the same results (frames, metadata, errors) for any two read schedules of the same bytes.", "quantifier": "every byte string, valid or not, every pair of ways to split it into non-empty reads, every option setting", "why_tests_cant": "one/two/three bytes at a time on one file are tested; the number of schedules is exponential", "anchors": ["src/reader/mod.rs: decode_next, next_frame_info", "src/reader/decoder.rs: ensure_min_length_buffer, next_state"]}
{"id": "C18", "title": "Compressed-frame reading does not depend on read boundaries", "statement": "With skip_frame_decoding, read_info followed by any number of read_next_frame calls gives the same results for any two read schedules of the same bytes.", "quantifier": "every byte string, every pair of schedules", "why_tests_cant": "exponentially many schedules", "anchors": ["src/reader/mod.rs: copy_lzw_into_buffer", "src/reader/decoder.rs: CopySubBlock, OutputBuffer::append"]}
{"id": "C19", "title": "Pixel reading of well-formed files does not depend on read boundaries", "statement": "For every well-formed GIF file the frames returned by read_next_frame (indexed or RGBA) are the ones the file denotes, under every read schedule.", "quantifier": "every well-formed file (arbitrary extensions, sub-block splits, palettes, interlacing) and every schedule", "why_tests_cant": "exponentially many schedules, unbounded files", "anchors": ["src/reader/mod.rs: read_next_frame", "src/reader/converter.rs: read_frame, fill_buffer", "src/reader/decoder.rs: DecodeSubBlock"]}
{"id": "C20", "title": "A clean end means the trailer was read", "statement": "next_frame_info / read_next_frame return Ok(None) only after a trailer byte 0x3B was read, and at most one byte after it has been consumed. A well-formed file cut anywhere before its end is reported by read_info as UnexpectedEof, or its frames are a prefix of the file's frames and the reading loop ends with UnexpectedEof.", "quantifier": "every byte string, every truncation point, every schedule", "why_tests_cant": "test_truncated_file checks no-panic only, on one file", "anchors": ["src/reader/mod.rs: decode_next, at_eof"]}
{"id": "C21", "title": "Memory limit is respected", "statement": "With MemoryLimit::Bytes(n), n >= 1, no frame buffer returned by read_next_frame, decode_lzw_encoded_frame or the iterator is longer than n bytes, and the extension data buffer never exceeds max(n,1) bytes.", "quantifier": "every input, limit and schedule", "why_tests_cant": "needs all inputs", "anchors": ["src/reader/mod.rs: MemoryLimit::buffer_size, check_size", "src/reader/decoder.rs: OutputBuffer::append, ExtensionDataBlock", "src/reader/converter.rs: check_buffer_size"]}
{"id": "C22", "title": "Frame consistency check is exact", "statement": "With check_frame_consistency(true) a frame is reported only if left+width <= screen width and top+height <= screen height, and an image descriptor is refused for consistency only if that fails.", "quantifier": "all u16 values", "why_tests_cant": "2^96 combinations", "anchors": ["src/reader/decoder.rs: ImageBlockStart state"]}
{"id": "C23", "title": "Interlace order", "statement": "The row order used for interlaced frames visits every row 0..height-1 exactly once: first the multiples of 8 ascending, then rows 4 mod 8, then 2 mod 4, then the odd rows.", "quantifier": "every height", "why_tests_cant": "tests list heights up to 17", "anchors": ["src/reader/converter.rs: InterlaceIterator"]}
{"id": "C24", "title": "De-interlaced pixels land in the right row", "statement": "For an interlaced frame the i-th row of the decoded stream is stored at the row given by the GIF interlace order, no other bytes are touched, and the result is reported as non-interlaced.", "quantifier": "every width, height, pixel content, colour output", "why_tests_cant": "unbounded", "anchors": ["src/reader/converter.rs: read_into_buffer, read_frame"]}
{"id": "C25", "title": "RGBA conversion is pointwise exact", "statement": "In RGBA mode pixel i of the frame is the palette colour of index i (local palette if present, otherwise global), alpha 0 exactly when the index is the transparent index; an index outside the palette gives transparent black in read_next_frame.", "quantifier": "every index buffer, palette, transparent index", "why_tests_cant": "unbounded", "anchors": ["src/reader/converter.rs: fill_buffer"]}
{"id": "C26", "title": "Control extension scope", "statement": "Delay, disposal, transparency and user-input flags of a control extension apply to the next image only; an image without preceding control extension has delay 0, disposal Keep, no transparency.", "quantifier": "every sequence of blocks", "why_tests_cant": "all histories", "anchors": ["src/reader/decoder.rs: read_control_extension, add_frame, FrameDecoded"]}
{"id": "C27", "title": "I/O errors are transparent to metadata scanning", "statement": "If the reader returns transient errors at arbitrary points, repeating next_frame_info after each such error gives the same sequence of results as if the errors had not happened. The same is false for read_next_frame (witness): the interrupted frame is lost and the next call goes on with the following frame.", "quantifier": "every byte string, every schedule of reads and errors", "why_tests_cant": "crash/error points cannot be enumerated", "anchors": ["src/reader/mod.rs: decode_next, next_frame_info"]}
{"id": "C28", "title": "When the iterator's None is the end", "statement": "The expected property 'once DecoderIter::next has returned None it keeps returning None' (DecoderIter is declared FusedIterator) is false (witness: an interlaced frame without rows). What holds on every input and after every history of calls: a None is either final (the decoder reported no further frame, and every later call gives None) or stands for an interlaced frame with no rows read in pixel mode, and every such frame gives such a None. For well-formed files with non-empty frames the iterator yields exactly the frames and then None for ever.", "quantifier": "every input", "why_tests_cant": "FusedIterator is an unchecked promise", "anchors": ["src/reader/mod.rs: DecoderIter, take_current_frame, FusedIterator"]}
{"id": "C29", "title": "Iterator stops after an error", "statement": "After DecoderIter::next returned an error every later call returns None, and nothing more is read.", "quantifier": "every input and history", "why_tests_cant": "all histories", "anchors": ["src/reader/mod.rs: DecoderIter::next"]}
{"id": "C30", "title": "End-code checking only refuses", "statement": "With check_lzw_end_code(true) a well-formed file gives all its frames, or a beginning of them followed by the error InvalidData; nothing else can happen, for full reading and for metadata scanning. The stronger property 'files whose image data all carry an end code decode without error' is false, in two ways: when a frame is skipped, and when the data arrive one byte at a time (witnesses).", "quantifier": "every valid file and schedule", "why_tests_cant": "depends on the read schedule", "anchors": ["src/reader/decoder.rs: LzwReader::decode_bytes, DecodeSubBlock"]}
{"id": "C31", "title": "Piecewise reading equals whole-frame reading", "statement": "next_frame_info followed by fill_buffer calls on consecutive slices that make up the frame gives the same bytes as read_next_frame for non-interlaced frames, for every way of slicing; read_into_buffer gives the same bytes for every frame.", "quantifier": "every well-formed frame, slicing and schedule", "why_tests_cant": "exponentially many slicings", "anchors": ["src/reader/mod.rs: fill_buffer, read_into_buffer, read_next_frame"]}
{"id": "C32", "title": "FrameDecoder inverts make_lzw_pre_encoded", "statement": "decode_lzw_encoded_frame after make_lzw_pre_encoded restores the pixels, and applied to a frame read with skip_frame_decoding gives the frame read without it.", "quantifier": "every frame with at least one pixel", "why_tests_cant": "unbounded; also depends on the LZW library delivering eagerly", "anchors": ["src/reader/decoder.rs: FrameDecoder::decode_lzw_encoded_frame"]}
{"id": "C33", "title": "Rewriting without re-encoding", "statement": "Reading a well-formed file with skip_frame_decoding and writing its frames with write_lzw_pre_encoded_frame, with the same screen size, palette and loop count, succeeds and gives a file that decodes to the same frames, screen size, loop count and (if there was one) global palette, provided every minimum code size is at least 2. For size 1, which the decoder accepts, the encoder refuses the frame (witness).", "quantifier": "every well-formed file", "why_tests_cant": "two sample files are tested", "anchors": ["src/encoder.rs: write_lzw_pre_encoded_frame", "src/reader/mod.rs: copy_lzw_into_buffer"]}
{"id": "C34", "title": "Background colour is a valid palette index", "statement": "If a Decoder reports both a background colour and a global palette, the colour is the index of an entry of the palette. Without a global palette the colour is reported unchecked (witness).", "quantifier": "every file", "why_tests_cant": "all inputs", "anchors": ["src/reader/mod.rs: Decoder::init, bg_color"]}
{"id": "C35", "title": "Raw extensions survive", "statement": "A raw extension written with a known label and a non-empty payload does not disturb the frames read back, and is reported by the streaming decoder with its label and payload. With an empty payload, or with an unknown label (even with allow_unknown_blocks), the file written cannot be read (witnesses).", "quantifier": "every payload and label", "why_tests_cant": "unbounded", "anchors": ["src/encoder.rs: write_raw_extension", "src/reader/decoder.rs: ExtensionBlockStart, ExtensionDataBlock"]}
{"id": "C36", "title": "Tolerated unknown blocks do not change the pictures, except after a control extension", "statement": "With allow_unknown_blocks(true), a file with unknown blocks in which no unknown block has a control extension as the last extension before it is read with exactly the frames, screen size, palette and background of the same file without those blocks. Without that condition the expected property is false: after a control extension the block is taken for its continuation and the file is refused.", "quantifier": "every file with unknown blocks", "why_tests_cant": "all histories", "anchors": ["src/reader/decoder.rs: BlockStart state, allow_unknown_blocks"]}
{"id": "C37", "title": "True-colour frames with few colours are exact", "statement": "Frame::from_rgba(_speed)/from_rgb panic exactly on a length mismatch or a speed outside 1..=30; on an image with at most 256 distinct colours they give a palette and indices that reproduce every pixel's colour exactly, and alpha is reproduced (0, else 255) when all fully transparent pixels share one colour. With two fully transparent colours only one of them stays transparent (witness).", "quantifier": "every image with at most 256 distinct colours", "why_tests_cant": "unbounded images", "anchors": ["src/common.rs: Frame::from_rgba_speed, from_rgb_speed"]}
{"id": "C38", "title": "Indexed frame constructors", "statement": "from_palette_pixels and from_indexed_pixels panic exactly on length mismatch (or more than 768 palette bytes) and otherwise store the arguments unchanged with default metadata.", "quantifier": "all arguments", "why_tests_cant": "unbounded", "anchors": ["src/common.rs: from_palette_pixels, from_indexed_pixels"]}
{"id": "C39", "title": "Palettes have a legal size, screen data are fixed", "statement": "Every palette reported by the Decoder (global or local) has exactly 3*2^(n+1) bytes for some n in 0..=7, and screen size, global palette, background colour and loop count never change after read_info. (For well-formed files C19 says which palette.)", "quantifier": "every input and schedule", "why_tests_cant": "capacity-guarded copies could silently drop bytes", "anchors": ["src/reader/decoder.rs: GlobalPalette, LocalPalette states"]}
{"id": "C40", "title": "Row addressing does not overflow on 32-bit", "statement": "read_info followed by any sequence of next_frame_info, read_into_buffer and fill_buffer calls never panics or overflows, for any frame size and any buffer that can exist, on 32-bit and 64-bit platforms, with or without a memory limit, and the buffers keep their length.", "quantifier": "all frame sizes, buffer sizes up to isize::MAX, both colour outputs", "why_tests_cant": "needs multi-gigabyte frames on 32-bit", "anchors": ["src/reader/converter.rs: read_into_buffer"]}
{"id": "C41", "title": "Event order", "statement": "HeaderEnd is emitted exactly once, before the first image or trailer event; BlockStart(Trailer) is the last event.", "quantifier": "every input", "why_tests_cant": "all inputs", "anchors": ["src/reader/decoder.rs: BlockStart state, header_end_reached"]}
{"id": "C42", "title": "Nothing after the trailer is consumed", "statement": "After read_next_frame returned Ok(None) the reader recovered with into_inner is positioned exactly after the trailer byte, for every well-formed file with at least one block, whatever follows it.", "quantifier": "every well-formed file followed by arbitrary bytes, every schedule", "why_tests_cant": "unbounded", "anchors": ["src/reader/mod.rs: Decoder::into_inner, at_eof", "src/reader/decoder.rs: BlockEnd, BlockStart"]}
{"id": "C43", "title": "Superfluous image data does not leak", "statement": "Image data beyond width*height pixels of one frame never shows up in a later frame, and later frames are decoded as if it were absent.", "quantifier": "every well-formed file with over-long image data", "why_tests_cant": "all contents", "anchors": ["src/reader/decoder.rs: DecodeSubBlock, LzwReader::reset"]}
{"id": "C44", "title": "Images without pixels", "statement": "The expected property 'a frame with zero width or height accepted by write_frame can be read back' is false (witness: the reader reports ImageTruncated). What holds on every input and after every history of calls: reading an image of zero width or height in pixel mode succeeds, with an empty buffer, exactly if it is interlaced and has no rows; otherwise it fails, with OddSizedBuffer in RGBA mode. Every frame that read_next_frame returns in pixel mode has exactly width*height*(1 or 4) bytes; in raw mode the buffer starts with the minimal code size.", "quantifier": "every input, every history of decoder calls, both colour modes", "why_tests_cant": "corner case with many paths", "anchors": ["src/encoder.rs: write_frame", "src/reader/converter.rs: fill_buffer"]}
{"id": "C45", "title": "Empty animation round-trips", "statement": "An encoder session without frames but with at least one extension produces a file that read_info accepts and that yields no frames. Without any extension read_info fails with UnexpectedEof (witness).", "quantifier": "all sessions without frames", "why_tests_cant": "histories", "anchors": ["src/reader/decoder.rs: GlobalPalette, BlockStart, BlockEnd"]}
{"id": "C46", "title": "More input never changes what was reported", "statement": "If a sequence of Decoder calls on some input never failed with UnexpectedEof, the same calls on the same input followed by anything else give the same results and leave the reader at the same place; an error of read_info other than UnexpectedEof stays the same however the input continues.", "quantifier": "every input, valid or not, every continuation, every read schedule including errors, every call sequence", "why_tests_cant": "quantifies over all continuations of all inputs and all call sequences", "anchors": ["src/reader/mod.rs", "src/reader/decoder.rs"]}
{"id": "C47", "title": "Rejected frames do not spoil the file", "statement": "After a session in which some calls were rejected (but no I/O error occurred) the file is byte for byte the one written by requesting only what remains: the accepted calls, and the graphic control extension of each frame rejected for its palette. Reading it back gives exactly the accepted frames, each with its own control data.", "quantifier": "all sessions, all rejected frames, all readers and read schedules", "why_tests_cant": "quantifies over histories with errors in arbitrary places", "anchors": ["src/encoder.rs: write_frame, write_frame_header, write_lzw_pre_encoded_frame"]}
{"id": "C48", "title": "The streaming decoder reports exactly what the file says", "statement": "Driving StreamingDecoder::update over a well-formed file gives, in order, exactly the reports that the file's blocks denote: background colour, global palette, each extension with its label and payload (sub-block by sub-block), loop counts, the metadata of each frame, data ends and the trailer, with last_ext and current_frame as observed after each report. No call fails, and at the trailer exactly the bytes of the file have been consumed.", "quantifier": "all well-formed files, everything that may follow them, every way of cutting them into pieces, all options except the strict end-code check", "why_tests_cant": "quantifies over all files and all cuts", "anchors": ["src/reader/decoder.rs: StreamingDecoder::update, next_state, last_ext, current_frame"]}
{"id": "C49", "title": "Driving the streaming decoder takes linearly many calls", "statement": "However an input is cut into non-empty pieces, at most 4 calls of StreamingDecoder::update per input byte return normally; a call never claims to have consumed more than it was given, and a call that reports Nothing has consumed its whole piece.", "quantifier": "all inputs, valid or not, all options, all cuts, all destinations except pixel slices (for the bound)", "why_tests_cant": "a bound over all inputs and all cuts", "anchors": ["src/reader/decoder.rs: StreamingDecoder::update, next_state"]}
{"id": "C50", "title": "True-colour pictures survive the whole library", "statement": "Pictures of at most 256 colours, at most one of them fully transparent, turned into frames with Frame::from_rgba_speed, written with any positions, delays and disposal methods, and read back with RGBA output, give the same RGBA bytes in the same order, partly transparent pixels having become opaque; without partly transparent pixels the bytes are unchanged. Frame metadata are kept.", "quantifier": "all picture sequences, all quantisers and speeds, all writer and reader schedules, all bytes following the file", "why_tests_cant": "quantifies over all pictures and over all interleavings of I/O", "anchors": ["src/common.rs: Frame::from_rgba_speed", "src/encoder.rs: write_frame", "src/reader/mod.rs: read_next_frame", "src/reader/converter.rs: fill_buffer"]}
{"id": "C51", "title": "Short image data are reported and do not disturb later frames", "statement": "If the LZW data of an image in a well-formed file decode to fewer pixels than the image has, read_next_frame fails with ImageTruncated, read_into_buffer likewise, fill_buffer delivers the pixels there are, leaves the rest of the caller's buffer as it was and returns Ok(false), and the iterator gives the frames before, that error, and then None. A caller of read_next_frame who carries on after the error gets every later frame exactly as if the short image were complete, and the bytes after the trailer are untouched.", "quantifier": "all well-formed files with any set of short images, any delivery of the bytes, both colour modes, interlaced or not, every correct LZW decoder", "why_tests_cant": "recovery after an error inside image data depends on where the data end relative to sub-blocks, rows and reads", "anchors": ["src/reader/converter.rs: read_frame, read_into_buffer, fill_buffer", "src/reader/mod.rs: read_next_frame, DecoderIter::next", "src/reader/decoder.rs: DecodeSubBlock"]}
{"id": "C52", "title": "What follows cannot spoil what came before", "statement": "If a file begins with a correct header and correct blocks, the frames of those blocks are returned exactly as in an intact file, whatever bytes come behind them: by read_next_frame, by the iterator, with skip_frame_decoding and by next_frame_info. In particular a truncated file gives at least the frames that are complete in it.", "quantifier": "all correct beginnings, all byte strings behind them, all ways of delivering the bytes, all decoding options without the strict end-code check", "why_tests_cant": "the bytes behind are arbitrary: a look-ahead or premature validation shows up only for particular continuations", "anchors": ["src/reader/mod.rs: read_next_frame, next_frame_info, DecoderIter::next, init", "src/reader/decoder.rs: next_state"]}
{"id": "C53", "title": "Damage is reported with the right error, after all frames before it", "statement": "Damage at the boundary of two blocks, or in a block before its image data (an unknown block, an unknown extension label, a control extension of wrong length, data beyond the memory limit, an image outside the screen, an impossible code size, an image without colours, the end of the input) gives all frames before it and then exactly the error for that damage; the iterator then ends. Damage within the first extensions, a cut header and a wrong signature are reported by read_info, other damage is not.", "quantifier": "all correct beginnings, all damage of the listed kinds, all bytes behind it, all ways of delivering the bytes", "why_tests_cant": "combines every kind of damage with every position, history and read schedule", "anchors": ["src/reader/decoder.rs: Magic, BlockStart, ExtensionBlockStart, ExtensionDataBlock, BlockEnd, ImageBlockStart, LzwInit", "src/reader/mod.rs: init, decode_next, next_frame_info", "src/reader/converter.rs: check_buffer_size, palette"]}
{"id": "C54", "title": "Stricter decoding options only refuse", "statement": "Let two settings of DecodeOptions agree in colour output and skip_frame_decoding, the first having a lower or equal memory limit, and at least as many checks (frame consistency, end codes, unknown blocks). Any sequence of calls on the same source that the first decoder carries out without a refusal gives the same results, the same frames and accessor values with the second; a refusal is one of the errors belonging to an option in which they differ. A file well-formed for the second gives, with the first, a beginning of its frames and then the end or a refusal. The same holds for the frame iterator and FrameDecoder.", "quantifier": "all pairs of settings, all sources including failing ones, all call sequences, all LZW decoders", "why_tests_cant": "compares two runs for all inputs and call sequences", "anchors": ["src/reader/mod.rs: DecodeOptions, Decoder, FrameDecoder", "src/reader/decoder.rs: StreamingDecoder, LzwReader", "src/reader/converter.rs: check_buffer_size"]}
{"id": "C55", "title": "The announced sizes and palettes are the ones used", "statement": "After any calls on any bytes, line_length() is the width of the current frame times the bytes per pixel of the colour output, and buffer_size() that times the height. The buffer of every frame returned by read_next_frame has exactly buffer_size() bytes. read_into_buffer accepts every buffer of at least that size (never BufferTooSmall or OddSizedBuffer), leaves the excess bytes alone and behaves as with the exact size; it never accepts a shorter one, and refuses it before reading anything unless the frame is interlaced. (For interlaced frames the stronger statement is false: rows are read and overwritten before the refusal.) FrameDecoder: the same for buffer_size(&frame). On a well-formed file next_frame_info announces, for every image in order, these sizes and palette() = the image's own table or else the global one.", "quantifier": "all sources, options, call sequences, buffers, LZW decoders; all well-formed files", "why_tests_cant": "relates accessors to the outcome of later reads for all states and buffer sizes", "anchors": ["src/reader/mod.rs: line_length, buffer_size, palette, read_into_buffer, read_next_frame", "src/reader/converter.rs: buffer_size, line_length, read_into_buffer, fill_buffer", "src/reader/decoder.rs: FrameDecoder::buffer_size, decode_lzw_encoded_frame_into_buffer"]}
{"id": "C56", "title": "The example programs copy pictures faithfully and do not hide errors", "statement": "examples/explode.rs, run on a well-formed file (within the default memory limit) with files that can be created and written, ends without error and writes one file per image; read with any options that can read the original, each is a file of the same screen size with exactly that one frame: same pixels, colours, position, delay, disposal and transparency. examples/parallel.rs writes the frames in their original order whatever the order in which its threads finish: the effect on the writer, failures included, is that of writing them one after the other; on a well-formed file the result has the size, loop count, global colour table and all frames of the original. For every input, damaged or not: explode and parallel report success only if the decoder came to the end of the file (and every frame was decoded), explode has written one file per frame that was read, and a decoder error is passed on as it is. examples/check.rs panics exactly when the file cannot be opened; otherwise it reports every frame that can be read and then the error that stopped it, and on a well-formed file every image. The fuzz target fuzz/fuzz_targets/decode.rs neither panics nor loops on any bytes.", "quantifier": "all well-formed files, read boundaries, reading options, writers, and all orders of arrival of the frames", "why_tests_cant": "all interleavings of the threads and all files", "anchors": ["examples/explode.rs", "examples/parallel.rs", "src/encoder.rs: write_frame, write_lzw_pre_encoded_frame, make_lzw_pre_encoded, Drop", "src/reader/decoder.rs: FrameDecoder", "examples/check.rs", "fuzz/fuzz_targets/decode.rs"]}
{"id": "C57", "title": "Every loop over the frames of a file ends: at most one frame per 13 bytes", "statement": "Whatever bytes the source delivers and in whatever pieces, however the calls of next_frame_info, read_next_frame, read_into_buffer and fill_buffer are mixed: as long as no call fails, the number k of frames announced satisfies k = 0 or 13 + 13*k <= bytes + 1. Hence a loop over read_next_frame, next_frame_info or the iterator reaches the end of the file or an error after at most bytes/13 + 1 turns, and so do the loops of examples/explode.rs and examples/parallel.rs.", "quantifier": "all byte sequences (well-formed or not), read boundaries, I/O errors, options and sequences of calls", "why_tests_cant": "termination for all inputs", "anchors": ["src/reader/decoder.rs: StreamingDecoder::next_state", "src/reader/mod.rs: Decoder::next_frame_info, read_next_frame, DecoderIter::next", "examples/explode.rs", "examples/parallel.rs"]}
{"id": "C58", "title": "The streaming decoder delivers each image's data completely and reports exactly what it wrote", "statement": "(a) Every successful call of StreamingDecoder::update takes at most the bytes it was given, and changes the OutputBuffer only by the bytes it reports: BytesDecoded(k) and LzwDataCopied(k) put k bytes at the start of the slice or at the end of the vector, every other event and OutputBuffer::None put none; bytes reported as copied are the last bytes taken from the input. (b) For every well-formed file passed in any pieces, with any non-empty slices (or vectors, when frame decoding is skipped) after FrameMetadata and until DataEnd and arbitrary destinations elsewhere: the pieces received for an image, put together, are its decompressed data (or, when decoding is skipped, its compressed data as in the file), complete when DataEnd is reported; all other events are those of the file; no call fails. For a file written by the encoder the data are the pixels that were written. Destinations without room are outside the claim for a reason: an empty slice can lose data although no call fails (refuted).", "quantifier": "all files, cuts, destinations (kind, size, content), options, LZW decoders satisfying the contract", "why_tests_cant": "the pieces, the sizes of the destinations and their mix are unbounded; the interplay of LZW buffering with sub-block boundaries shows only for particular sizes", "anchors": ["src/reader/decoder.rs: StreamingDecoder::update, next_state, OutputBuffer::append, LzwReader::decode_bytes"]}
{"id": "C59", "title": "Every frame gets its own verdict, and a refused frame costs nothing but itself", "statement": "Read a well-formed file image by image, each one with read_next_frame, read_into_buffer, fill_buffer in pieces, or not at all, going on after every error. What is returned for an image follows from that image, the memory limit and the caller's buffer alone: read_next_frame gives the frame, or OutOfMemory iff its size exceeds the limit (or usize), or ImageTruncated iff its data hold too few pixels; read_into_buffer gives the pixels, BufferTooSmall iff the buffer is too short (for an interlaced image: as soon as a stored row does not fit) or ImageTruncated; fill_buffer says whether the slice was filled. Images after a refused one are read as if nothing had happened, and after the last one there are no more. The iterator yields the frames before the first refused one, that error, and nothing more. With skip_frame_decoding, the frames before the first one over the limit are delivered, then MemoryLimitReached; going on after that error is not reliable: whether the following frames can be read depends on the pieces in which the reader delivers the file (refuted). The data of an image that is skipped unread need not be valid LZW data. After an image whose data are corrupt and which was read nevertheless, the following frames are not reliable (witness).", "quantifier": "all well-formed files, sources, limits, mixtures of reading calls, buffers of any size, images with any amount of data", "why_tests_cant": "which error is due and whether the next frames survive it depends on the combination of limit, sizes, interlacing and stored data for each of arbitrarily many images", "anchors": ["src/reader/mod.rs: Decoder::read_next_frame, read_into_buffer, fill_buffer, copy_lzw_into_buffer", "src/reader/converter.rs: read_frame, read_into_buffer, check_buffer_size", "src/reader/decoder.rs: OutputBuffer::append"]}
{"id": "C60", "title": "The options builder: last call wins, documented defaults otherwise", "statement": "After any chain of calls on a DecodeOptions, every setting is the argument of the last call for it; without such a call it is the documented default: a memory limit of 50,000,000 bytes, palette indices, no consistency check, frames decoded, no end-code check, unknown blocks refused. Decoder::build, Default, Decoder::new and StreamingDecoder::new start from these defaults. Reading a well-formed file frame by frame with the configured options, an image is delivered in the configured colour output, or refused with OutOfMemory iff width*height*bytes-per-pixel exceeds the configured limit, or reported truncated iff its data hold fewer pixels.", "quantifier": "all chains of configuration calls, all well-formed files, all sources", "why_tests_cant": "chains of calls with repetitions and all orders are unbounded; defaults decide about images of 50 million pixels", "anchors": ["src/reader/mod.rs: DecodeOptions::new, set_color_output, set_memory_limit, check_frame_consistency, skip_frame_decoding, check_lzw_end_code, allow_unknown_blocks, Decoder::new, Decoder::build, MemoryLimit::buffer_size", "src/reader/decoder.rs: StreamingDecoder::new"]}
{"id": "C61", "title": "RGBA output equals indexed output with the colours looked up, on every input", "statement": "For any source bytes (also damaged ones), any sequence of next_frame_info, read_next_frame, read_into_buffer and fill_buffer calls, and any options, a Decoder that outputs RGBA and one that outputs palette indices (all other options equal, slices of a quarter of the length) give the same answers and errors call by call and look the same afterwards (frame metadata, palettes, screen, background, repetition, position in the source; line_length and buffer_size are four times as large), and the RGBA bytes are the colours of the delivered indices in the frame's palette, with alpha 0 for the transparent index; cells of indices outside the palette are left alone. This holds up to the first OutOfMemory or OddSizedBuffer error of the RGBA decoder, which are the only errors it has in addition. The same holds for the iterator and for FrameDecoder with arbitrary frames.", "quantifier": "all byte sequences and sources, all call sequences and slices, all options, all codecs that respect their buffers", "why_tests_cant": "quantifies over damaged files and call sequences in wrong order, where no expected output is written down anywhere", "anchors": ["src/reader/converter.rs: fill_buffer, read_frame, read_into_buffer, check_buffer_size", "src/reader/mod.rs: Decoder::read_next_frame, read_into_buffer, fill_buffer, DecoderIter", "src/reader/decoder.rs: FrameDecoder"]}
{"id": "C62", "title": "Whatever the readers accept is a GIF file", "statement": "If the streaming decoder, fed a byte string in any pieces and with any destinations, reports the trailer without an error before, or if a Decoder opened on a source answers a sequence of calls without error and one of them says that there are no more frames (reading all frames and skipping all frames are special cases), then the bytes are the serialisation of a GIF: header, screen descriptor, complete global colour table, then extensions with a known label, images with a complete colour table (local or, for the Decoder, global), a minimum code size in 1..11 and a frame rectangle inside the screen if that is checked, and unknown blocks only if they are allowed, each with terminated data blocks, then the trailer and anything. The only liberties over GIF89a: an empty first data block does not end the data, and a file without blocks is taken if bytes follow the trailer. From the first event on version, width and height are those in the bytes.", "quantifier": "all byte strings, all ways to cut them into pieces, all options, all call sequences, all codecs that respect their buffers", "why_tests_cant": "the converse of the tests' positive cases: no set of rejected files shows that everything accepted is well-formed", "anchors": ["src/reader/decoder.rs: StreamingDecoder::next_state, update", "src/reader/mod.rs: Decoder::next_frame_info, read_next_frame"]}
{"id": "C63", "title": "Palettes of true-colour frames", "statement": "from_rgba_speed on pixels with at most 256 different colours (alpha made 0 or 255) builds the palette of exactly these colours, each once, in ascending order, without the quantiser; the transparent entry is that of the last fully transparent pixel, or none. With more colours, palette and indices are those that the quantiser gives for the pixels (alpha made 0 or 255) and the requested speed, and the transparent entry is the one it gives to the last transparent pixel. from_rgb_speed is from_rgba_speed of the same pixels with alpha 255; from_rgba and from_rgb use speed 1.", "quantifier": "all pictures, sizes, speeds and quantisers", "why_tests_cant": "the branch with more than 256 colours depends on an external crate; determinism of the palette despite the hash set is not visible in single runs", "anchors": ["src/common.rs: Frame::from_rgba, from_rgba_speed, from_rgb, from_rgb_speed"]}
{"id": "C64", "title": "The readers accept exactly the GIF files of a grammar, and report what they say", "statement": "A source is opened and scanned to its end without error (under options with which frames can be skipped over) if and only if its bytes are a file of the grammar of C62; every other byte string is refused with an error, within bytes/13 + 1 calls. On an accepted file, in whatever pieces it arrives, width, height, global palette, background colour and loop count are those written in the file, and one frame is reported for each image, with the geometry, colour table and control data the file gives it, among them files with empty first data blocks and unknown blocks. The streaming decoder without a destination takes all of these files, and those without colour tables: it never refuses a piece, it reports the trailer before the input runs out, and its frames are those of the file. The grammar is unambiguous.", "quantifier": "all byte strings, all ways to cut them into pieces, all options that allow skipping, all codecs that meet the contract", "why_tests_cant": "an equivalence over all inputs: tests can show neither that every file of the grammar is taken nor that nothing else is", "anchors": ["src/reader/decoder.rs: StreamingDecoder::next_state, update", "src/reader/mod.rs: Decoder::read_info (init), next_frame_info"]}
{"id": "C65", "title": "Changing the frame under construction changes nothing else", "statement": "A caller of StreamingDecoder may replace the frame under construction through current_frame_mut between any two calls of update. All further results of update - events, numbers of bytes consumed, decoded bytes, errors - are those of a caller who never touches the frame, and the two decoders differ at most in the frame; once an image ends they do not differ at all. current_frame_mut panics exactly when the decoder of the caller who keeps their hands off has no frame under construction.", "quantifier": "all codecs, decoder states, input pieces, destinations, numbers and kinds of changes", "why_tests_cant": "a statement about every possible change at every possible point of every stream", "anchors": ["src/reader/decoder.rs: StreamingDecoder::current_frame_mut, update, next_state, add_frame"]}
{"id": "C66", "title": "The encoder with a caller who uses its writer", "statement": "get_mut and get_ref never panic on an encoder the caller can hold, and the encoder keeps no state that using the writer could invalidate: whatever the caller does to the writer between calls, each call writes exactly its specified bytes, with its specified result, to the writer as the caller left it (or stops inside them with the writer's error), and get_ref shows that writer. In particular whole GIF blocks written by the caller become blocks of the file, which is read back as if the encoder had written them.", "quantifier": "all codecs, palettes, sequences of calls and of arbitrary changes of the writer; for reading, all options without end-code check", "why_tests_cant": "callers can do anything to the writer; tests try a few things", "anchors": ["src/encoder.rs: Encoder::get_ref, get_mut"]}
{"id": "C67", "title": "Drop without raii_no_panic", "statement": "Built without the feature raii_no_panic, the encoder hands the writer the same bytes as with it. drop panics exactly if the trailer cannot be written. into_inner and Encoder::new succeed in the same cases; where they fail, the error is returned if the trailer gets through during the drop of the encoder, otherwise the call panics. Without faults of the writer there is no difference. Refuted: that a writer's error is returned as an error; a writer that fails twice in a row makes into_inner panic.", "quantifier": "all encoders, writers (short writes, interruptions, errors at any point), palettes and sizes", "why_tests_cant": "needs writers failing at every point, twice, and a build with another feature set", "anchors": ["src/encoder.rs: Drop for Encoder, Encoder::new, into_inner"]}
{"id": "C68", "title": "What the streaming decoder shows between calls", "statement": "Between calls of StreamingDecoder::update, on any input in any pieces: last_ext starts as (0, [], true); after BlockStart(Extension) it shows the label just read and no data; data bytes of the block are appended exactly when they are consumed (size bytes of further data blocks are not); SubBlockFinished and BlockFinished carry that label and switch the end flag off and on; no other event changes it. version is V87a until six bytes have been taken and then the one spelled by these bytes; width and height are zero until thirteen bytes have been taken and then those of the screen descriptor. Refuted: that label 0 is reported for data not belonging to an extension (documentation of Decoded); an unknown block after an extension is reported under the label, and with the data, of that extension.", "quantifier": "all codecs meeting the safety contract, options, files (valid or not), splits into pieces, destinations", "why_tests_cant": "a statement about every intermediate state on every input and split", "anchors": ["src/reader/decoder.rs: StreamingDecoder::last_ext, version, width, height, update, next_state; docs of Decoded::SubBlockFinished"]}
{"id": "C69", "title": "Reading when memory runs out", "statement": "The readers reserve memory for file contents with try_reserve (global and local colour tables, extension data, undecoded image data). Whichever of these reservations fail: a call of StreamingDecoder::update, read_info, next_frame_info, read_next_frame, read_into_buffer, fill_buffer or DecoderIter::next in which one fails returns the I/O error OutOfMemory because of the first that fails, and one in which none fails does exactly what it does with plenty of memory; an iterator that reported it has ended. A caller who never gets memory sees no colours and no extension data beyond the first byte, and their vector is left alone when image data are not decoded. No call panics or loops, whatever was reported before and whatever the caller does next. Refuted: that the caller may simply call again; an image descriptor that was being completed when memory ran out is lost unless it lies in the current piece of input.", "quantifier": "all patterns of failing reservations, codecs meeting the safety contract, options (limit representable), inputs (valid or not), splits, sequences of calls", "why_tests_cant": "allocation failures cannot be provoked deterministically by tests, and their position is arbitrary", "anchors": ["src/reader/decoder.rs 376, 563, 601, 670", "src/reader/mod.rs 353"]}
{"id": "C70", "title": "Writing when memory runs out", "statement": "Encoder::write_frame needs memory for the compressed pixels. If there is none, the call returns the I/O error OutOfMemory and has written exactly the frame's control extension, image descriptor and colour table (unless it refuses the frame anyway, or the writer fails before, as with plenty of memory); all other calls, and all calls with enough memory, are unaffected. The file written by a caller who goes on consists of exactly these pieces, and every frame written before memory ran out is read back from it as in C01. Refuted: that the call may be repeated or the frame left out (the rest of the file is unreadable, even the trailer); make_lzw_pre_encoded and from_rgb_speed panic instead of reporting the lack of memory.", "quantifier": "all sessions, patterns of lacking memory, frames, palettes, codecs meeting the contract; writers with short writes and interruptions (single calls: any faults)", "why_tests_cant": "allocation failures cannot be provoked deterministically by tests", "anchors": ["src/encoder.rs: write_frame, write_image_block (216), make_lzw_pre_encoded (407)", "src/common.rs: from_rgb_speed (341)"]}
{"id": "C71", "title": "What a decoder keeps is bounded by the memory limit", "statement": "With memory limit n, a StreamingDecoder never keeps more than 1544 + max n 1 bytes of the file's data (partial headers, colour tables, extension data, frame under construction), and a Decoder to which no buffer longer than B was ever passed never more than 3080 + 2*max n 1 + max n B / 4 bytes (also the current frame, its palette, the global palette and the converter's scratch buffer), on any input and whatever calls were made and failed. Refuted: that the limit covers every request for memory; with skip_frame_decoding read_next_frame asks for width*height/4 bytes first, a gigabyte for a file of 34 bytes under a limit of one byte.", "quantifier": "all inputs, read schedules, options with a limit, sequences of calls and caller's buffers, codecs meeting the contract", "why_tests_cant": "maximum over all files and call sequences; tests measure single runs", "anchors": ["src/reader/decoder.rs: StreamingDecoder, next_state", "src/reader/converter.rs: fill_buffer, read_frame, check_buffer_size", "src/reader/mod.rs: read_next_frame (353), MemoryLimit"]}
{"id": "C72", "title": "Which errors a call can return", "statement": "For each of read_info, next_frame_info, read_next_frame and the iterator, fill_buffer and read_into_buffer (at any time, and directly after an announced frame; for fill_buffer also after any number of buffers of that frame that were filled), StreamingDecoder::update and the two FrameDecoder calls there is a list of errors (SpecErrors.v): the error returned is on the call's list and possible with the options (e.g. FrameOutOfBounds only with check_frame_consistency, InvalidData and OutOfMemory only when frames are decoded), or it is the reader's own or an unexpected end of file. Every error of every list occurs for some file, options and calls. \"file does not contain any image data\" and \"bad state\" are never returned.", "quantifier": "all inputs, read schedules, options, sequences of calls before, buffers, codecs meeting the contract", "why_tests_cant": "absence of an error over all files and call sequences; tests show single errors", "anchors": ["src/reader/mod.rs: init, next_frame_info, read_next_frame, fill_buffer, read_into_buffer, decode_next_bytes", "src/reader/decoder.rs: next_state, FrameDecoder, LzwReader", "src/reader/converter.rs: fill_buffer, read_into_buffer, read_frame, check_buffer_size"]}
{"id": "C73", "title": "Error values show what they wrap", "statement": "DecodingError and EncodingError always have a source, the reason or the I/O error, and every error of the crate shows exactly the text of its source; the chain of sources ends after at most three errors or in an I/O error's chain; the texts of format errors are non-empty and pairwise different, so the text tells the reason; the From conversions lose nothing.", "quantifier": "all error values, any text and source of I/O errors", "why_tests_cant": "tests compare no texts", "anchors": ["src/reader/decoder.rs: 20-97", "src/encoder.rs: 14-80", "calls of DecodingError::format"]}
{"id": "C74", "title": "write_le writes the little-endian bytes of a number", "statement": "write_le of an n of type u8, u16, u32 or u64 writes exactly the 1, 2, 4 or 8 bytes, least significant first, that make up n, to any writer, or a proper prefix of them when the writer fails, with the writer's error.", "quantifier": "all numbers of the type, all writers", "why_tests_cant": "2^64 numbers times all writers", "anchors": ["src/traits.rs: 17-45"]}
{"id": "C75", "title": "How many bytes the encoder writes", "statement": "Encoder::new writes 13 bytes and a colour table of three times the smallest power of two (at least 2) that holds the palette's whole colours. A loop count takes 19 bytes, or none for a finite count of zero; a raw extension 3 bytes and its data with one length byte per begun 255 bytes of each block; a control extension 8; a frame 20 bytes, its colour table, and its compressed data cut the same way. A frame refused for its palette costs 8 bytes, any other refused call none. The trailer is one byte. These are all the bytes there are.", "quantifier": "for every writer, every palette and every sequence of calls, accepted or refused", "why_tests_cant": "a test compares a few files; it cannot show that no call ever writes a byte more or less", "anchors": ["src/encoder.rs:136", "src/encoder.rs:151", "src/encoder.rs:178", "src/encoder.rs:214", "src/encoder.rs:224", "src/encoder.rs:243", "src/encoder.rs:266", "src/encoder.rs:307", "src/encoder.rs:362"]}
{"id": "C76", "title": "Several files in one stream can be read one after the other", "statement": "When read_next_frame has returned None for a well-formed file, the reader recovered with into_inner can be given to a new decoder, which reads the file that follows; so a stream of any number of well-formed files yields the screen sizes and frames of each, in order, and the last recovered reader delivers exactly what follows the last file. The exception is a file without any block: its decoder takes one byte of what follows.", "quantifier": "for every list of well-formed files, every bytes after them, every way of cutting the stream into reads", "why_tests_cant": "the number and contents of the files, and where the reads end, are unbounded", "anchors": ["src/reader/mod.rs:444", "src/reader/decoder.rs:621"]}
{"id": "C77", "title": "A pause of the reader in the middle of an image loses nothing", "statement": "If a call of fill_buffer fails because the reader reported a transient error, or had nothing more for the moment (a file still being written: Ok(0), later more bytes), the pixels stored so far are whole pixels and not all that was asked for, and a further call for the rest of the slice stores what the first call would have stored without the pause. A program that asks for the next frame and for one pixel at a time, repeating every call that failed that way, sees exactly what it would see from a reader without pauses. With larger slices the caller cannot know how many pixels were stored: repeating the call with the same slice misplaces pixels without an error.", "quantifier": "for every byte stream, well-formed or not, cut into reads in every way, with transient errors and temporary ends anywhere between them, every state of the decoder, every slice and every sequence of calls", "why_tests_cant": "the places of the errors and the sizes of the slices multiply; a test covers a few of them", "anchors": ["src/reader/mod.rs:401", "src/reader/mod.rs:205", "src/reader/converter.rs:92"]}
{"id": "C78", "title": "True-colour constructors on 32-bit and 64-bit machines", "statement": "from_rgba and from_rgba_speed accept a buffer exactly if its length is width*height*4 as long as that number fits in usize, which it always does with 64 bits. Where it does not fit (32 bits), a build with overflow checks always panics; a build without them accepts exactly the lengths that agree modulo 2^32, and the frame has fewer pixels than its width and height say, so that write_frame refuses it. from_rgb and from_rgb_speed are never deceived: they accept exactly the right length, and panic whenever width*height*4 exceeds isize::MAX.", "quantifier": "for every width, height, pixel buffer and speed, for usize of 32 and of 64 bits, with and without overflow checks", "why_tests_cant": "the products overflow only for images of a gigapixel and only on 32-bit targets, which the tests do not run on", "anchors": ["src/common.rs:213", "src/common.rs:338"]}
{"id": "C79", "title": "Invalid LZW codes in image data", "statement": "If the data of an image contain an invalid LZW code, everything before that image is reported as if the code were not there. For the image itself the caller is told InvalidData whenever the pixels before the invalid code are fewer than it asked for, whichever way it reads (whole frame, into a buffer, in pieces, iterator); slices filled before hold the right pixels. If they are more than it asked for, it gets exactly those pixels and no error. The iterator yields the error once and then nothing. Whatever bytes an image's sub-blocks hold, reading it gives the picture they stand for, ImageTruncated, or InvalidData.", "quantifier": "for every well-formed file with arbitrary bytes as image data, every delivery of it by the reader, every way of reading, and every LZW codec that meets the two contracts", "why_tests_cant": "needs all images of a file, all corrupt codes and all splits of the input; the fuzz targets only look for panics", "anchors": ["src/reader/decoder.rs:288", "src/reader/decoder.rs:306", "src/reader/mod.rs:354"]}
{"id": "C80", "title": "FrameDecoder's verdict on every frame", "statement": "A user hands frames holding compressed data to one FrameDecoder, in any order, and goes on after errors. For each frame decode_lzw_encoded_frame answers from that frame and the settings alone: OutOfMemory if its picture exceeds the limit, InvalidMinimalCodeSize if the first byte is no code size, ImageTruncated if its data hold too few pixels, InvalidData if an invalid code comes too early, and otherwise the frame with its picture, deinterlaced and converted. A refused frame is left as it was, and earlier frames, good or bad, have no influence. Into a buffer of the caller's, the same holds with BufferTooSmall. Reading a file compressed and decompressing the frames later gives the same answers, frame by frame, as decoding them while reading, refused frames included.", "quantifier": "for every list of frames with any bytes in their buffers, every setting of limit and colour output, every buffer size; for the last part every well-formed file and delivery", "why_tests_cant": "needs all sequences of good and bad frames through one decoder; the tests hand it only frames of valid files, each decoded successfully", "anchors": ["src/reader/decoder.rs:210", "src/reader/decoder.rs:222", "src/reader/decoder.rs:241", "src/reader/converter.rs:46"]}
{"id": "C81", "title": "Whatever is read to the end without an error is what the file says", "statement": "Let any bytes be read frame by frame. If read_next_frame ends with Ok(None) without an error, then the bytes are a GIF file followed by a tail, namely the only one they can be; the frames returned are exactly its images, in order, each with its complete picture, nothing is left out or invented, and the tail is left unread (a file without any block loses the byte behind its trailer). Without decoding, the frames hold exactly the compressed data, and the end is reached if and only if the bytes are such a file and the data of each image fit into the memory limit. For every such file with any bytes in its image data the frames before the first faulty image are returned, then the error of that image; if there is none, all frames and the end. With a damaged end, the frames before the damage and then its error.", "quantifier": "for every input and delivery, every setting of limit and colour output; for the last sentence every file, damage and image data, valid or not", "why_tests_cant": "soundness over all inputs: a test can only show that some inputs are read properly, not that no input exists on which the decoder returns success with a frame missing or wrong", "anchors": ["src/reader/mod.rs:294", "src/reader/mod.rs:321", "src/reader/decoder.rs:510", "src/reader/converter.rs:36"]}
{"id": "C82", "title": "What was read can be written again, and the copy reads like the original", "statement": "Let any bytes be read to the end (Ok(None)) with indexed pixels and let every frame hold at least one pixel. A new encoder with the size and global palette of the decoder, set_repeat with its loop count and write_frame for every frame succeed on a working writer, and the file written is read, with any colour output, delivery and following bytes, as exactly the frames the original bytes give with these options, with the same size, loop count and global palette (two black entries where the original has none). Copying the copy gives the identical file. Likewise for frames read without decoding and written with write_lzw_pre_encoded_frame, if each holds some compressed data. Without these provisos it is false: a frame without data and an interlaced frame without rows are written without complaint to a file that cannot be read. Decoding the copy of the compressed frames (same limit, consistency check and unknown-block setting, at least one pixel per frame) gives the frames and the final result, errors included, that decoding the original gives, except that an invalid code right behind the last pixel may stop one of the two readings.", "quantifier": "for every input accepted by the decoder (well-formed or not), every delivery, every setting of limit and colour output, every harmless writer, every bytes behind the copy", "why_tests_cant": "composition of decoder and encoder over all inputs: the round-trip test re-encodes a few sample files and compares only what it decodes from them", "anchors": ["src/reader/mod.rs:321", "src/encoder.rs:136", "src/encoder.rs:146", "src/encoder.rs:169", "src/encoder.rs:324", "tests/roundtrip.rs:6"]}
{"id": "C83", "title": "A slice provided by the caller is only written to", "statement": "What a slice held before is passed to read_into_buffer, fill_buffer, FrameDecoder::decode_lzw_encoded_frame_into_buffer or StreamingDecoder::update influences neither the result, nor the state of the decoder afterwards, nor what is written where; nothing is written beyond the size of the frame, space beyond it changes nothing, and with indexed output every byte of a completed frame is written. Hence reading any source with next_frame_info and read_into_buffer gives the frames of read_next_frame, the same final result and the same rest, unless read_next_frame reports OutOfMemory. With RGBA output the pictures may differ: cells of indices outside the palette keep what the slice held, while read_next_frame leaves zeros there.", "quantifier": "for every state of a decoder (after any calls on any input, valid or not, with failing readers), every pair of slices, every codec that respects its buffers", "why_tests_cant": "independence of old memory contents: tests pass fresh zeroed buffers, so data leaking from an earlier frame in a reused buffer stays invisible", "anchors": ["src/reader/converter.rs:92", "src/reader/converter.rs:164", "src/reader/converter.rs:123", "src/reader/mod.rs:378", "src/reader/mod.rs:401", "src/reader/decoder.rs:222"]}
{"id": "C84", "title": "Numbers and kinds of blocks, extensions and disposal methods correspond", "statement": "Block, Extension and DisposalMethod have the numbers of the GIF89a specification; from_u8 gives Some(x) exactly for the number of x and None for every other byte. So AnyExtension::from(e).into_known() is Some(e) for every e, also for the plain text extension, which the library itself never writes.", "quantifier": "for every byte and every kind", "why_tests_cant": "the library never uses some of the numbers itself (plain text), so no test file shows them", "anchors": ["src/common.rs:8", "src/common.rs:22", "src/common.rs:45", "src/common.rs:57", "src/common.rs:84", "src/common.rs:108", "src/common.rs:122"]}
{"id": "C85", "title": "With the check for end codes on, a file without end code is never read to the end", "statement": "If a reader with DecodeOptions::check_lzw_end_code reads all frames (or if any sequence of calls goes well up to the end of the file), the compressed data of every image of the file contain an end code. So a well-formed file with an image without one gives the frames before some image, with the right pixels, and then io::ErrorKind::InvalidData.", "quantifier": "for every reader, every chunking, all other options except skip_frame_decoding, every sequence of calls and every file", "why_tests_cant": "tests use a few broken files; whether the check can be bypassed depends on where chunks, sub-blocks and the pixel buffer end", "anchors": ["src/reader/mod.rs:160", "src/reader/decoder.rs:284", "src/reader/decoder.rs:740"]}
{"id": "C86", "title": "The encoder writes an end code for every image", "statement": "The file of a session in which Encoder::new, all calls and into_inner succeed has exactly one image for each frame written, and the compressed data of each image, put together from its sub-blocks, contain an end code. Frames written with write_lzw_pre_encoded_frame are those of Frame::make_lzw_pre_encoded.", "quantifier": "for every session, screen, palette, sequence of calls and writer", "why_tests_cant": "decoders in default mode do not notice a missing end code", "anchors": ["src/encoder.rs:169", "src/encoder.rs:214", "src/encoder.rs:224", "src/encoder.rs:381", "src/encoder.rs:405"]}
{"id": "C87", "title": "The iterator gives what a loop over read_next_frame gets", "statement": "On every input, the items of DecoderIter are the frames that repeated calls of read_next_frame would give, one by one, followed by the same error or the same end, and then None for ever; only a frame without bytes (an interlaced image of height 0) shows up as a None in between. So a for loop that ends without an error has seen all images of a GIF file, with the pictures the file says, unless it stopped at such an image.", "quantifier": "for every decoder a user can have, after any calls, for all bytes, pieces and faults of the reader, and all options", "why_tests_cant": "the equivalence must hold for damaged and arbitrary input and for every point at which an error can occur; tests iterate over valid files only", "anchors": ["src/reader/mod.rs:366", "src/reader/mod.rs:466", "src/reader/mod.rs:494"]}
{"id": "C88", "title": "Errors are justified by the file", "statement": "When a call of the streaming decoder fails after calls that succeeded, the bytes of the file hold the fault that the error names, at a place behind a header and blocks without fault: a wrong signature, an image outside the screen (when checked), an unknown label or block, extension data over the memory limit, a control extension of wrong length, an impossible code size; pixel errors come only from the data of an image, and only with a destination of the right kind. The format errors of read_info, and those of next_frame_info after any calls that went well, are justified in the same way, with 'no color table' only for an image without a table in a file without a global one. No other format errors occur there. Those of read_next_frame, and those among the items of the iterator, are justified likewise; copied data are refused only when the data blocks of the image, with the code size, are over the memory limit, and besides these there are only 'image truncated', when the data of an image are all there, and, in RGBA mode and for a frame without pixels, 'odd-sized buffer'. fill_buffer and read_into_buffer, after calls that went well, say that there are no more pixels only when the data of an image are all there; their other format errors have their reasons in the file too, besides 'unexpected data', a buffer that is too small and, in RGBA mode, 'odd-sized buffer'.", "quantifier": "for all byte strings, all cuts into pieces and faults of the reader, all options, all destinations, every codec that keeps the weezl contract", "why_tests_cant": "a test can show that a given damaged file is refused; that no undamaged file is ever refused, and never with the wrong message, concerns all files and all splits", "anchors": ["src/reader/decoder.rs:426", "src/reader/decoder.rs:493", "src/reader/mod.rs:280", "src/reader/mod.rs:312", "src/reader/mod.rs:338", "src/reader/mod.rs:378", "src/reader/mod.rs:401"]}
