{
 "claims": [
  {
   "property": "C01",
   "status": "proved",
   "theorems": [
    "C01_round_trip"
   ],
   "note": "All sessions, readers and read schedules; over every LZW codec meeting lzw_spec (instance lzw_ref proved to meet it). Concrete case C01_case."
  },
  {
   "property": "C02",
   "status": "proved",
   "theorems": [
    "C02_screen_data",
    "C02_no_palette_refuted"
   ],
   "note": "Proved for every session; C02_no_palette_refuted is the documented exception that fails: an empty palette is written as a table of two black colours and read back as such."
  },
  {
   "property": "C03",
   "status": "proved",
   "theorems": [
    "C03_loop_count"
   ],
   "note": ""
  },
  {
   "property": "C04",
   "status": "proved",
   "theorems": [
    "C04_table_rule",
    "C04_table_bytes"
   ],
   "note": ""
  },
  {
   "property": "C05",
   "status": "proved",
   "theorems": [
    "C05_control_bytes",
    "C05_read_control"
   ],
   "note": ""
  },
  {
   "property": "C06",
   "status": "proved",
   "theorems": [
    "C06_image_framing",
    "C06_extension_framing"
   ],
   "note": ""
  },
  {
   "property": "C07",
   "status": "proved",
   "theorems": [
    "C07_faults_prefix",
    "C07_all_ok_bytes",
    "C07_into_inner_faults",
    "C07_new_faults_refuted"
   ],
   "note": "Proved for every writer behaviour. The exception (an error inside Encoder::new) is shown by C07_new_faults_refuted."
  },
  {
   "property": "C08",
   "status": "proved",
   "theorems": [
    "C08_into_inner_trailer",
    "C08_drop_trailer",
    "C08_session_bytes"
   ],
   "note": ""
  },
  {
   "property": "C09",
   "status": "proved",
   "theorems": [
    "C09_write_frame_accepts",
    "C09_global_palette"
   ],
   "note": ""
  },
  {
   "property": "C10",
   "status": "proved",
   "theorems": [
    "C10_refused_frame_unchanged_refuted",
    "C10_rejected_frame"
   ],
   "note": "The expected property is false: C10_refused_frame_unchanged_refuted. C10_rejected_frame is what holds for every frame and encoder."
  },
  {
   "property": "C11",
   "status": "proved",
   "theorems": [
    "C11_failed_new_untouched_refuted",
    "C11_failed_new_trailer"
   ],
   "note": "The expected property is false: C11_failed_new_untouched_refuted. C11_failed_new_trailer is what holds."
  },
  {
   "property": "C12",
   "status": "proved",
   "theorems": [
    "C12_code_size"
   ],
   "note": ""
  },
  {
   "property": "C13",
   "status": "proved",
   "theorems": [
    "C13_pre_encoded",
    "C13_history"
   ],
   "note": ""
  },
  {
   "property": "C14",
   "status": "proved",
   "theorems": [
    "C14_C15_decoder",
    "C14_C15_iterator",
    "C14_C15_frame_decoder",
    "C14_C15_frame_decoder_into",
    "C14_panic_32bit_refuted",
    "C14_buffer_size_32bit_refuted",
    "C14_bytes_once_refuted"
   ],
   "note": "Proved for every input and call sequence on 64-bit, and on 32-bit with a memory limit; the two _refuted theorems show the condition is needed. C14_bytes_once_refuted: the streaming decoder must be given again what it did not consume."
  },
  {
   "property": "C15",
   "status": "proved",
   "theorems": [
    "C14_C15_decoder",
    "C14_C15_iterator",
    "C14_C15_frame_decoder",
    "C14_C15_frame_decoder_into"
   ],
   "note": "Hang is an explicit result of the model; the theorems exclude it together with Panic."
  },
  {
   "property": "C16",
   "status": "proved",
   "theorems": [
    "C16_update_returns",
    "C16_update_after_trailer",
    "C16_update_returns_refuted"
   ],
   "note": "C16_update_returns: before the trailer event. C16_update_after_trailer: after it every call with a non-empty slice hangs; C16_update_returns_refuted is a reachable witness."
  },
  {
   "property": "C17",
   "status": "proved",
   "theorems": [
    "C17_C18_scan"
   ],
   "note": ""
  },
  {
   "property": "C18",
   "status": "proved",
   "theorems": [
    "C17_C18_scan",
    "C19_raw"
   ],
   "note": ""
  },
  {
   "property": "C19",
   "status": "proved",
   "theorems": [
    "C19_frames",
    "C19_info",
    "C19_iterator",
    "C19_raw",
    "C19_scan"
   ],
   "note": ""
  },
  {
   "property": "C20",
   "status": "proved",
   "theorems": [
    "C20_clean_end",
    "C20_truncated_frames",
    "C20_truncated_scan"
   ],
   "note": ""
  },
  {
   "property": "C21",
   "status": "proved",
   "theorems": [
    "C21_frame",
    "C21_item",
    "C21_extension"
   ],
   "note": ""
  },
  {
   "property": "C22",
   "status": "proved",
   "theorems": [
    "C22_kept",
    "C22_refused",
    "C22_decoder_kept",
    "C22_decoder_refused"
   ],
   "note": ""
  },
  {
   "property": "C23",
   "status": "proved",
   "theorems": [
    "C23_order",
    "C23_exhausted",
    "C23_total",
    "C23_permutation"
   ],
   "note": ""
  },
  {
   "property": "C24",
   "status": "proved",
   "theorems": [
    "C24_rows",
    "C24_length"
   ],
   "note": ""
  },
  {
   "property": "C25",
   "status": "proved",
   "theorems": [
    "C25_pixel",
    "C25_size"
   ],
   "note": ""
  },
  {
   "property": "C26",
   "status": "proved",
   "theorems": [
    "C19_frames",
    "C19_scan"
   ],
   "note": "C19_frames/C19_scan give the metadata of every frame as denoted by SpecGif.denote, where a control extension applies to the next image only."
  },
  {
   "property": "C27",
   "status": "proved",
   "theorems": [
    "C27_retry",
    "C27_frame_lost_refuted"
   ],
   "note": "C27_retry for metadata scanning; for read_next_frame the same is false: C27_frame_lost_refuted."
  },
  {
   "property": "C28",
   "status": "proved",
   "theorems": [
    "C28_iterator_fused_refuted",
    "C28_none",
    "C28_rowless",
    "C28_ended",
    "C19_iterator",
    "C29_stops"
   ],
   "note": "The expected property is false: C28_iterator_fused_refuted. C28_none and C28_rowless say exactly when a None is not the end; C28_ended, C29_stops and C19_iterator are the rest of what holds. Concrete cases C28_case, C28_end_case."
  },
  {
   "property": "C29",
   "status": "proved",
   "theorems": [
    "C29_stops"
   ],
   "note": ""
  },
  {
   "property": "C30",
   "status": "proved",
   "theorems": [
    "C30_end_code_skip_refuted",
    "C30_end_code_bytewise_refuted",
    "C30_end_check_frames",
    "C30_end_check_scan"
   ],
   "note": "What remains true is proved (only InvalidData, only after a correct beginning); the stronger expected property is false in two ways (two witnesses)."
  },
  {
   "property": "C31",
   "status": "proved",
   "theorems": [
    "C31_mixed",
    "C31_surplus_fill_refuted"
   ],
   "note": "Proved; C31_surplus_fill_refuted shows what a call of fill_buffer after false (forbidden by its documentation) does."
  },
  {
   "property": "C32",
   "status": "proved",
   "theorems": [
    "C32_inverts",
    "C32_unread"
   ],
   "note": ""
  },
  {
   "property": "C33",
   "status": "proved",
   "theorems": [
    "C33_rewrite",
    "C33_rewrite_code_size_1_refuted"
   ],
   "note": "Proved for minimum code sizes of at least 2; C33_rewrite_code_size_1_refuted for size 1."
  },
  {
   "property": "C34",
   "status": "proved",
   "theorems": [
    "C34_bg_color",
    "C34_bg_color_refuted"
   ],
   "note": "Proved when there is a global palette; C34_bg_color_refuted without one."
  },
  {
   "property": "C35",
   "status": "proved",
   "theorems": [
    "C35_empty_extension_refuted",
    "C35_unknown_label_refuted",
    "C35_session_report",
    "C35_extension_seen",
    "C35_session_complete",
    "C01_round_trip"
   ],
   "note": "C35_session_report/C35_session_complete: the streaming decoder's whole report of a written file, for every way of cutting it; C35_extension_seen: each raw extension is in it with label and payload. C01_round_trip: the frames are not disturbed. The two _refuted theorems are the unreadable cases (no data; unknown label)."
  },
  {
   "property": "C36",
   "status": "proved",
   "theorems": [
    "C36_unknown_block_skipped_refuted",
    "C36_frames",
    "C36_scan",
    "C36_unknown_label_refuted"
   ],
   "note": "Proved for unknown blocks whose last preceding extension is not a control extension; without that condition the expected property is false: witness. C36_unknown_label_refuted: the option does not cover extensions with an unknown label."
  },
  {
   "property": "C37",
   "status": "proved",
   "theorems": [
    "C37_rgba_panics",
    "C37_rgba_exact",
    "C37_rgba_alpha",
    "C37_rgba_buffer",
    "C37_rgb_panics",
    "C37_rgb_exact",
    "C37_two_transparent_refuted"
   ],
   "note": "All parts proved; C37_two_transparent_refuted shows why one transparent colour is required."
  },
  {
   "property": "C38",
   "status": "proved",
   "theorems": [
    "C38_palette_pixels",
    "C38_indexed_pixels"
   ],
   "note": ""
  },
  {
   "property": "C39",
   "status": "proved",
   "theorems": [
    "C39_palettes",
    "C39_screen_data"
   ],
   "note": ""
  },
  {
   "property": "C40",
   "status": "proved",
   "theorems": [
    "C40_own_buffers"
   ],
   "note": ""
  },
  {
   "property": "C41",
   "status": "proved",
   "theorems": [
    "C41_grammar",
    "C41_header_once",
    "C41_after_header",
    "C41_trailer_last"
   ],
   "note": ""
  },
  {
   "property": "C42",
   "status": "proved",
   "theorems": [
    "C19_frames"
   ],
   "note": "Part of C19_frames: the reader is left exactly at the bytes after the trailer."
  },
  {
   "property": "C43",
   "status": "proved",
   "theorems": [
    "C19_frames",
    "C19_scan"
   ],
   "note": "C19_frames/C19_scan (the scan for any image data, valid LZW or not): frames are those denoted by the file, whose image data may be longer than the pixels."
  },
  {
   "property": "C44",
   "status": "proved",
   "theorems": [
    "C44_zero_size_frame_refuted",
    "C44_no_pixels",
    "C44_frame_size"
   ],
   "note": "The expected property is false: C44_zero_size_frame_refuted. C44_no_pixels says exactly what happens instead, C44_frame_size gives the size of every frame returned. In indexed mode the kind of the error is not fixed (ImageTruncated, or an error of the data). Concrete case C44_case."
  },
  {
   "property": "C45",
   "status": "proved",
   "theorems": [
    "C45_empty_animation",
    "C45_empty_animation_refuted"
   ],
   "note": "Proved with at least one extension; C45_empty_animation_refuted without."
  },
  {
   "property": "C46",
   "status": "proved",
   "theorems": [
    "C46_longer_input",
    "C46_longer_input_info"
   ],
   "note": ""
  },
  {
   "property": "C47",
   "status": "proved",
   "theorems": [
    "C47_same_file",
    "C47_round_trip"
   ],
   "note": ""
  },
  {
   "property": "C48",
   "status": "proved",
   "theorems": [
    "C48_report",
    "C48_complete"
   ],
   "note": "For every well-formed file (SpecGif) (image data may be anything: they are not decoded), every cut into pieces and every option set without the strict end-code check."
  },
  {
   "property": "C49",
   "status": "proved",
   "theorems": [
    "C49_calls",
    "C49_takes"
   ],
   "note": "For every input, valid or not. The bound counts calls whose destination is not a pixel slice."
  },
  {
   "property": "C50",
   "status": "proved",
   "theorems": [
    "C50_truecolor",
    "C50_truecolor_exact"
   ],
   "note": "For pictures with at most 256 colours and at most one fully transparent colour (the other cases lose information by design or by C37_two_transparent_refuted). Concrete case C50_case."
  },
  {
   "property": "C51",
   "status": "proved",
   "theorems": [
    "C51_short_frames",
    "C51_short_iter",
    "C51_short_fill"
   ],
   "note": "For well-formed files without the end-code check. Concrete cases C51_case, C51_fill_case."
  },
  {
   "property": "C52",
   "status": "proved",
   "theorems": [
    "C52_frames",
    "C52_iter",
    "C52_raw",
    "C52_scan"
   ],
   "note": "For every continuation. Concrete case C52_case."
  },
  {
   "property": "C53",
   "status": "proved",
   "theorems": [
    "C53_frames",
    "C53_iter",
    "C53_raw",
    "C53_scan",
    "C53_refused",
    "C53_header_cut",
    "C53_signature"
   ],
   "note": "The kinds of damage are the constructors of SpecDamage.damage; an extension, a tolerated unknown block and an image before its data may be cut at any byte, and too much data is an error from the first byte beyond the limit on, whether or not the sub-block is whole; damage inside LZW data is C51 (short data) and C20 (cut off). Concrete cases C53_case, C53_more, C53_signature_case."
  },
  {
   "property": "C54",
   "status": "proved",
   "theorems": [
    "C54_reads",
    "C54_iterates",
    "C54_refuses",
    "C54_frame_decoder",
    "C54_file_frames",
    "C54_file_scan"
   ],
   "note": "The permissive and the strict run are compared step by step (Relax.v); order of options and refusals are in SpecOptions.v. Concrete cases C54_case, C54_reads_case, C54_memory_case."
  },
  {
   "property": "C55",
   "status": "proved",
   "theorems": [
    "C55_accessors",
    "C55_frame",
    "C55_enough",
    "C55_exact",
    "C55_short",
    "C55_fd_accessor",
    "C55_fd_frame",
    "C55_fd_enough",
    "C55_fd_exact",
    "C55_fd_short",
    "C55_file",
    "C55_interlaced_refuted"
   ],
   "note": "C55_interlaced_refuted shows why the immediate refusal of a short buffer is limited to frames that are not interlaced. A panic of buffer_size (32-bit targets) is the value None. Concrete cases C55_file_case, C55_exact_case, C55_enough_case, C55_short_case, C55_opened_case, C55_fd_case."
  },
  {
   "property": "C56",
   "status": "proved",
   "theorems": [
    "C56_order",
    "C56_parallel",
    "C56_explode",
    "C56_explode_result",
    "C56_parallel_result",
    "C56_check",
    "C56_check_reports",
    "C56_fuzz"
   ],
   "note": "The programs are modelled in Programs.v without arguments, file names and messages; the threads of parallel.rs are represented by an arbitrary permutation of the messages. C56_parallel needs lzw_eager like every theorem on FrameDecoder. Decoded pixels are assumed to be bytes (u8 in Rust). A file without images and loop count is excepted, see C45. Concrete cases C56_explode_case, C56_parallel_case, C56_order_case, C56_results_case."
  },
  {
   "property": "C57",
   "status": "proved",
   "theorems": [
    "C57_calls",
    "C57_loops",
    "C57_programs"
   ],
   "note": "The account of FrameCount.v: bytes read so far, without 13 per announced frame, are at least a number that depends on the decoder's state. Calls that fail end the claim (a failed call may offer bytes again); the loops concerned stop there. Programs: the bound on the turns of the model's loops is shown to be irrelevant. Cases C57_calls_case (57 bytes with 3 frames; the bound misses by the 6 bytes of the colour table), C57_loops_case, C57_programs_case."
  },
  {
   "property": "C58",
   "status": "proved",
   "theorems": [
    "C58_exact",
    "C58_collect",
    "C58_complete",
    "C58_session",
    "C58_empty_slice_refuted"
   ],
   "note": "C58_exact is for every reachable decoder on arbitrary bytes, also after errors. C58_collect needs check_for_end_code off when decoding (see C30) and, in C58_collect's claim that calls succeed, vectors within the memory limit. C58_empty_slice_refuted shows why slices must not be empty. Cases C58_exact_case, C58_collect_case, C58_raw_case, C58_session_case."
  },
  {
   "property": "C59",
   "status": "proved",
   "theorems": [
    "C59_verdicts",
    "C59_iter",
    "C59_raw",
    "C59_raw_recovery_refuted",
    "C59_corrupt_recovery_refuted"
   ],
   "note": "C59_verdicts: sensible requests, i.e. images with pixels, whole-pixel slices, buffers that fit in memory; check_for_end_code off. Zero-size images are covered by C44, zero-byte slices by C58. C59_raw_recovery_refuted is the witness for the unreliable recovery in skip_frame_decoding mode, C59_corrupt_recovery_refuted the one for going on after corrupt LZW data. Images that are skipped may hold any data. Cases C59_skip_case, C59_verdicts_case, C59_iter_case, C59_raw_case."
  },
  {
   "property": "C60",
   "status": "proved",
   "theorems": [
    "C60_settings",
    "C60_unique",
    "C60_defaults",
    "C60_frames"
   ],
   "note": "C60_frames: usize of 64 bits, images with pixels, check_for_end_code and skip_frame_decoding off (other modes: C20, C59). Cases C60_settings_case, C60_frames_case."
  },
  {
   "property": "C61",
   "status": "proved",
   "theorems": [
    "C61_open",
    "C61_calls",
    "C61_iter",
    "C61_frame_decoder"
   ],
   "note": "The codec is only assumed to respect its buffers (lzw_safe). Memory limits representable in isize as in C14. C61_all_errors_refuted: the exception for OutOfMemory is needed. Cases C61_calls_case, C61_iter_case, C61_frame_decoder_case."
  },
  {
   "property": "C62",
   "status": "proved",
   "theorems": [
    "C62_stream",
    "C62_header",
    "C62_calls",
    "C62_read",
    "C62_scan",
    "C62_regular"
   ],
   "note": "SpecAccept is an independent grammar (values and serialisation of SpecGif, conditions of its own). The codec is only assumed to respect its buffers (lzw_safe). C62_regular relates it to the stricter grammar of the other theorems. Cases C62_stream_case, C62_calls_case, C62_liberties_case, C62_empty_case."
  },
  {
   "property": "C63",
   "status": "proved",
   "theorems": [
    "C63_palette",
    "C63_many",
    "C63_rgb",
    "C63_speed"
   ],
   "note": "The quantiser (crate color_quant) is an arbitrary record of two functions. C63_speed is by definition; the other theorems are stated on pixels read off the byte list. Cases C63_palette_case, C63_many_case, C63_rgb_case."
  },
  {
   "property": "C64",
   "status": "proved",
   "theorems": [
    "C64_scan",
    "C64_exact",
    "C64_refused",
    "C64_stream",
    "C64_unique",
    "C64_regular"
   ],
   "note": "The forward direction to C62, for the same grammar. controlled_acc says which control data an image gets: an empty unknown block re-applies the last control extension, even after an image. C64_regular: for regular files these are the images of GIF89a. Cases C64_scan_case, C64_refused_case, C64_stream_case."
  },
  {
   "property": "C65",
   "status": "proved",
   "theorems": [
    "C65_events",
    "C65_forgotten",
    "C65_panics"
   ],
   "note": "Non-interference between two runs. Case C65_case: two images, the frame replaced before every call."
  },
  {
   "property": "C66",
   "status": "proved",
   "theorems": [
    "C66_any",
    "C66_file",
    "C66_read"
   ],
   "note": "Case C66_case meets the hypotheses of C66_file and C66_read."
  },
  {
   "property": "C67",
   "status": "proved",
   "theorems": [
    "C67_drop",
    "C67_into_inner",
    "C67_new",
    "C67_harmless",
    "C67_persistent",
    "C67_error_refuted"
   ],
   "note": "Proved for the true statement; the expected one is refuted by C67_error_refuted. Case C67_case."
  },
  {
   "property": "C68",
   "status": "proved",
   "theorems": [
    "C68_new",
    "C68_ext",
    "C68_header",
    "C68_label_refuted"
   ],
   "note": "Refinement per call. Cases C68_ext_case, C68_header_case; C68_label_refuted for the documented label 0."
  },
  {
   "property": "C69",
   "status": "proved",
   "theorems": [
    "C69_update",
    "C69_open",
    "C69_call",
    "C69_iter",
    "C69_streaming_returns",
    "C69_decoder_returns",
    "C69_starved",
    "C69_retry_refuted"
   ],
   "note": "Simulation: each call of the model with failing reservations equals the call of the model without, up to the first failure. C69_starved: without memory no data of the file are stored. Cases C69_case_*; C69_retry_refuted."
  },
  {
   "property": "C70",
   "status": "proved",
   "theorems": [
    "C70_call",
    "C70_spared",
    "C70_session",
    "C70_round_trip",
    "C70_damage_refuted",
    "C70_panic_refuted"
   ],
   "note": "Linearity of the failing call (EncOom.v), then C52 for the intact beginning. Case C70_case; C70_damage_refuted, C70_panic_refuted."
  },
  {
   "property": "C71",
   "status": "proved",
   "theorems": [
    "C71_streaming",
    "C71_decoder",
    "C71_all",
    "C71_reserve_refuted"
   ],
   "note": "Step invariant for the streaming decoder, induction over the converter's loops and over the calls (MemHeld.v). Lengths are counted, not capacities; the LZW tables and the BufReader's buffer are not. Cases C71_case, C71_case_streaming; C71_reserve_refuted."
  },
  {
   "property": "C72",
   "status": "proved",
   "theorems": [
    "C72_open",
    "C72_seek",
    "C72_frame",
    "C72_iterator",
    "C72_fill",
    "C72_into",
    "C72_fill_fresh",
    "C72_fill_parts",
    "C72_into_fresh",
    "C72_streaming",
    "C72_frame_decoder_into",
    "C72_frame_decoder",
    "C72_never",
    "C72_open_occurs",
    "C72_seek_occurs",
    "C72_frame_occurs",
    "C72_fill_occurs",
    "C72_into_occurs",
    "C72_fresh_occurs",
    "C72_streaming_occurs",
    "C72_frame_decoder_occurs"
   ],
   "note": "Phases of the stream with the errors and events possible in each, induction over the converter's loops (Errors.v). Each C72_..._occurs theorem computes a failing run for every error of the list. Failing reservations of memory are C69's."
  },
  {
   "property": "C73",
   "status": "proved",
   "theorems": [
    "C73_text",
    "C73_source",
    "C73_chain",
    "C73_distinct",
    "C73_from"
   ],
   "note": "The texts are copied from the source by hand (ErrorText.v); cases over the reasons. std::io::Error's own text and source are parameters. Case C73_chain_case."
  },
  {
   "property": "C74",
   "status": "proved",
   "theorems": [
    "C74_write_le",
    "C74_exists",
    "C74_unique"
   ],
   "note": "Digits by induction; u32 and u64 are built from u16 as in the source (WriteLe.v). Case C74_case."
  },
  {
   "property": "C75",
   "status": "proved",
   "theorems": [
    "C75_new",
    "C75_call",
    "C75_file"
   ],
   "note": "Exact, for every call and result. The length of the compressed data is that of weezl's output (contract)."
  },
  {
   "property": "C76",
   "status": "proved",
   "theorems": [
    "C76_files",
    "C76_no_blocks_refuted"
   ],
   "note": "Proved for files with at least one block (gif_ok); C76_no_blocks_refuted is the exception."
  },
  {
   "property": "C77",
   "status": "proved",
   "theorems": [
    "C77_fill",
    "C77_program",
    "C77_larger_slice_refuted"
   ],
   "note": "Proved for fill_buffer and next_frame_info; C77_larger_slice_refuted is the lost position with larger slices. read_next_frame loses the frame (C27_frame_lost_refuted)."
  },
  {
   "property": "C78",
   "status": "proved",
   "theorems": [
    "C78_rgba_fits",
    "C78_rgba_checked",
    "C78_rgba_wrapped",
    "C78_refused",
    "C78_rgb",
    "C78_length_refuted"
   ],
   "note": "Exact characterisation; C78_length_refuted shows the documented panic missing: 4 bytes pass for an image of 17173 x 62525 and its compressed form is written."
  },
  {
   "property": "C79",
   "status": "proved",
   "theorems": [
    "C79_reported",
    "C79_iterator",
    "C79_any_data",
    "C79_settled_refuted"
   ],
   "note": "Exact characterisation; C79_settled_refuted shows that for exactly as many pixels as needed the verdict depends on how the reader splits the file, so no theorem can settle that case."
  },
  {
   "property": "C80",
   "status": "proved",
   "theorems": [
    "C80_verdicts",
    "C80_total",
    "C80_into",
    "C80_into_bad",
    "C80_later"
   ],
   "note": "With an invalid code behind exactly as many pixels as a call asks for, either answer is allowed (the LZW contract does not settle how far one call looks ahead). C80_into covers data without invalid codes, C80_into_bad data with one; both are for frames with pixels."
  },
  {
   "property": "C81",
   "status": "proved",
   "theorems": [
    "C81_sound_checked",
    "C81_any",
    "C81_raw_any",
    "C81_damaged",
    "C81_total",
    "C81_sound",
    "C81_complete",
    "C81_raw",
    "C81_raw_exact",
    "C81_wellformed"
   ],
   "note": "C81_sound_checked: soundness also with the check for end codes"
  },
  {
   "property": "C82",
   "status": "proved",
   "theorems": [
    "C82_pixels_checked",
    "C82_pixels",
    "C82_raw",
    "C82_raw_decoded",
    "C82_twice",
    "C82_raw_twice",
    "C82_no_data_refuted",
    "C82_no_rows_refuted",
    "C82_late_refuted"
   ],
   "note": "the statement holds with the provisos (a pixel per frame, data in raw frames, which C82_no_data_refuted and C82_no_rows_refuted show to be needed); copies are read without the check for the end code (C82_pixels_checked allows it for the original); that the exception for decoded copies of compressed frames is real is shown by C82_late_refuted"
  },
  {
   "property": "C83",
   "status": "proved",
   "theorems": [
    "C83_into",
    "C83_fill",
    "C83_surplus",
    "C83_file",
    "C83_frame_decoder",
    "C83_update",
    "C83_rgba_refuted"
   ],
   "note": "the difference for RGBA output is shown by C83_rgba_refuted"
  },
  {
   "property": "C84",
   "status": "proved",
   "theorems": [
    "C84_values",
    "C84_block",
    "C84_extension",
    "C84_disposal"
   ],
   "note": ""
  },
  {
   "property": "C85",
   "status": "proved",
   "theorems": [
    "C85_ends",
    "C85_calls",
    "C85_refused"
   ],
   "note": "What an end code is comes from the contract lzw_ends of the codec; for the reference codec it is LzwEnds.halts."
  },
  {
   "property": "C86",
   "status": "proved",
   "theorems": [
    "C86_written"
   ],
   "note": "That the library's encoder emits an end code is the assumption lzw_marks, proved for the reference codec."
  },
  {
   "property": "C87",
   "status": "proved",
   "theorems": [
    "C87_items",
    "C87_ends",
    "C87_fails",
    "C87_sound",
    "C87_end_codes"
   ],
   "note": "C87_sound and C87_end_codes carry C81_sound and C85_ends over to the iterator. That a None may come early is the finding of C28."
  },
  {
   "property": "C88",
   "status": "proved",
   "theorems": [
    "C88_reasons",
    "C88_open",
    "C88_info",
    "C88_frame",
    "C88_iter",
    "C88_empty",
    "C88_fill",
    "C88_into"
   ],
   "note": "The converse of C53. For InvalidData the theorem says that the fault is in the data of an image, not which code is wrong (C79 says that for invalid codes). I/O errors of Decoder are not covered here (C27, C69). For 'image truncated' the theorem says that the image has ended in the file, not how many pixels it has (the theorems of C81 on SpecSound.refused compare the numbers of pixels). For the calls with a buffer of the caller, 'unexpected data' is allowed without a reason (it depends on when the call is made)."
  }
 ]
}