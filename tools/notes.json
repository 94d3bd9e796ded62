{
 "C01": "All sessions, readers and read schedules; over every LZW codec meeting lzw_spec (instance lzw_ref proved to meet it). Concrete case C01_case.",
 "C07": "Proved for every writer behaviour. The exception (an error inside Encoder::new) is shown by C07_new_faults_refuted.",
 "C10": "The expected property is false: C10_refused_frame_unchanged_refuted. C10_rejected_frame is what holds for every frame and encoder.",
 "C11": "The expected property is false: C11_failed_new_untouched_refuted. C11_failed_new_trailer is what holds.",
 "C14": "Proved for every input and call sequence on 64-bit, and on 32-bit with a memory limit; the two _refuted theorems show the condition is needed. C14_bytes_once_refuted: the streaming decoder must be given again what it did not consume.",
 "C15": "Hang is an explicit result of the model; the theorems exclude it together with Panic.",
 "C16": "C16_update_returns: before the trailer event. C16_update_after_trailer: after it every call with a non-empty slice hangs; C16_update_returns_refuted is a reachable witness.",
 "C26": "C19_frames/C19_scan give the metadata of every frame as denoted by SpecGif.denote, where a control extension applies to the next image only.",
 "C27": "C27_retry for metadata scanning; for read_next_frame the same is false: C27_frame_lost_refuted.",
 "C28": "The expected property is false: C28_iterator_fused_refuted. C28_none and C28_rowless say exactly when a None is not the end; C28_ended, C29_stops and C19_iterator are the rest of what holds. Concrete cases C28_case, C28_end_case.",
 "C30": "What remains true is proved (only InvalidData, only after a correct beginning); the stronger expected property is false in two ways (two witnesses).",
 "C33": "Proved for minimum code sizes of at least 2; C33_rewrite_code_size_1_refuted for size 1.",
 "C34": "Proved when there is a global palette; C34_bg_color_refuted without one.",
 "C35": "C35_session_report/C35_session_complete: the streaming decoder's whole report of a written file, for every way of cutting it; C35_extension_seen: each raw extension is in it with label and payload. C01_round_trip: the frames are not disturbed. The two _refuted theorems are the unreadable cases (no data; unknown label).",
 "C36": "Proved for unknown blocks whose last preceding extension is not a control extension; without that condition the expected property is false: witness. C36_unknown_label_refuted: the option does not cover extensions with an unknown label.",
 "C37": "All parts proved; C37_two_transparent_refuted shows why one transparent colour is required.",
 "C42": "Part of C19_frames: the reader is left exactly at the bytes after the trailer.",
 "C43": "C19_frames/C19_scan (the scan for any image data, valid LZW or not): frames are those denoted by the file, whose image data may be longer than the pixels.",
 "C44": "The expected property is false: C44_zero_size_frame_refuted. C44_no_pixels says exactly what happens instead, C44_frame_size gives the size of every frame returned. In indexed mode the kind of the error is not fixed (ImageTruncated, or an error of the data). Concrete case C44_case.",
 "C45": "Proved with at least one extension; C45_empty_animation_refuted without.",
 "C48": "For every well-formed file (SpecGif) (image data may be anything: they are not decoded), every cut into pieces and every option set without the strict end-code check.",
 "C49": "For every input, valid or not. The bound counts calls whose destination is not a pixel slice.",
 "C50": "For pictures with at most 256 colours and at most one fully transparent colour (the other cases lose information by design or by C37_two_transparent_refuted). Concrete case C50_case.",
 "C51": "For well-formed files without the end-code check. Concrete cases C51_case, C51_fill_case.",
 "C52": "For every continuation. Concrete case C52_case.",
 "C53": "The kinds of damage are the constructors of SpecDamage.damage; an extension, a tolerated unknown block and an image before its data may be cut at any byte, and too much data is an error from the first byte beyond the limit on, whether or not the sub-block is whole; damage inside LZW data is C51 (short data) and C20 (cut off). Concrete cases C53_case, C53_more, C53_signature_case.",
 "C54": "The permissive and the strict run are compared step by step (Relax.v); order of options and refusals are in SpecOptions.v. Concrete cases C54_case, C54_reads_case, C54_memory_case.",
 "C55": "C55_interlaced_refuted shows why the immediate refusal of a short buffer is limited to frames that are not interlaced. A panic of buffer_size (32-bit targets) is the value None. Concrete cases C55_file_case, C55_exact_case, C55_enough_case, C55_short_case, C55_opened_case, C55_fd_case.",
 "C56": "The programs are modelled in Programs.v without arguments, file names and messages; the threads of parallel.rs are represented by an arbitrary permutation of the messages. C56_parallel needs lzw_eager like every theorem on FrameDecoder. Decoded pixels are assumed to be bytes (u8 in Rust). A file without images and loop count is excepted, see C45. Concrete cases C56_explode_case, C56_parallel_case, C56_order_case, C56_results_case.",
 "C57": "The account of FrameCount.v: bytes read so far, without 13 per announced frame, are at least a number that depends on the decoder's state. Calls that fail end the claim (a failed call may offer bytes again); the loops concerned stop there. Programs: the bound on the turns of the model's loops is shown to be irrelevant. Cases C57_calls_case (57 bytes with 3 frames; the bound misses by the 6 bytes of the colour table), C57_loops_case, C57_programs_case.",
 "C58": "C58_exact is for every reachable decoder on arbitrary bytes, also after errors. C58_collect needs check_for_end_code off when decoding (see C30) and, in C58_collect's claim that calls succeed, vectors within the memory limit. C58_empty_slice_refuted shows why slices must not be empty. Cases C58_exact_case, C58_collect_case, C58_raw_case, C58_session_case.",
 "C59": "C59_verdicts: sensible requests, i.e. images with pixels, whole-pixel slices, buffers that fit in memory; check_for_end_code off. Zero-size images are covered by C44, zero-byte slices by C58. C59_raw_recovery_refuted is the witness for the unreliable recovery in skip_frame_decoding mode, C59_corrupt_recovery_refuted the one for going on after corrupt LZW data. Images that are skipped may hold any data. Cases C59_skip_case, C59_verdicts_case, C59_iter_case, C59_raw_case.",
 "C60": "C60_frames: usize of 64 bits, images with pixels, check_for_end_code and skip_frame_decoding off (other modes: C20, C59). Cases C60_settings_case, C60_frames_case.",
 "C61": "The codec is only assumed to respect its buffers (lzw_safe). Memory limits representable in isize as in C14. C61_all_errors_refuted: the exception for OutOfMemory is needed. Cases C61_calls_case, C61_iter_case, C61_frame_decoder_case.",
 "C62": "SpecAccept is an independent grammar (values and serialisation of SpecGif, conditions of its own). The codec is only assumed to respect its buffers (lzw_safe). C62_regular relates it to the stricter grammar of the other theorems. Cases C62_stream_case, C62_calls_case, C62_liberties_case, C62_empty_case.",
 "C63": "The quantiser (crate color_quant) is an arbitrary record of two functions. C63_speed is by definition; the other theorems are stated on pixels read off the byte list. Cases C63_palette_case, C63_many_case, C63_rgb_case.",
 "C64": "The forward direction to C62, for the same grammar. controlled_acc says which control data an image gets: an empty unknown block re-applies the last control extension, even after an image. C64_regular: for regular files these are the images of GIF89a. Cases C64_scan_case, C64_refused_case, C64_stream_case.",
 "C65": "Non-interference between two runs. Case C65_case: two images, the frame replaced before every call.",
 "C66": "Case C66_case meets the hypotheses of C66_file and C66_read.",
 "C67": "Proved for the true statement; the expected one is refuted by C67_error_refuted. Case C67_case.",
 "C68": "Refinement per call. Cases C68_ext_case, C68_header_case; C68_label_refuted for the documented label 0.",
 "C69": "Simulation: each call of the model with failing reservations equals the call of the model without, up to the first failure. C69_starved: without memory no data of the file are stored. Cases C69_case_*; C69_retry_refuted.",
 "C70": "Linearity of the failing call (EncOom.v), then C52 for the intact beginning. Case C70_case; C70_damage_refuted, C70_panic_refuted.",
 "C71": "Step invariant for the streaming decoder, induction over the converter's loops and over the calls (MemHeld.v). Lengths are counted, not capacities; the LZW tables and the BufReader's buffer are not. Cases C71_case, C71_case_streaming; C71_reserve_refuted.",
 "C72": "Phases of the stream with the errors and events possible in each, induction over the converter's loops (Errors.v). Each C72_..._occurs theorem computes a failing run for every error of the list. Failing reservations of memory are C69's.",
 "C73": "The texts are copied from the source by hand (ErrorText.v); cases over the reasons. std::io::Error's own text and source are parameters. Case C73_chain_case.",
 "C74": "Digits by induction; u32 and u64 are built from u16 as in the source (WriteLe.v). Case C74_case.",
 "C02": "Proved for every session; C02_no_palette_refuted is the documented exception that fails: an empty palette is written as a table of two black colours and read back as such.",
 "C31": "Proved; C31_surplus_fill_refuted shows what a call of fill_buffer after false (forbidden by its documentation) does.",
 "C75": "Exact, for every call and result. The length of the compressed data is that of weezl's output (contract).",
 "C76": "Proved for files with at least one block (gif_ok); C76_no_blocks_refuted is the exception.",
 "C77": "Proved for fill_buffer and next_frame_info; C77_larger_slice_refuted is the lost position with larger slices. read_next_frame loses the frame (C27_frame_lost_refuted).",
 "C78": "Exact characterisation; C78_length_refuted shows the documented panic missing: 4 bytes pass for an image of 17173 x 62525 and its compressed form is written.",
 "C79": "Exact characterisation; C79_settled_refuted shows that for exactly as many pixels as needed the verdict depends on how the reader splits the file, so no theorem can settle that case.",
 "C80": "With an invalid code behind exactly as many pixels as a call asks for, either answer is allowed (the LZW contract does not settle how far one call looks ahead). C80_into covers data without invalid codes, C80_into_bad data with one; both are for frames with pixels.",
 "C81": "C81_sound_checked: soundness also with the check for end codes",
 "C82": "the statement holds with the provisos (a pixel per frame, data in raw frames, which C82_no_data_refuted and C82_no_rows_refuted show to be needed); copies are read without the check for the end code (C82_pixels_checked allows it for the original); that the exception for decoded copies of compressed frames is real is shown by C82_late_refuted",
 "C83": "the difference for RGBA output is shown by C83_rgba_refuted",
 "C84": "",
 "C85": "What an end code is comes from the contract lzw_ends of the codec; for the reference codec it is LzwEnds.halts.",
 "C86": "That the library's encoder emits an end code is the assumption lzw_marks, proved for the reference codec.",
 "C87": "C87_sound and C87_end_codes carry C81_sound and C85_ends over to the iterator. That a None may come early is the finding of C28.",
 "C88": "The converse of C53. For InvalidData the theorem says that the fault is in the data of an image, not which code is wrong (C79 says that for invalid codes). I/O errors of Decoder are not covered here (C27, C69). For 'image truncated' the theorem says that the image has ended in the file, not how many pixels it has (the theorems of C81 on SpecSound.refused compare the numbers of pixels). For the calls with a buffer of the caller, 'unexpected data' is allowed without a reason (it depends on when the call is made)."
}
