{
 "claims": [
  {
   "property": "C01",
   "status": "proved",
   "theorems": [
    "C01_scripts",
    "C01_readers",
    "C01_metadata",
    "C01_block"
   ],
   "note": ""
  },
  {
   "property": "C02",
   "status": "proved",
   "theorems": [
    "C02_buffered_reader",
    "C02_cursor"
   ],
   "note": ""
  },
  {
   "property": "C03",
   "status": "partial",
   "theorems": [
    "C03_refuted",
    "C03_replays_last_chunk"
   ],
   "note": "The property as stated is false; refuted with a witness, and the exact behaviour (the last chunk is delivered again after an error) is proved."
  },
  {
   "property": "C04",
   "status": "proved",
   "theorems": [
    "C04_buffered_reader",
    "C04_stereo_samples"
   ],
   "note": ""
  },
  {
   "property": "C05",
   "status": "proved",
   "theorems": [
    "C05_bits_of_the_stream",
    "C05_short_runs",
    "C05_buffered_reader_is_a_stream",
    "C05_cursor_is_a_stream"
   ],
   "note": "C80 has no proviso on the input."
  },
  {
   "property": "C06",
   "status": "proved",
   "theorems": [
    "C06_no_over_read"
   ],
   "note": "C80 has no proviso on the input."
  },
  {
   "property": "C07",
   "status": "proved",
   "theorems": [
    "C07_unary_exact"
   ],
   "note": ""
  },
  {
   "property": "C08",
   "status": "proved",
   "theorems": [
    "C08_crc8",
    "C08_unique"
   ],
   "note": ""
  },
  {
   "property": "C09",
   "status": "proved",
   "theorems": [
    "C09_crc16",
    "C09_unique"
   ],
   "note": ""
  },
  {
   "property": "C10",
   "status": "proved",
   "theorems": [
    "C10_checksums"
   ],
   "note": ""
  },
  {
   "property": "C11",
   "status": "proved",
   "theorems": [
    "C11_detected"
   ],
   "note": ""
  },
  {
   "property": "C12",
   "status": "proved",
   "theorems": [
    "C12_detected"
   ],
   "note": ""
  },
  {
   "property": "C13",
   "status": "proved",
   "theorems": [
    "C13_decoded",
    "C13_all_numbers",
    "C13_malformed",
    "C13_only"
   ],
   "note": ""
  },
  {
   "property": "C14",
   "status": "partial",
   "theorems": [
    "C14_partial",
    "C14_refuted"
   ],
   "note": "The property as stated is false: a first byte 0xff is accepted and gives up to 42 bits (C14_refuted, with a witness header). Proved instead: below 2^42 always, below 2^36 unless the number starts with 0xff."
  },
  {
   "property": "C15",
   "status": "proved",
   "theorems": [
    "C15_decoded",
    "C15_only"
   ],
   "note": ""
  },
  {
   "property": "C16",
   "status": "proved",
   "theorems": [
    "C16_header",
    "C16_frame"
   ],
   "note": ""
  },
  {
   "property": "C17",
   "status": "proved",
   "theorems": [
    "C17_extend_sign_u32",
    "C17_extend_sign_u16",
    "C17_other_widths"
   ],
   "note": ""
  },
  {
   "property": "C18",
   "status": "proved",
   "theorems": [
    "C18_even",
    "C18_odd",
    "C18_bijection"
   ],
   "note": ""
  },
  {
   "property": "C19",
   "status": "proved",
   "theorems": [
    "C19_rice",
    "C19_rice2"
   ],
   "note": ""
  },
  {
   "property": "C20",
   "status": "proved",
   "theorems": [
    "C20_rejected",
    "C20_accepted",
    "C20_only"
   ],
   "note": ""
  },
  {
   "property": "C21",
   "status": "proved",
   "theorems": [
    "C21_fixed_prediction"
   ],
   "note": ""
  },
  {
   "property": "C22",
   "status": "proved",
   "theorems": [
    "C22_lpc_prediction",
    "C22_fast_path"
   ],
   "note": ""
  },
  {
   "property": "C23",
   "status": "proved",
   "theorems": [
    "C23_restored",
    "C23_rejected"
   ],
   "note": ""
  },
  {
   "property": "C24",
   "status": "proved",
   "theorems": [
    "C24_complete",
    "C24_sound",
    "C24_total"
   ],
   "note": ""
  },
  {
   "property": "C25",
   "status": "proved",
   "theorems": [
    "C25_left_side",
    "C25_right_side",
    "C25_mid_side"
   ],
   "note": ""
  },
  {
   "property": "C26",
   "status": "proved",
   "theorems": [
    "C26_decoded",
    "C26_round_trip"
   ],
   "note": ""
  },
  {
   "property": "C27",
   "status": "partial",
   "theorems": [
    "C27_partial",
    "C27_refuted"
   ],
   "note": "Proved for debug builds and for inputs without a run of 2^32-1 zero bits. Without that restriction it is false in release builds (C27_refuted): a unary count of 2^32 wraps to 0. What release builds accept on any input is exactly C81."
  },
  {
   "property": "C28",
   "status": "proved",
   "theorems": [
    "C28_in_order",
    "C28_to_the_end"
   ],
   "note": ""
  },
  {
   "property": "C29",
   "status": "proved",
   "theorems": [
    "C29_buffers",
    "C29_size"
   ],
   "note": ""
  },
  {
   "property": "C30",
   "status": "proved",
   "theorems": [
    "C30_open",
    "C30_open_source",
    "C30_calls",
    "C30_calls_source",
    "C30_calls_memory",
    "C30_metadata",
    "C30_metadata_iterator"
   ],
   "note": ""
  },
  {
   "property": "C31",
   "status": "partial",
   "theorems": [
    "C31_refuted"
   ],
   "note": "The property is false (C31_refuted): a debug build panics on 2^29 zero bytes inside a subframe header. C30 is the version that holds. C82 says on exactly which inputs."
  },
  {
   "property": "C32",
   "status": "proved",
   "theorems": [
    "C32_truncated"
   ],
   "note": ""
  },
  {
   "property": "C33",
   "status": "partial",
   "theorems": [
    "C33_partial",
    "C33_end",
    "C33_refuted"
   ],
   "note": "The property as stated is false: a single trailing byte is reported as a clean end (C33_refuted). Proved instead: a clean end means that at most one byte was left."
  },
  {
   "property": "C34",
   "status": "proved",
   "theorems": [
    "C34_frames",
    "C34_metadata"
   ],
   "note": ""
  },
  {
   "property": "C35",
   "status": "proved",
   "theorems": [
    "C35_holds",
    "C35_decoded",
    "C35_len",
    "C35_channel",
    "C35_no_channel",
    "C35_sample",
    "C35_no_sample",
    "C35_unique"
   ],
   "note": ""
  },
  {
   "property": "C36",
   "status": "proved",
   "theorems": [
    "C36_pairs",
    "C36_other"
   ],
   "note": ""
  },
  {
   "property": "C37",
   "status": "partial",
   "theorems": [
    "C37_own",
    "C37_variable",
    "C37_fixed_partial",
    "C37_refuted"
   ],
   "note": "Proved for variable-blocksize streams and for fixed-blocksize streams of equal blocks. With a shorter last block the property is false (C37_refuted): its time is its frame number times its own size."
  },
  {
   "property": "C38",
   "status": "proved",
   "theorems": [
    "C38_blocks",
    "C38_samples"
   ],
   "note": ""
  },
  {
   "property": "C39",
   "status": "proved",
   "theorems": [
    "C39_samples",
    "C39_any"
   ],
   "note": ""
  },
  {
   "property": "C40",
   "status": "proved",
   "theorems": [
    "C40_validated",
    "C40_all",
    "C40_unique",
    "C40_length"
   ],
   "note": ""
  },
  {
   "property": "C41",
   "status": "proved",
   "theorems": [
    "C41_block",
    "C41_large_types",
    "C41_with_header",
    "C41_accepted"
   ],
   "note": ""
  },
  {
   "property": "C42",
   "status": "proved",
   "theorems": [
    "C42_iterator"
   ],
   "note": ""
  },
  {
   "property": "C43",
   "status": "proved",
   "theorems": [
    "C43_round_trip"
   ],
   "note": ""
  },
  {
   "property": "C44",
   "status": "proved",
   "theorems": [
    "C44_well_formed"
   ],
   "note": ""
  },
  {
   "property": "C45",
   "status": "proved",
   "theorems": [
    "C45_tags",
    "C45_file",
    "C45_values"
   ],
   "note": ""
  },
  {
   "property": "C46",
   "status": "proved",
   "theorems": [
    "C46_block",
    "C46_block_total",
    "C46_too_large",
    "C46_with_header",
    "C46_iterator",
    "C46_open",
    "C46_frame",
    "C46_whole",
    "C46_source",
    "C46_memory",
    "C46_traced_open",
    "C46_traced_block",
    "C46_traced_header",
    "C46_traced_iterator",
    "C46_traced_frame"
   ],
   "note": ""
  },
  {
   "property": "C47",
   "status": "proved",
   "theorems": [
    "C47_exactly",
    "C47_accepted",
    "C47_new"
   ],
   "note": ""
  },
  {
   "property": "C48",
   "status": "partial",
   "theorems": [
    "C48_after_comment",
    "C48_after_second_partial",
    "C48_refuted"
   ],
   "note": "C48_refuted: with metadata_only and without read_vorbis_comment one block after the streaminfo is still read, so its bytes decide whether opening succeeds. C48_after_comment proves the property when the Vorbis comment is wanted, C48_after_second_partial what holds without it."
  },
  {
   "property": "C49",
   "status": "proved",
   "theorems": [
    "C49_exactly",
    "C49_access",
    "C49_streaminfo",
    "C49_accepted"
   ],
   "note": ""
  },
  {
   "property": "C50",
   "status": "proved",
   "theorems": [
    "C50_file",
    "C50_new",
    "C50_round_trip"
   ],
   "note": ""
  },
  {
   "property": "C51",
   "status": "proved",
   "theorems": [
    "C51_error_equality",
    "C51_symmetric",
    "C51_transitive"
   ],
   "note": ""
  },
  {
   "property": "C52",
   "status": "proved",
   "theorems": [
    "C52_only",
    "C52_always"
   ],
   "note": ""
  },
  {
   "property": "C53",
   "status": "proved",
   "theorems": [
    "C53_block",
    "C53_with_header",
    "C53_iterator",
    "C53_open"
   ],
   "note": ""
  },
  {
   "property": "C54",
   "status": "proved",
   "theorems": [
    "C54_only"
   ],
   "note": ""
  },
  {
   "property": "C55",
   "status": "proved",
   "theorems": [
    "C55_block",
    "C55_loop",
    "C55_none",
    "C55_once",
    "C55_samples"
   ],
   "note": ""
  },
  {
   "property": "C56",
   "status": "proved",
   "theorems": [
    "C56_id3",
    "C56_other",
    "C56_short"
   ],
   "note": ""
  },
  {
   "property": "C57",
   "status": "proved",
   "theorems": [
    "C57_bytes",
    "C57_open",
    "C57_frames",
    "C57_calls"
   ],
   "note": ""
  },
  {
   "property": "C58",
   "status": "proved",
   "theorems": [
    "C58_open",
    "C58_calls",
    "C58_iterator",
    "C58_metadata",
    "C58_bytes"
   ],
   "note": ""
  },
  {
   "property": "C59",
   "status": "proved",
   "theorems": [
    "C59_open",
    "C59_calls",
    "C59_calls_memory",
    "C59_same",
    "C59_metadata",
    "C59_bytes",
    "C59_bits"
   ],
   "note": ""
  },
  {
   "property": "C60",
   "status": "proved",
   "theorems": [
    "C60_calls",
    "C60_file",
    "C60_new"
   ],
   "note": ""
  },
  {
   "property": "C61",
   "status": "proved",
   "theorems": [
    "C61_progress",
    "C61_loop_ends"
   ],
   "note": ""
  },
  {
   "property": "C62",
   "status": "proved",
   "theorems": [
    "C62_reported",
    "C62_explained",
    "C62_cases",
    "C62_one_fault",
    "C62_fault_or_frame"
   ],
   "note": "For inputs without 2^32 - 1 zeros in a row; C83 has no such proviso."
  },
  {
   "property": "C63",
   "status": "proved",
   "theorems": [
    "C63_content_reported",
    "C63_content_cases",
    "C63_block_reported",
    "C63_block_cases",
    "C63_iterator",
    "C63_open_reported",
    "C63_open_cases",
    "C63_new_ext_reported",
    "C63_new_ext_cases",
    "C63_one_fault",
    "C63_fault_or_open",
    "C63_one_block_fault",
    "C63_fault_or_block"
   ],
   "note": ""
  },
  {
   "property": "C64",
   "status": "proved",
   "theorems": [
    "C64_missing",
    "C64_open",
    "C64_fault_reported",
    "C64_default"
   ],
   "note": ""
  },
  {
   "property": "C65",
   "status": "proved",
   "theorems": [
    "C65_display",
    "C65_cause",
    "C65_io"
   ],
   "note": ""
  },
  {
   "property": "C66",
   "status": "proved",
   "theorems": [
    "C66_simple",
    "C66_simple_missing",
    "C66_simple_cases",
    "C66_stereo",
    "C66_stereo_missing",
    "C66_stereo_others",
    "C66_stereo_safe"
   ],
   "note": ""
  },
  {
   "property": "C67",
   "status": "proved",
   "theorems": [
    "C67_ogg",
    "C67_ogg_cases",
    "C67_mp4",
    "C67_mp4_cases"
   ],
   "note": ""
  },
  {
   "property": "C68",
   "status": "proved",
   "theorems": [
    "C68_header",
    "C68_single_block",
    "C68_full",
    "C68_diff"
   ],
   "note": ""
  },
  {
   "property": "C69",
   "status": "proved",
   "theorems": [
    "C69_printed",
    "C69_cases"
   ],
   "note": ""
  },
  {
   "property": "C70",
   "status": "proved",
   "theorems": [
    "C70_decomposition",
    "C70_bounded"
   ],
   "note": ""
  },
  {
   "property": "C71",
   "status": "proved",
   "theorems": [
    "C71_frames",
    "C71_samples",
    "C71_decoded",
    "C71_only",
    "C71_reader_is_a_stream",
    "C71_open"
   ],
   "note": "C71_frames, C71_samples: step by step; C71_decoded, C71_only: the accepted frames; C71_reader_is_a_stream, C71_open: the buffer size."
  },
  {
   "property": "C72",
   "status": "proved",
   "theorems": [
    "C72_frames",
    "C72_samples",
    "C72_buffers",
    "C72_header",
    "C72_single_block",
    "C72_full",
    "C72_diff"
   ],
   "note": "The four targets, and the statements about frames, samples and buffers they rest on."
  },
  {
   "property": "C73",
   "status": "proved",
   "theorems": [
    "C73_rms",
    "C73_rms_overflow",
    "C73_rms_fault",
    "C73_wav",
    "C73_artist",
    "C73_missing",
    "C73_unopened"
   ],
   "note": "Sums of squares in floating point are not modelled: the theorem gives the samples that are added up, and their number."
  },
  {
   "property": "C74",
   "status": "proved",
   "theorems": [
    "C74_decode",
    "C74_unopened",
    "C74_percentiles",
    "C74_runs",
    "C74_bytes",
    "C74_rank",
    "C74_no_allocation",
    "C74_refuted"
   ],
   "note": "C74_refuted: the program's comment that the position of the cursor is the number of metadata bytes; C74_decode with C74_bytes: what holds. Quotients are exact in the model, not floating point."
  },
  {
   "property": "C75",
   "status": "proved",
   "theorems": [
    "C75_rate",
    "C75_fault",
    "C75_unopened",
    "C75_count"
   ],
   "note": "C75_rate with C75_count; C75_fault."
  },
  {
   "property": "C76",
   "status": "proved",
   "theorems": [
    "C76_bytes",
    "C76_missing",
    "C76_unopened"
   ],
   "note": "C76_bytes, C76_missing."
  },
  {
   "property": "C77",
   "status": "proved",
   "theorems": [
    "C77_header",
    "C77_frame",
    "C77_frames",
    "C77_file",
    "C77_unopened",
    "C77_not_both",
    "C77_one"
   ],
   "note": "About the specification; proved with the decoder, which is a function, as a witness."
  },
  {
   "property": "C78",
   "status": "proved",
   "theorems": [
    "C78_apart"
   ],
   "note": "Both readers opened with the default options; results up to the first failure of the source."
  },
  {
   "property": "C79",
   "status": "proved",
   "theorems": [
    "C79_samples",
    "C79_all_channels",
    "C79_streaminfo",
    "C79_lines"
   ],
   "note": "C79_samples with C79_all_channels; C79_streaminfo, C79_lines. What flac and metaflac print is a parameter."
  },
  {
   "property": "C80",
   "status": "proved",
   "theorems": [
    "C80_any_bits",
    "C80_no_over_read"
   ],
   "note": "C05 and C06 without their proviso on the input."
  },
  {
   "property": "C81",
   "status": "proved",
   "theorems": [
    "C81_decoded",
    "C81_only",
    "C81_frames",
    "C81_others",
    "C81_more"
   ],
   "note": "C81_decoded and C81_only are the two directions; C81_frames, C81_others and C81_more compare the accepted strings with the well-formed frames."
  },
  {
   "property": "C82",
   "status": "proved",
   "theorems": [
    "C82_panics",
    "C82_otherwise",
    "C82_some"
   ],
   "note": "C82_panics and C82_otherwise are the two directions; C82_some is a witness."
  },
  {
   "property": "C83",
   "status": "proved",
   "theorems": [
    "C83_debug",
    "C83_release",
    "C83_reported",
    "C83_explained",
    "C83_faults",
    "C83_others",
    "C83_one_fault",
    "C83_fault_or_frame",
    "C83_overflow_or_frame",
    "C83_overflow_or_fault"
   ],
   "note": "C83_debug and C83_release are the case distinctions; the others say that they exclude each other, and relate the faults of a release build to those of C62."
  },
  {
   "property": "C84",
   "status": "proved",
   "theorems": [
    "C84_passes",
    "C84_compares",
    "C84_exactly",
    "C84_cut",
    "C84_overlooks",
    "C84_without",
    "C84_unopened"
   ],
   "note": "The output of metaflac is a parameter; what it prints for given comments is the small specification SpecComments.v."
  },
  {
   "property": "C85",
   "status": "proved",
   "theorems": [
    "C85_always",
    "C85_one_way",
    "C85_usual",
    "C85_samples",
    "C85_file",
    "C85_file_cases",
    "C85_simple",
    "C85_simple_cases",
    "C85_stereo",
    "C85_stereo_cases"
   ],
   "note": "C85_always and C85_one_way: one reading for every string of bytes; C85_samples, C85_file and C85_simple: what is observed; C85_usual relates it to C66."
  },
  {
   "property": "C86",
   "status": "proved",
   "theorems": [
    "C86_simple",
    "C86_simple_panic",
    "C86_simple_each",
    "C86_stereo",
    "C86_stereo_panic",
    "C86_stereo_each",
    "C86_stereo_none",
    "C86_tags",
    "C86_tags_panic",
    "C86_tags_each"
   ],
   "note": "Opening and decoding as in C64, C66, C69 and C85. Printing and writing succeed; Path::with_extension is a parameter. A program that overwrites one of its inputs is outside the model."
  },
  {
   "property": "C87",
   "status": "proved",
   "theorems": [
    "C87_ogg",
    "C87_ogg_front",
    "C87_ogg_each",
    "C87_mp4",
    "C87_mp4_info",
    "C87_mp4_each"
   ],
   "note": "Extends C67 to any input, and says exactly what is written. Packets and tracks are given (the crates ogg and mp4parse are not modelled); tables that are not ascending and 2^32 chunks are left out."
  },
  {
   "property": "C88",
   "status": "proved",
   "theorems": [
    "C88_single_block",
    "C88_full",
    "C88_diff"
   ],
   "note": "Extends C68 to any input. C72 is about the configuration the fuzzers are built with."
  },
  {
   "property": "C89",
   "status": "partial",
   "theorems": [
    "C89_refuted",
    "C89_any",
    "C89_i32",
    "C89_unpredicted_partial",
    "C89_encoded_partial"
   ],
   "note": "False of the code as stated (C89_refuted, C89_any). C89_i32 is the bound that holds for every input; the claim itself holds for unpredicted subframes and for encoded samples."
  },
  {
   "property": "C90",
   "status": "partial",
   "theorems": [
    "C90_refuted"
   ],
   "note": "False of the code as stated, for every streaminfo (C90_refuted). What the blocks are instead is C50 and C78."
  },
  {
   "property": "C91",
   "status": "proved",
   "theorems": [
    "C91_random_access"
   ],
   "note": "History up to the first failure of the source, as in C78."
  },
  {
   "property": "C92",
   "status": "proved",
   "theorems": [
    "C92_sound"
   ],
   "note": "Blocks are cut greedily; the frames declare the width but the samples may need up to 32 bits (C89)."
  },
  {
   "property": "C93",
   "status": "proved",
   "theorems": [
    "C93_ogg",
    "C93_ogg_panic",
    "C93_ogg_each",
    "C93_mp4",
    "C93_mp4_panic",
    "C93_mp4_each"
   ],
   "note": "Frames and packets as in C87. The crates ogg, mp4parse and hound are idealised: packets and tracks are given, seeking and writing succeed. A program that overwrites one of its inputs is outside the model."
  },
  {
   "property": "C94",
   "status": "proved",
   "theorems": [
    "C94_decode",
    "C94_decode_panic",
    "C94_decode_missing",
    "C94_metadata",
    "C94_metadata_panic",
    "C94_metadata_each"
   ],
   "note": "Quotients of integers stand for the floating point numbers; the mean is not modelled. C94_decode_panic assumes that there is no run of 2^29 - 1 zero bytes (see C85)."
  },
  {
   "property": "C95",
   "status": "proved",
   "theorems": [
    "C95_decoded",
    "C95_reported",
    "C95_panics",
    "C95_cases",
    "C95_always",
    "C95_one_way",
    "C95_samples",
    "C95_published",
    "C95_file",
    "C95_single_block",
    "C95_full",
    "C95_diff"
   ],
   "note": "Extends C71 and C72, which assume that there is no long run of zeros (or a build without checks)."
  },
  {
   "property": "C96",
   "status": "proved",
   "theorems": [
    "C96_longer",
    "C96_longer_unopened",
    "C96_damaged",
    "C96_cut"
   ],
   "note": "C96_cut assumes that the elements of the lists are bytes."
  },
  {
   "property": "C97",
   "status": "proved",
   "theorems": [
    "C97_rms",
    "C97_wav",
    "C97_measured",
    "C97_not_measured",
    "C97_rate",
    "C97_rate_stops",
    "C97_compared"
   ],
   "note": "Removes the assumption on runs of zero bytes from C73, C74, C75, C79 and C94. Files that do not open: C73 to C76, C94."
  },
  {
   "property": "C98",
   "status": "partial",
   "theorems": [
    "C98_source_witness",
    "C98_sources_refuted",
    "C98_overrun",
    "C98_checked",
    "C98_bytes_partial",
    "C98_open_partial",
    "C98_delivers",
    "C98_same",
    "C98_reader_open",
    "C98_reader_metadata",
    "C98_reader_frames",
    "C98_reader_bits",
    "C98_cursor",
    "C98_cursor_same",
    "C98_readers_refuted",
    "C98_unseen_partial",
    "C98_overwrites"
   ],
   "note": "False as stated: C98_sources_refuted (a source that returns more than the length of the buffer) and C98_readers_refuted (a reader that does not fill the buffer). Proved: there is no undefined behaviour with any source that returns at most the length of the buffer, whatever it writes, nor with any reader whose own operations cause none; memory that was not initialised is not seen through any reader that fills buffers, which BufferedReader does for every source. Missing: it is not true for the other sources and readers; C98_overrun says what they do."
  },
  {
   "property": "C99",
   "status": "partial",
   "theorems": [
    "C99_byte",
    "C99_refuted",
    "C99_range_partial",
    "C99_wrap_into",
    "C99_wrap_skip",
    "C99_within",
    "C99_behind",
    "C99_no_frame",
    "C99_no_metadata"
   ],
   "note": "False as stated: where position and length add up to 2^64 or more, a debug build panics and a release build skips to the front of the data (C99_refuted, C99_wrap_skip, C99_wrap_into). C99_range_partial: everything else for calls with a length; C99_byte, C99_within, C99_behind, C99_no_frame, C99_no_metadata: complete. Missing: it is not true for the other lengths."
  },
  {
   "property": "C100",
   "status": "proved",
   "theorems": [
    "C100_tags",
    "C100_get",
    "C100_tags_determined",
    "C100_get_determined",
    "C100_cases",
    "C100_good"
   ],
   "note": "On any list, not only those from a file (those are C45: there no call panics)."
  },
  {
   "property": "C101",
   "status": "partial",
   "theorems": [
    "C101_refuted",
    "C101_short_partial",
    "C101_accepts",
    "C101_only",
    "C101_unchanged",
    "C101_release",
    "C101_debug",
    "C101_short_count",
    "C101_wide"
   ],
   "note": "False for slices of 65536 samples and more (C101_refuted): decode_fixed and decode_lpc pass the length as u16, so the residual has fewer values, the old contents of the slice are taken for the rest, and success is reported (C101_unchanged: 18 bits leave a slice of a multiple of 2^16 samples as it was). Proved as stated for all shorter slices, including the empty one, and widths 0 to 32 (C101_short_partial). For every length: exactly what is accepted and what is put into the slice (C101_accepts, C101_only with subframe_into), when a debug build panics (C101_debug, C101_short_count), that a release build does not (C101_release). Widths over 32 panic in debug builds (C101_wide); in release builds nothing is claimed about the samples (C98: no undefined behaviour)."
  },
  {
   "property": "C102",
   "status": "partial",
   "theorems": [
    "C102_refuted",
    "C102_debug_partial",
    "C102_refuses",
    "C102_made_up",
    "C102_release"
   ],
   "note": "False in release builds (C102_refuted), where the widths are not checked: a read of nine bits as a byte returns 0, and then the next 2^29 - 1 reads of a byte return 0 without looking at the reader (C102_made_up). Proved as stated for debug builds (C102_debug_partial; C102_refuses for any reader in any state). For release builds with any widths: every read returns a value or an error of the reader, never a panic, and the reader stands behind a prefix of its data (C102_release); nothing is claimed about the values."
  },
  {
   "property": "C103",
   "status": "proved",
   "theorems": [
    "C103_cursor",
    "C103_buffered",
    "C103_calls",
    "C103_takes",
    "C103_ends",
    "C103_samples"
   ],
   "note": "C103_calls (position), C103_takes and C103_ends (progress), C103_samples (iterators); C103_cursor and C103_buffered say which readers it is about; C103_panics shows that panics occur. Not about which byte a caught panic stops at, nor about a panic inside FlacReader::new (there is no reader then, see C81 and C82)."
  }
 ]
}