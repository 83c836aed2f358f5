{"id": "C01", "title": "Decoding does not depend on how the source splits its data", "statement": "For any byte stream, every public decoding operation (opening a FlacReader, reading metadata blocks, reading frames, iterating samples) gives the same result no matter how the underlying io::Read cuts the bytes into read() results (short reads, one byte at a time, full buffers).", "quantifier": "all byte streams, all ways of cutting them into non-empty read results of at most the buffer size, all options", "why_tests_cant": "The number of ways to cut a stream is exponential; a refill can fall inside any multi-byte field.", "anchors": ["src/input.rs BufferedReader::read_u8, read_u8_or_eof, read_into, skip", "src/lib.rs FlacReader::new_ext"]}
{"id": "C02", "title": "ReadBytes operations return the next bytes of the stream", "statement": "On both BufferedReader and io::Cursor, read_u8/read_u8_or_eof/read_into/skip and read_be_u16/u24/u32/read_le_u32 return (or skip) exactly the next bytes of the stream, in the stated endianness, and fail with UnexpectedEof exactly when too few bytes are left.", "quantifier": "all byte streams, positions, lengths, and sequences of operations up to the first failure", "why_tests_cant": "All interleavings of operations with all buffer positions cannot be enumerated.", "anchors": ["src/input.rs ReadBytes, BufferedReader, impl ReadBytes for io::Cursor"]}
{"id": "C03", "title": "A read retried after an I/O error does not replay data", "statement": "If the underlying reader fails once with an I/O error (for example Interrupted), a later read through the BufferedReader continues with bytes that were not returned before; it never returns already consumed bytes again.", "quantifier": "all streams with an I/O error injected at any refill", "why_tests_cant": "Depends on the exact point of the failure relative to the internal buffer.", "anchors": ["src/input.rs BufferedReader::read_u8 (pos reset before inner.read)"]}
{"id": "C04", "title": "Unchecked indexing stays in bounds", "statement": "The two unsafe get_unchecked uses (BufferedReader::read_u8 and StereoSamples::next) never index out of bounds, for any history of calls, provided the underlying reader obeys the io::Read contract.", "quantifier": "all operation histories on a BufferedReader over any contract-abiding reader, all blocks and iterator positions", "why_tests_cant": "Memory safety must hold for every history; a test passes on undefined behaviour.", "anchors": ["src/input.rs BufferedReader::read_u8", "src/frame.rs StereoSamples::next, Block::stereo_samples"]}
{"id": "C05", "title": "Bitstream reads return exactly the bits of the stream, most significant first", "statement": "Any sequence of read_bit, read_unary, read_leq_u8, read_gt_u8_leq_u16, read_leq_u16 and read_leq_u32 on a Bitstream behaves like the same sequence on the flat list of bits of the underlying bytes, MSB first; an error is UnexpectedEof exactly when the bits run out.", "quantifier": "all byte streams, all sequences of read operations with legal widths", "why_tests_cant": "All alignments times all widths times all histories.", "anchors": ["src/input.rs Bitstream"]}
{"id": "C06", "title": "The bitstream never over-reads", "statement": "After any sequence of successful bitstream reads the wrapped reader has advanced by exactly ceil(bits consumed / 8) bytes, so dropping the bitstream leaves the reader byte-aligned right after the padding.", "quantifier": "all byte streams and read sequences", "why_tests_cant": "Must hold at every alignment and history; over-reading by one byte would only show in the CRC of particular frames.", "anchors": ["src/input.rs Bitstream", "src/frame.rs FrameReader::read_next_or_eof"]}
{"id": "C07", "title": "Unary counts are exact for runs of any length", "statement": "read_unary returns the exact number of zero bits before the next one bit and consumes them and the one, for runs shorter than 2^32 (the u32 result), however many byte boundaries the run crosses.", "quantifier": "all streams, alignments and run lengths below 2^32", "why_tests_cant": "Runs can be arbitrarily long.", "anchors": ["src/input.rs Bitstream::read_unary"]}
{"id": "C08", "title": "CRC-8 is the polynomial checksum x^8+x^2+x+1", "statement": "For every byte string read through it, the CRC-8 reader's checksum equals the remainder of the message polynomial times x^8 modulo x^8+x^2+x+1 over GF(2).", "quantifier": "all byte strings of any length", "why_tests_cant": "Infinitely many messages; a single wrong table entry only shows on some.", "anchors": ["src/crc.rs CRC8_TABLE, Crc8Reader"]}
{"id": "C09", "title": "CRC-16 is the polynomial checksum x^16+x^15+x^2+1", "statement": "For every byte string read through it, the CRC-16 reader's checksum equals the remainder of the message polynomial times x^16 modulo x^16+x^15+x^2+1 over GF(2).", "quantifier": "all byte strings of any length", "why_tests_cant": "Infinitely many messages; a single wrong table entry only shows on some.", "anchors": ["src/crc.rs CRC16_TABLE, Crc16Reader"]}
{"id": "C10", "title": "Every accepted frame has intact checksums", "statement": "If read_next_or_eof returns a block, the bytes it consumed are a frame whose header ends in the CRC-8 of the preceding header bytes and whose last two bytes are the big-endian CRC-16 of all preceding bytes.", "quantifier": "all inputs on which decoding succeeds", "why_tests_cant": "Universal over all accepted inputs.", "anchors": ["src/frame.rs read_frame_header_or_eof, FrameReader::read_next_or_eof"]}
{"id": "C11", "title": "Small corruptions of a frame are detected", "statement": "If a frame is accepted, then any altered byte string of the same length whose difference is a burst of at most 16 bits, or an odd number of flipped bits, or two flipped bits at a distance below 32767, is not accepted as a frame of that length.", "quantifier": "all accepted frames, all error positions and patterns in the class", "why_tests_cant": "Frames times error patterns is unbounded.", "anchors": ["src/crc.rs Crc16Reader", "src/frame.rs FrameReader::read_next_or_eof"]}
{"id": "C12", "title": "Small corruptions of a frame header are detected", "statement": "If a frame header is accepted, any altered header of the same length whose difference is a burst of at most 8 bits, or an odd number of flipped bits, is not accepted as a header of that length.", "quantifier": "all accepted headers, all error positions and patterns in the class", "why_tests_cant": "Headers times error patterns cannot be enumerated.", "anchors": ["src/crc.rs Crc8Reader", "src/frame.rs read_frame_header_or_eof"]}
{"id": "C13", "title": "Frame and sample numbers are decoded exactly", "statement": "The variable-length ('UTF-8') integer decoder returns the encoded value for every value below 2^36 in every encoding length that can hold it, consuming exactly the encoding, and rejects a lone continuation byte and malformed continuation bytes with a format error.", "quantifier": "all values below 2^36, all encoding lengths, all following data", "why_tests_cant": "2^36 values.", "anchors": ["src/frame.rs read_var_length_int"]}
{"id": "C14", "title": "Variable-length integers are at most 36 bits", "statement": "Any sample number accepted by the frame header decoder is below 2^36, as documented ('can read integers up to 36-bit', 'at most a 36-bit int').", "quantifier": "all inputs", "why_tests_cant": "Needs all first bytes and continuations.", "anchors": ["src/frame.rs read_var_length_int"]}
{"id": "C15", "title": "Frame headers are decoded per the format", "statement": "For every combination of blocking strategy, block size code (all predefined, 8-bit and 16-bit forms), sample rate code, channel assignment and bits per sample code, a correctly formed header decodes to exactly the block size, channels, bits per sample and number it encodes, and consumes exactly the header.", "quantifier": "all well-formed headers", "why_tests_cant": "Too many combinations of fields and explicit values.", "anchors": ["src/frame.rs read_frame_header_or_eof"]}
{"id": "C16", "title": "Reserved frame header patterns are rejected", "statement": "A header with a wrong sync code, set reserved bits, block size code 0000, sample rate code 1111, channel code 1011-1111, bits per sample code 011 or 111, a frame number over 31 bits, or an explicit block size of 65536 is rejected with a format error, whatever the rest of the input.", "quantifier": "all inputs with such a pattern", "why_tests_cant": "Universal over the rest of the input.", "anchors": ["src/frame.rs read_frame_header_or_eof"]}
{"id": "C17", "title": "Sign extension is two's complement", "statement": "extend_sign_u32(val, bits) for 1<=bits<=32 (and the 16-bit variant) returns the unique integer in [-2^(bits-1), 2^(bits-1)) congruent to val modulo 2^bits.", "quantifier": "all values and widths", "why_tests_cant": "2^32 values times 32 widths.", "anchors": ["src/subframe.rs extend_sign_u16, extend_sign_u32"]}
{"id": "C18", "title": "Rice sign folding is a bijection", "statement": "The mapping from unsigned Rice values to signed residuals sends 2k to k and 2k+1 to -1-k for all 32-bit values, and is a bijection between u32 and i32.", "quantifier": "all 2^32 values", "why_tests_cant": "2^32 values, bit-level trick.", "anchors": ["src/subframe.rs rice_to_signed"]}
{"id": "C19", "title": "Rice-coded partitions decode to the encoded residuals", "statement": "For every list of i32 residuals and every parameter (0..14 for Rice, 0..30 for Rice2), decoding the Rice code of the list returns the list and consumes exactly its bits, at any bit alignment.", "quantifier": "all residual lists, parameters, alignments and following data", "why_tests_cant": "Unbounded lists, quotients of any size.", "anchors": ["src/subframe.rs decode_rice_partition, decode_rice2_partition"]}
{"id": "C20", "title": "Residual partitions tile the block", "statement": "The residual decoder accepts a partition order exactly when 2^order divides the block size and the first partition can hold the warm-up samples; then it fills every residual position exactly once, in order, with the values of the partitions.", "quantifier": "all block sizes, predictor orders, partition orders, partition contents", "why_tests_cant": "Block sizes to 65535 times orders times contents.", "anchors": ["src/subframe.rs decode_residual"]}
{"id": "C21", "title": "Fixed prediction is lossless", "statement": "For every order 0..4 and every list of i32 samples, the fixed predictor restores the samples from the warm-up samples and the order-th finite differences (taken modulo 2^32).", "quantifier": "all sample lists, orders", "why_tests_cant": "Unbounded lists of 32-bit values including wrap-around.", "anchors": ["src/subframe.rs predict_fixed"]}
{"id": "C22", "title": "LPC prediction is lossless and the fast path equals the general one", "statement": "For every order 1..32, coefficients of at most 15 bits, shift 0..15 and sample list, LPC restoration inverts the encoder's residual computation; the order<=12 fast path computes the same function as the general predictor; no intermediate i64 computation overflows.", "quantifier": "all coefficient vectors, shifts, sample lists", "why_tests_cant": "Unbounded lists, 15-bit coefficients, overflow at extreme values only.", "anchors": ["src/subframe.rs predict_lpc_low_order, predict_lpc_high_order"]}
{"id": "C23", "title": "Wasted bits are restored", "statement": "A subframe coded with k wasted bits per sample decodes to the coded samples multiplied by 2^k (as i32); k >= bits per sample, or more than 31, is rejected with a format error.", "quantifier": "all subframes, all k", "why_tests_cant": "All subframe contents times k.", "anchors": ["src/subframe.rs decode, read_subframe_header"]}
{"id": "C24", "title": "Subframe decoding matches the format grammar exactly", "statement": "subframe::decode succeeds with samples s after consuming bits w exactly when w is an encoding of a subframe (constant, verbatim, fixed, LPC, with Rice or Rice2 residual) whose value is s.", "quantifier": "all bit strings, block sizes and sample widths", "why_tests_cant": "Universal over bit strings.", "anchors": ["src/subframe.rs decode"]}
{"id": "C25", "title": "Stereo decorrelation is inverted exactly", "statement": "Left/side and right/side blocks decode to the original left and right channels for all i32 samples; mid/side blocks do so for all samples in [-2^30, 2^30), which covers every supported sample width.", "quantifier": "all pairs of channels of any length", "why_tests_cant": "Rounding and wrap-around at extreme values; all pairs.", "anchors": ["src/frame.rs decode_left_side, decode_right_side, decode_mid_side"]}
{"id": "C26", "title": "Frame decoding is lossless", "statement": "For every frame that encodes PCM channels with any header form, any channel assignment and any subframe coding per channel, read_next_or_eof returns a block with exactly those samples, its block size, channel count and time, and leaves the reader right after the frame.", "quantifier": "all well-formed frames, all following data", "why_tests_cant": "Unbounded space of encodings.", "anchors": ["src/frame.rs FrameReader::read_next_or_eof"]}
{"id": "C27", "title": "Only well-formed frames are accepted", "statement": "If read_next_or_eof returns a block, the consumed bytes are an encoding, per the frame grammar, of exactly the samples, block size, channels and time in the block.", "quantifier": "all inputs on which decoding succeeds", "why_tests_cant": "Universal over inputs.", "anchors": ["src/frame.rs FrameReader::read_next_or_eof"]}
{"id": "C28", "title": "A stream of frames decodes frame by frame to its end", "statement": "On a concatenation of any number of well-formed frames, successive read_next_or_eof calls return the blocks in order and then None for ever, with or without buffer reuse.", "quantifier": "all lists of frames, all buffers passed in", "why_tests_cant": "Unbounded histories.", "anchors": ["src/frame.rs FrameReader::read_next_or_eof"]}
{"id": "C29", "title": "Decoded blocks never expose previous buffer contents", "statement": "The result of read_next_or_eof does not depend on the contents, length or capacity of the buffer passed in; on success every sample in the block was written by this decode and the buffer holds exactly channels x block size samples.", "quantifier": "all inputs (valid or malicious), all buffers", "why_tests_cant": "A leak of stale or uninitialised memory (CVE fixed in 0.4.1) only shows on crafted files.", "anchors": ["src/frame.rs ensure_buffer_len, FrameReader::read_next_or_eof", "src/subframe.rs decode_residual"]}
{"id": "C30", "title": "Decoding never panics, never runs undefined behaviour, and terminates", "statement": "In release builds on any input, and in debug builds (overflow and debug assertions checked) on any input without a run of 2^29-1 zero bytes (2^29-2049 when reading goes on after errors of the source, which may also report end of file early), opening a reader, reading blocks and iterating samples returns a value or an error: no panic, no out-of-bounds access, no endless loop.", "quantifier": "all byte strings, all sequences of results of read, all options, all sequences of calls, debug and release builds", "why_tests_cant": "Universal over malicious inputs; fuzzing only samples.", "anchors": ["src/frame.rs", "src/subframe.rs", "src/metadata.rs", "src/input.rs", "src/lib.rs"]}
{"id": "C31", "title": "Debug builds do not panic on inputs of any size", "statement": "The previous property without the restriction on runs of zero bytes.", "quantifier": "all byte strings", "why_tests_cant": "The shortest counterexample is over 512 MiB.", "anchors": ["src/input.rs Bitstream::read_unary (n = n + zeros)"]}
{"id": "C32", "title": "A truncated frame is reported as an unexpected end of file", "statement": "If a well-formed frame is cut after at least two bytes, read_next_or_eof returns an IoError of kind UnexpectedEof: never a block, never a clean end of stream, never another error.", "quantifier": "all well-formed frames, all cut points", "why_tests_cant": "All frames times all cut points.", "anchors": ["src/frame.rs FrameReader::read_next_or_eof"]}
{"id": "C33", "title": "A clean end of stream is only reported between frames", "statement": "read_next_or_eof returns Ok(None) only if the stream ended before the frame header, not in the middle of it (as its comment says).", "quantifier": "all inputs", "why_tests_cant": "Universal over inputs and cut points.", "anchors": ["src/frame.rs read_next_or_eof comment", "src/input.rs read_be_u16_or_eof"]}
{"id": "C34", "title": "Decoding a frame depends only on the frame's bytes", "statement": "If decoding a frame (or a metadata block) from a stream yields a block or a format error (with at least two bytes of input: with fewer, the frame reader reports the end), then appending more data to the stream yields the same outcome and leaves the appended data unread.", "quantifier": "all inputs and all continuations", "why_tests_cant": "All continuations of all inputs.", "anchors": ["src/frame.rs FrameReader::read_next_or_eof", "src/metadata.rs read_metadata_block"]}
{"id": "C35", "title": "Block accessors agree with the decoded channels", "statement": "For every block returned by the decoder: len = duration x channels, 1<=duration<=65535, 1<=channels<=8, channel(ch) is the ch-th decoded channel, sample(ch, i) is its i-th sample; channel panics exactly when ch >= channels, and sample panics exactly when the flat index ch*duration+i is out of the buffer.", "quantifier": "all decoded blocks and all u32 arguments", "why_tests_cant": "All blocks and argument pairs.", "anchors": ["src/frame.rs Block"]}
{"id": "C36", "title": "stereo_samples yields the pairs in order", "statement": "For every two-channel block, stereo_samples() yields exactly (channel(0)[i], channel(1)[i]) for i from 0 to duration-1 and then None for ever; for other channel counts it panics.", "quantifier": "all blocks, all numbers of next() calls", "why_tests_cant": "Unbounded histories.", "anchors": ["src/frame.rs Block::stereo_samples, StereoSamples::next"]}
{"id": "C37", "title": "Block times are the true sample positions", "statement": "In a well-formed stream Block::time() is the inter-channel sample number of the block's first sample: in variable-blocksize streams the coded number; in fixed-blocksize streams the sum of the sizes of the preceding blocks, including for a shorter last block. The computation never overflows.", "quantifier": "all streams", "why_tests_cant": "All streams; the shorter last block is the exceptional case.", "anchors": ["src/frame.rs read_next_or_eof (let time = ...), Block::time"]}
{"id": "C38", "title": "samples() interleaves the blocks", "statement": "The samples() iterator yields, for each successive block returned by read_next_or_eof and each inter-channel sample index, the sample of each channel in order, for blocks of any and varying channel counts and sizes, and ends when the frame reader reports the end.", "quantifier": "all sequences of blocks", "why_tests_cant": "Unbounded histories with varying shapes.", "anchors": ["src/lib.rs FlacSamples::next"]}
{"id": "C39", "title": "samples() stops after an error", "statement": "When decoding fails, the samples() iterator yields that error exactly once, after all samples of the preceding blocks, and None for ever after, without reading any further.", "quantifier": "all streams, all later numbers of calls", "why_tests_cant": "Unbounded histories.", "anchors": ["src/lib.rs FlacSamples::next, has_failed"]}
{"id": "C40", "title": "Streaminfo is decoded exactly and validated", "statement": "A streaminfo block is accepted exactly when min block size <= max block size, min block size >= 16, min frame size <= max frame size unless the latter is 0, and 1 <= sample rate <= 655350; the result has exactly the encoded fields, with 0 meaning unknown for frame sizes and sample count.", "quantifier": "all 34-byte blocks / all field values", "why_tests_cant": "2^272 blocks.", "anchors": ["src/metadata.rs read_streaminfo_block"]}
{"id": "C41", "title": "Metadata blocks are framed by their length field", "statement": "Whenever reading a metadata block of any type with length n succeeds, exactly n body bytes were consumed (4 + n with the header), so the next block starts at the right place.", "quantifier": "all inputs, block types and lengths", "why_tests_cant": "Universal over block contents; a slip would desynchronise only on some files.", "anchors": ["src/metadata.rs read_metadata_block, read_metadata_block_with_header"]}
{"id": "C42", "title": "The metadata iterator ends after the last block or the first error", "statement": "MetadataBlockReader yields blocks up to and including the first one flagged last, or up to and including the first error, then None for ever without reading; it yields at least one element and size_hint bounds the true remaining count.", "quantifier": "all inputs, all numbers of next() calls", "why_tests_cant": "Unbounded histories.", "anchors": ["src/metadata.rs MetadataBlockReader::next, size_hint"]}
{"id": "C43", "title": "Vorbis comments round-trip", "statement": "For every vendor string and every list of NAME=value comments (valid UTF-8, names of bytes 0x20..0x7d without '='; empty comments allowed and dropped) whose encoding is at most 10 MiB, reading the encoded block returns exactly the vendor string and the non-empty comments in order.", "quantifier": "all vendors and comment lists", "why_tests_cant": "Unbounded lists of strings.", "anchors": ["src/metadata.rs read_vorbis_comment_block"]}
{"id": "C44", "title": "Accepted Vorbis comments are well-formed", "statement": "Every comment of an accepted Vorbis comment block is valid UTF-8, has '=' at its separator index and not before, and its name consists of bytes 0x20..0x7d; the vendor string is valid UTF-8; names are thus ASCII as documented.", "quantifier": "all accepted inputs", "why_tests_cant": "Universal over inputs.", "anchors": ["src/metadata.rs read_vorbis_comment_block"]}
{"id": "C45", "title": "Tag lookup is complete, ordered and never panics", "statement": "For a reader obtained from FlacReader::new, tags() yields every comment split at its first '=', in file order, with exact size hint; get_tag(n) yields exactly the values whose name equals n up to ASCII case, in file order; neither ever panics.", "quantifier": "all files, all lookup names", "why_tests_cant": "All comment lists and names; slicing at non-char boundaries would panic only on some.", "anchors": ["src/metadata.rs Tags::next, GetTag::next", "src/lib.rs tags, get_tag"]}
{"id": "C46", "title": "Metadata allocation is bounded", "statement": "Reading metadata never requests an allocation larger than the claimed block size allows: every buffer of bytes is at most 10 MiB, the comment vector has fewer than length/4 entries, and a block over 10 MiB is rejected with Unsupported before any allocation; frame buffers are at most 8 x 65535 samples.", "quantifier": "all inputs", "why_tests_cant": "Universal over malicious inputs.", "anchors": ["src/metadata.rs read_vorbis_comment_block, read_application_block", "src/frame.rs ensure_buffer_len"]}
{"id": "C47", "title": "FlacReader::new accepts exactly well-formed stream headers", "statement": "FlacReader::new succeeds exactly when the stream starts with 'fLaC', then readable metadata blocks up to one flagged last, of which the first and only the first is a streaminfo and at most one is a Vorbis comment; it then exposes that streaminfo and those tags and stands at the first frame.", "quantifier": "all inputs", "why_tests_cant": "Universal over metadata sequences.", "anchors": ["src/lib.rs FlacReader::new_ext, read_stream_header"]}
{"id": "C48", "title": "Metadata reading stops once the desired blocks were read", "statement": "As documented for FlacReaderOptions, as soon as all desired blocks have been read new_ext returns without reading remaining metadata blocks: with metadata_only the outcome does not depend on anything after the streaminfo (read_vorbis_comment false) or after the Vorbis comment (true).", "quantifier": "all inputs and options", "why_tests_cant": "Universal over the ignored suffix.", "anchors": ["src/lib.rs FlacReaderOptions, FlacReader::new_ext"]}
{"id": "C49", "title": "Options control tags and audio access", "statement": "With read_vorbis_comment false no tags or vendor are exposed, even if present; blocks(), samples() and into_samples() panic exactly when metadata_only was set; apart from that options do not change the streaminfo.", "quantifier": "all inputs and options", "why_tests_cant": "Universal over inputs.", "anchors": ["src/lib.rs FlacReader::new_ext, blocks, samples, into_samples"]}
{"id": "C50", "title": "A whole file decodes to its PCM data", "statement": "For every file made of a stream header, streaminfo, any other metadata blocks and any list of well-formed frames, FlacReader::new succeeds and samples() yields exactly the interleaved PCM samples of all frames, then ends.", "quantifier": "all well-formed files", "why_tests_cant": "Unbounded space of files.", "anchors": ["src/lib.rs FlacReader", "src/frame.rs FrameReader"]}
{"id": "C51", "title": "Error equality", "statement": "Comparing errors is symmetric and transitive, format and unsupported errors are equal exactly when kind and message are equal, and an I/O error is never equal to anything.", "quantifier": "all pairs and triples of errors", "why_tests_cant": "Small but universal over messages.", "anchors": ["src/error.rs PartialEq for Error"]}
{"id": "C52", "title": "Unsupported is reported only for specified but unimplemented features", "statement": "Frame decoding returns Error::Unsupported only when the header takes its sample width from the streaminfo, a partition uses the escape code, or the LPC shift is negative; such frames are never decoded to a block.", "quantifier": "all inputs", "why_tests_cant": "Universal over inputs.", "anchors": ["src/frame.rs", "src/subframe.rs", "src/error.rs Error::Unsupported"]}
{"id": "C53", "title": "Uninitialised metadata buffers are never exposed", "statement": "The outcome of reading a metadata block does not depend on the contents of the uninitialised memory that vendor, comment and application buffers are created from.", "quantifier": "all inputs, all contents of fresh memory", "why_tests_cant": "Reading uninitialised memory is invisible to tests.", "anchors": ["src/metadata.rs unsafe set_len uses", "src/input.rs read_into"]}
{"id": "C54", "title": "Samples that come without an error come from a well-formed file", "statement": "If opening a file succeeds and samples() yields samples and then ends, never reporting an error, then the input is a stream header, well-formed metadata and a list of well-formed frames, followed by at most one stray byte, and the samples are exactly the interleaved PCM samples of those frames.", "quantifier": "all inputs from any source, debug builds, and release builds for inputs without a run of 2^32-1 zero bits", "why_tests_cant": "It excludes that any of the infinitely many malformed inputs decodes silently.", "anchors": ["src/lib.rs FlacReader, FlacSamples", "src/frame.rs FrameReader::read_next_or_eof"]}
{"id": "C55", "title": "Recycling a block's buffer avoids allocation", "statement": "Passing the buffer obtained from Block::into_buffer back to read_next_or_eof makes the decoder allocate only when the buffer's capacity is smaller than channels x block size of the next frame, and then exactly that many samples; the capacity never shrinks. A loop over a stream whose blocks all fit the first buffer allocates nothing, and a loop that starts with an empty buffer over blocks of one size allocates exactly once. The iterators from samples() and into_samples() recycle their buffer in the same way.", "quantifier": "all streams, all buffers, all numbers of blocks", "why_tests_cant": "Universal over streams and over the sequence of block sizes.", "anchors": ["src/frame.rs ensure_buffer_len, FrameReader::read_next_or_eof, Block::into_buffer", "src/lib.rs FlacSamples::next"]}
{"id": "C56", "title": "Files that are not FLAC are rejected by their first four bytes", "statement": "FlacReader::new and new_ext fail with the format error about an ID3 header when the stream starts with \"ID3\" and one more byte, with the format error \"invalid stream header\" when it starts with any other four bytes than \"fLaC\", and with the I/O error at the end of the stream (UnexpectedEof at a clean end) when it has fewer than four bytes, whatever follows and for all options.", "quantifier": "all first bytes, all continuations, all options, all sources", "why_tests_cant": "2^32 prefixes and unboundedly many continuations.", "anchors": ["src/lib.rs read_stream_header, FlacReader::new_ext"]}
{"id": "C57", "title": "No more is taken from the source than needed", "statement": "A reader calls read on its source only when the bytes read so far are used up: after opening a file, with any options, after decoding any number of frames, after any calls that read blocks and samples in any order, and after any sequence of byte reads, the source as returned by into_inner has lost exactly the chunks that contain the bytes consumed so far. In particular a frame can be decoded before anything behind it is looked at, even if the source then blocks or fails.", "quantifier": "all sources and chunkings, all options, all files, all numbers of frames, all sequences of reads", "why_tests_cant": "Universal over the ways a source may split its data and over where the file is when the reader is stopped.", "anchors": ["src/input.rs BufferedReader", "src/lib.rs FlacReader::new_ext, into_inner", "src/frame.rs FrameReader::read_next_or_eof"]}
{"id": "C58", "title": "I/O errors are passed on, and none are made up", "statement": "Whenever a call (opening, reading blocks or samples, reading metadata, reading bytes) returns an I/O error, the last read made on the source in that call returned that very error, or it returned zero bytes and the error is UnexpectedEof; whenever a call reports the end, its last read returned zero bytes (or it is an iterator that had ended before, and it did not read); and in all other cases every read it made returned data. So errors and ends of the source are never swallowed, replaced or deferred. This also holds for calls made after earlier failures.", "quantifier": "all sources that keep to the contract of Read, failing any number of times, all sequences of calls", "why_tests_cant": "Universal over the points at which a source may fail and over the calls made before.", "anchors": ["src/input.rs BufferedReader", "src/error.rs From<io::Error>", "src/lib.rs FlacReader, FlacSamples::next", "src/metadata.rs MetadataBlockReader::next"]}
{"id": "C59", "title": "A release build computes what a debug build computes", "statement": "Compiled with or without debug assertions and overflow checks, opening a file, any sequence of calls on it, reading metadata, bytes or bits give the same results in the same order, up to the first call in which the debug build panics, if there is one. On a source without runs of 2^29-2049 zero bytes no call panics, so the two builds cannot be told apart: no wrapped-around arithmetic ever reaches the user of a release build.", "quantifier": "all sources, all options, all sequences of calls, both build profiles", "why_tests_cant": "A test runs in one profile and on one input; the claim compares two executions for every input.", "anchors": ["src/input.rs Bitstream", "src/subframe.rs", "src/frame.rs FrameReader::read_next_or_eof", "src/lib.rs FlacReader, FlacSamples", "src/metadata.rs MetadataBlockReader"]}
{"id": "C60", "title": "Blocks and samples can be mixed, also across damaged frames", "statement": "On an open file, reading blocks through blocks() and samples through samples() in any order, dropping the sample iterator at any time, gives exactly the frames of the file one after the other: each new block or new sample iterator starts at the next frame that nobody has begun to read; the samples of the frame an iterator was dropped in are gone. A fault of any kind in a frame (see C62) costs one error that names it, and reading goes on behind the faulty field; a sample iterator that has returned an error ends, a new one reads on.", "quantifier": "all files with intact and damaged frames, all sequences of calls, all ways to split the file into reads, debug and release", "why_tests_cant": "The sequences of calls and the positions of damage are unbounded; a test fixes one interleaving.", "anchors": ["src/lib.rs FlacReader::blocks, samples, FlacSamples::next", "src/frame.rs FrameReader::read_next_or_eof, read_frame_header_or_eof"]}
{"id": "C61", "title": "A program that goes on after errors reaches the end", "statement": "On any bytes, every call to read_next_or_eof either moves the reader on by at least two bytes and leaves it exactly behind the bytes it has used (also when it reports a format error or an unsupported feature), or reports the end of the stream, or reports the I/O error with which the source ends. So a loop that ignores format errors comes to the end after at most half as many calls as there are bytes, plus one.", "quantifier": "all byte strings (for the loop in debug builds: without half a gigabyte of consecutive zero bytes), all sources, all buffers", "why_tests_cant": "Progress on every malformed input cannot be sampled; an input on which an error consumes nothing would make a resynchronising program loop for ever.", "anchors": ["src/frame.rs FrameReader::read_next_or_eof, read_frame_header_or_eof"]}
{"id": "C62", "title": "Errors tell what is wrong, and nothing behind the fault is lost", "statement": "Every format error or unsupported-feature error of read_next_or_eof is true: at the reader's position a frame starts that breaks the rule the message states (sync code, reserved values, malformed or too large number, block size, header checksum, missing bit depth, subframe header, wasted bits, predictor order, precision, shift, residual coding, partition order, escape codes, frame checksum), and everything before the faulty field is well-formed. Conversely each such fault is reported with exactly its message. In both cases the reader stands right behind the byte in which the faulty field ends. A call gives a frame, such an error, the end, or the source's own error if the data break off in the middle of a frame; the cases exclude each other. (In release builds, for data without half a gigabyte of consecutive zero bytes.)", "quantifier": "all byte strings, all sources, all buffers, debug and release", "why_tests_cant": "Tests compare one message for one file; that no message is wrong and no fault is reported under another name ranges over all malformed inputs.", "anchors": ["src/frame.rs FrameReader::read_next_or_eof, read_frame_header_or_eof, read_var_length_int", "src/subframe.rs decode, read_subframe_header, decode_residual, decode_partition, decode_fixed, decode_lpc", "src/error.rs Error"]}
{"id": "C63", "title": "Errors of metadata and of opening tell what is wrong", "statement": "Every format error or unsupported-feature error of read_metadata_block, read_metadata_block_with_header, the metadata block iterator and FlacReader::new/new_ext is true: the input starts with well-formed data followed by a field that breaks the rule the message states (ID3 tag or wrong signature, missing or repeated streaminfo, repeated Vorbis comment, streaminfo length, bounds and sample rate, application block size, comment block size, vendor length, entry count, entry length, missing '=', field name characters, UTF-8, excess data, missing entries, block type 127). Conversely each such fault is reported with exactly its message, and the reader stands right behind the faulty field. Otherwise opening gives the header that the bytes encode, or the source's own error, the latter only if the data end before the block that is being read does. The cases exclude each other.", "quantifier": "all byte strings, all sources in all chunkings, all options, debug and release", "why_tests_cant": "Tests compare one message for one file; that no message is wrong and no fault is reported under another name ranges over all malformed inputs.", "anchors": ["src/metadata.rs read_metadata_block, read_metadata_block_with_header, read_streaminfo_block, read_vorbis_comment_block, read_application_block, MetadataBlockReader", "src/lib.rs FlacReader::new_ext, read_stream_header", "src/error.rs Error"]}
{"id": "C64", "title": "Opening by path", "statement": "FlacReader::open and open_ext give the file system's own error if the file cannot be opened. Otherwise they behave as opening its contents: the result is the header that the bytes encode, with the reader right behind it, or the error that names the fault in the metadata, or the source's error if the file ends too early. open is open_ext with the default options.", "quantifier": "all file systems, paths, file contents in all chunkings, options, debug and release", "why_tests_cant": "Tests open a handful of files; that nothing is lost between open and decoding ranges over all contents and all ways in which reads are split.", "anchors": ["src/lib.rs FlacReader::open, open_ext", "src/error.rs From<io::Error>"]}
{"id": "C65", "title": "Error values keep what they were made from", "statement": "The text of a format error or unsupported-feature error determines the error (kind and reason); an error has a cause exactly if it comes from the source, and then the cause is that I/O error, whose own text and description are passed on.", "quantifier": "all errors", "why_tests_cant": "Tests look at single messages.", "anchors": ["src/error.rs Display, Error::description, Error::cause, From<io::Error>"]}
{"id": "C66", "title": "The example decoders write exactly the samples of the file", "statement": "For every file the program decode_simple writes an audio file with the streaminfo's parameters and the samples of all frames up to the first fault, in order, and ends with the error of that fault, or successfully at a proper end; it writes nothing if the metadata are bad. The program decode does so for 16-bit stereo files up to the first frame that is not stereo or bad, where it panics; for no file at all its unchecked writes leave the buffer.", "quantifier": "all files, chunkings, debug and release (files without half a gigabyte of consecutive zero bytes)", "why_tests_cant": "Tests decode a few files to the end; partial output in front of faults and the safety of the unchecked writes range over all contents.", "anchors": ["examples/decode_simple.rs decode_file", "examples/decode.rs decode_file", "src/lib.rs FlacReader::open, samples, blocks", "src/frame.rs Block::stereo_samples"]}
{"id": "C67", "title": "Blocks and frames can be read from other containers", "statement": "With the public functions read_metadata_block, read_metadata_block_with_header and FrameReader the programs decode_ogg and decode_mp4 write exactly the samples of the stereo frames in the packets (chunks) of a well-formed container. On all other inputs they panic; then decode_ogg has written the samples of the packets before the bad one.", "quantifier": "all lists of packets; all tables of chunks with ascending entries", "why_tests_cant": "Tests do not run these programs; packets and tables vary without bound.", "anchors": ["examples/decode_ogg.rs", "examples/decode_mp4.rs", "src/metadata.rs read_metadata_block, read_metadata_block_with_header", "src/frame.rs FrameReader"]}
{"id": "C68", "title": "The fuzz targets find nothing", "statement": "For every input the four fuzz targets return normally: decoding a header, a block or a whole stream neither panics nor has undefined behaviour and ends, and decoding into two buffers with different old contents gives equal results.", "quantifier": "all byte strings (in debug builds: without half a gigabyte of consecutive zero bytes), debug and release", "why_tests_cant": "Fuzzers sample inputs; this is about all of them.", "anchors": ["fuzz/fuzzers/decode_header.rs", "fuzz/fuzzers/decode_single_block.rs", "fuzz/fuzzers/decode_full.rs", "fuzz/fuzzers/diff.rs"]}
{"id": "C69", "title": "The example tags lists all comments", "statement": "For every file that opens, the program prints one line 'path: name=value' per comment, in order, and nothing else; for others it panics.", "quantifier": "all files, chunkings, debug and release", "why_tests_cant": "Tests do not run it; comments vary without bound.", "anchors": ["examples/tags.rs", "src/lib.rs FlacReader::tags", "src/metadata.rs Tags"]}
{"id": "C70", "title": "Output is bounded by input", "statement": "Iterating over the samples of any source ends: it gives at most 65535 samples per byte of input, then at most one error, then None. Every input without half a gigabyte of consecutive zero bytes is a sequence of well-formed frames followed by a proper end, one fault, or a frame that breaks off.", "quantifier": "all byte strings (in debug builds: without half a gigabyte of consecutive zero bytes), all sources, debug and release", "why_tests_cant": "Termination and growth are statements about all inputs.", "anchors": ["src/lib.rs FlacSamples::next, FlacIntoSamples::next", "src/frame.rs FrameReader::read_next_or_eof"]}
{"id": "C71", "title": "Built for fuzzing, the crate differs in checksums only", "statement": "Compiled with cfg(fuzzing), the crate decodes any reader in any state to the same result and state as the published build, unless the published build reports a checksum mismatch; it accepts exactly the frames that are well-formed but for their checksum bytes; and its smaller buffer of 31 bytes is not observable: opening gives the same metadata, error and position.", "quantifier": "all readers, states, buffers, byte strings and chunkings, debug and release", "why_tests_cant": "Tests are not built with cfg(fuzzing), and the claim compares two programs on all inputs.", "anchors": ["src/input.rs BufferedReader::new", "src/frame.rs read_frame_header_or_eof", "src/frame.rs FrameReader::read_next_or_eof"]}
{"id": "C72", "title": "The fuzz targets find nothing in the build they use", "statement": "Compiled with cfg(fuzzing), where checksums protect nothing, for every input the four fuzz targets return normally, reading a block gives a block, the end or an error, iterating over samples gives at most 65535 samples per byte, at most one error, and then None, and old contents of a buffer have no influence.", "quantifier": "all byte strings (in debug builds: without half a gigabyte of consecutive zero bytes), all sources and buffers, debug and release", "why_tests_cant": "Fuzzers sample inputs; without checksums every byte string is a candidate.", "anchors": ["fuzz/fuzzers/decode_header.rs", "fuzz/fuzzers/decode_single_block.rs", "fuzz/fuzzers/decode_full.rs", "fuzz/fuzzers/diff.rs", "src/frame.rs", "src/input.rs"]}
{"id": "C73", "title": "The examples in the documentation do what they say", "statement": "For every file that is well-formed, the root mean square example adds up exactly the file's samples and their number (if there are less than 2^31 of them; beyond, its i32 counter overflows), the decoding example writes exactly the file's samples, and the tags example prints one line per artist in order. A missing file, missing metadata, or a fault in a frame makes them panic rather than give a wrong result.", "quantifier": "all files, chunkings, tags and numbers of frames, debug and release", "why_tests_cant": "The examples are compiled but not run by the documentation tests, and the claim is for every file.", "anchors": ["src/lib.rs crate documentation"]}
{"id": "C74", "title": "The decoding benchmark measures the whole file", "statement": "For every well-formed file whose streaminfo has a number of samples, the program records one time per frame with that frame's number of samples, prints the true 10th, 50th and 90th percentiles of the time per sample, does not request memory while it decodes frames that fit the streaminfo, and panics on every other file, including one without frames. The number of data bytes it uses is not exact, against its own comment: it is at most that of the frames and less than 2048 smaller.", "quantifier": "all files, clocks, numbers of runs and frames, debug and release", "why_tests_cant": "No test runs it; the claim is for every file and clock.", "anchors": ["examples/bench_decode.rs"]}
{"id": "C75", "title": "The block benchmark decodes the file over and over", "statement": "If the closure is called n times, the frames of the file are decoded again and again in order, one call in every (frames + 1) finding the end; the reported throughput is the number of bytes of all samples decoded divided by the number of frames decoded. It panics if no frame was decoded, if a faulty frame is met, or, in debug builds, if the 32-bit count of bytes overflows.", "quantifier": "all files and all numbers of calls below 2^64, debug and release", "why_tests_cant": "The bench harness chooses the number of calls; it is unbounded.", "anchors": ["benches/testsamples.rs bench_decode"]}
{"id": "C76", "title": "The metadata benchmark counts what it reads", "statement": "For every file with the sixteen tags, in any case and order, the program counts ten times the bytes read from the file: all of the metadata and less than 2048 bytes more. Otherwise it panics with the first name that is missing.", "quantifier": "all files, chunkings and comments, debug and release", "why_tests_cant": "No test runs it; the claim is for every file and way of reading it.", "anchors": ["examples/bench_metadata.rs", "src/lib.rs FlacReader::get_tag"]}
{"id": "C77", "title": "There are no two ways to read a file", "statement": "The format that the decoder accepts is unambiguous: a byte string starts with at most one frame header and at most one frame, and every file is exactly one of these: not to be opened, with one error; or with one streaminfo, one set of comments, one sequence of frames, and one way to end. So any decoder that follows the same grammar gives the same samples.", "quantifier": "all byte strings (for existence: without half a gigabyte of consecutive zero bytes)", "why_tests_cant": "Ambiguity is about pairs of parses of any byte string.", "anchors": ["src/frame.rs", "src/subframe.rs", "src/metadata.rs", "src/lib.rs FlacReader::new"]}
{"id": "C78", "title": "The frames do not depend on the metadata", "statement": "If two files have the same bytes behind their metadata, then after opening them every sequence of calls that read blocks or samples has the same results on both, up to the first failure of the source, whatever their streaminfo, comments, padding and other blocks are. In particular the MD5 sum and the number of samples in the streaminfo have no influence.", "quantifier": "all pairs of files, readers and chunkings, all bytes behind the metadata, all sequences of calls, debug and release", "why_tests_cant": "It is about all pairs of files and all histories.", "anchors": ["src/lib.rs FlacReader::blocks", "src/lib.rs FlacReader::samples", "src/frame.rs FrameReader::read_next_or_eof"]}
{"id": "C79", "title": "What the comparisons with the reference decoder establish", "statement": "The test that compares with the reference decoder passes on a file exactly if the file opens, its streaminfo has a number of samples, the first frames of the file that reach that number decode and have at least as many channels as the streaminfo says, and the reference samples start with theirs. The test that compares streaminfos passes exactly if the streaminfo that metaflac prints is that of the file, unknown and zero counting as the same. Lines or samples beyond those are not looked at.", "quantifier": "all files, all reference samples, all lines printed by metaflac, all chunkings, debug and release", "why_tests_cant": "It is about what a test means: for which of all files and references it passes.", "anchors": ["tests/testsamples.rs compare_decoded_stream", "tests/testsamples.rs compare_metaflac_streaminfo", "tests/testsamples.rs read_streaminfo"]}
{"id": "C80", "title": "Bit reads on any input, with the width of the counter", "statement": "Reading a number in unary counts zeros up to a one in 32 bits. Every sequence of bit reads has the results of the same reads on the bits of the input, where a debug build panics at the 2^32nd zero of one number and a release build takes the count modulo 2^32. If all of them succeed, the reader is behind the byte that has the last bit taken, and nowhere else.", "quantifier": "all inputs (also those with arbitrarily long runs of zeros), all readers and chunkings, all sequences of reads of legal widths, debug and release", "why_tests_cant": "The interesting inputs are longer than 512 MiB, and it ranges over all sequences of reads.", "anchors": ["src/input.rs Bitstream", "src/input.rs Bitstream::read_unary", "src/input.rs Bitstream::read_leq_u8"]}
{"id": "C81", "title": "Exactly the frames that a release build accepts", "statement": "A release build decodes a frame from an input exactly if the input starts with a frame of the format, where a number in unary may also be written with 2^32 (or a multiple of it) additional zeros, and a sum that includes such a number is taken modulo 2^32. The block shows that frame's header and samples, and the reader is behind it. The only byte strings that are accepted in addition to well-formed frames have 2^32-1 zero bits in a row, and there are such.", "quantifier": "all inputs without restriction, all readers, chunkings and recycled buffers, release builds", "why_tests_cant": "It is a statement in both directions about all byte strings, with no bound on the length.", "anchors": ["src/frame.rs FrameReader::read_next_or_eof", "src/input.rs Bitstream::read_unary", "src/subframe.rs decode_rice_partition", "src/subframe.rs read_subframe_header"]}
{"id": "C82", "title": "Exactly the inputs on which a debug build panics", "statement": "In a debug build reading a frame panics exactly if the input starts like a frame up to a number in unary (a quotient of a residual, or the number of wasted bits) that has 2^32 zeros, or, for wasted bits, whose value plus one does not fit 32 bits. On every other input the result is a block, the end of the stream, or an error.", "quantifier": "all inputs without restriction, all readers, chunkings and recycled buffers, debug builds", "why_tests_cant": "Absence of panics is about all inputs; the inputs with a panic are longer than 512 MiB.", "anchors": ["src/frame.rs FrameReader::read_next_or_eof", "src/input.rs Bitstream::read_unary", "src/subframe.rs read_subframe_header"]}
{"id": "C83", "title": "All results of reading a frame, on any input", "statement": "In a debug build reading a frame from any input has one of these results, and they exclude each other: the block of the frame the input starts with; the error of the fault it starts with, consumed up to the fault; no block at the end; a panic if a number in unary overflows its count; or the error of the source if it ends or fails before any of these. In a release build, which wraps instead of panicking, the same with frames and faults as a 32-bit count of zeros sees them; these faults are those of the format except on inputs with 2^32 - 1 zeros in a row.", "quantifier": "all inputs without restriction, all readers, chunkings, recycled buffers and both builds", "why_tests_cant": "A complete case distinction over all byte strings, including ones longer than 512 MiB.", "anchors": ["src/frame.rs FrameReader::read_next_or_eof", "src/subframe.rs decode", "src/input.rs Bitstream::read_unary"]}
{"id": "C84", "title": "The test that compares Vorbis comments", "statement": "The test that compares a file's vendor string and tags with the listing of the reference program passes if the listing is right for the file (vendor string on one line; values on any number of lines). If all values are on one line, it passes exactly if the vendor string is the listed one and the listed comments are, in order, the first of those that the crate reports. If the values have any number of lines, none with carriage returns or like those of the listing, it passes exactly if vendor string, names and lines agree as far as the file's values go; it does not notice further lines of a value that only the listing has. For a file without comments it passes on an empty listing and fails on any other; if the file does not open it fails.", "quantifier": "all files, all chunkings, all vendor strings and comments in the file and in the listing, both builds, old and new str::lines", "why_tests_cant": "It is about what a test can and cannot find out, for all files.", "anchors": ["tests/testsamples.rs compare_metaflac_vorbis_comment", "src/lib.rs FlacReader::tags, vendor", "src/metadata.rs Tags"]}
{"id": "C85", "title": "Playing any file, without restriction", "statement": "Every string of bytes after the metadata consists, in exactly one way, of frames and then the end, a fault, the place where the source breaks off, or (builds with overflow checks only) a run of zeros that makes a counter overflow. The sample iterator yields exactly the interleaved samples of these frames and then, accordingly, the end for ever, the error and then the end, or a panic. Every file either cannot be opened, with the error of C64, or plays like that; decode_simple writes these samples and passes the error on. Without 512 MiB of zeros in a row this is the reading of C66, and does not depend on the build.", "quantifier": "all files and streams, all ends and chunkings, both builds", "why_tests_cant": "It is a complete case distinction over all inputs, including those with 512 MiB of zeros.", "anchors": ["src/lib.rs FlacReader::open, FlacReader::samples, FlacSamples::next", "src/frame.rs FrameReader::read_next_or_eof", "src/input.rs Bitstream::read_unary", "examples/decode_simple.rs decode_file"]}
{"id": "C86", "title": "The example programs on lists of files", "statement": "decode_simple treats its arguments in order, prints one line per file (done, or the kind and reason of the error), leaves the samples up to the error in an audio file, and goes on with the next file after an error; only a panic of the decoder (C85) ends it. decode prints a line per file and panics at the first file that is missing, not FLAC, not 16-bit stereo or faulty, after writing its samples up to the first bad frame; without arguments it says so. tags prints the comments of the files in order and panics at the first that does not open. If several inputs have the same output path, the last one that opens wins.", "quantifier": "all lists of arguments, all contents of the file system, both builds; inputs and outputs at different paths", "why_tests_cant": "It is about sequences of files of any number and any contents.", "anchors": ["examples/decode_simple.rs main", "examples/decode.rs main", "examples/tags.rs main"]}
{"id": "C87", "title": "Other containers, on any contents", "statement": "Given any packets, decode_ogg either panics before it writes anything (no front: streaminfo and announced header packets), or writes exactly the stereo frames of the packets up to the first packet that is neither empty nor starts with a stereo frame, and panics there, or succeeds if there is none. Given any track, decode_mp4 panics before writing if there is no streaminfo, or writes exactly the stereo frames up to the first place where the table says there is one and there is none, and panics there, or succeeds if there is no such place. Frames are those of C81 (release) or of the format (debug).", "quantifier": "all lists of packets, all metadata blocks, chunk contents and tables in ascending order, also with arbitrarily long runs of zeros, debug and release", "why_tests_cant": "It says how much is written and how the program ends for all contents of containers.", "anchors": ["examples/decode_ogg.rs", "examples/decode_mp4.rs", "src/frame.rs FrameReader::read_next_or_eof"]}
{"id": "C88", "title": "Exactly the inputs on which the fuzzers fail", "statement": "Without the fuzzing configuration, the fuzzers for single blocks, full streams and differing buffers fail in a build with overflow checks exactly on those inputs in which a number in unary makes a counter overflow (in the first frame, in any frame that is reached, or in the first frame after two different bytes), and never in other builds. Nothing else, no index, slice, unwrap, arithmetic or assertion, fails on any input.", "quantifier": "all inputs without restriction, debug and release", "why_tests_cant": "Fuzzing samples inputs; the failing ones are longer than 512 MiB, and that there are no others is about all inputs.", "anchors": ["fuzz/fuzzers/decode_single_block.rs", "fuzz/fuzzers/decode_full.rs", "fuzz/fuzzers/diff.rs"]}
{"id": "C89", "title": "Samples fit the declared bits per sample", "statement": "Every sample of a decoded block fits the number of bits per sample that the frame declares. (This is false: any 32-bit values can come with any declared width. What holds: all samples fit 32 bits; and the claim holds for frames whose subframes are constant or verbatim, and for frames made by an encoder from samples that fit.)", "quantifier": "all inputs, readers and builds; all channels of 32-bit values and all widths for the converse", "why_tests_cant": "Test files are made by encoders, whose samples fit; what can come out is about all inputs.", "anchors": ["src/frame.rs FrameReader::read_next_or_eof", "src/frame.rs Block", "src/subframe.rs decode"]}
{"id": "C90", "title": "Blocks agree with the streaminfo", "statement": "The blocks of a file have the number of channels that its streaminfo says, at most its maximum block size, and in total its number of samples. (This is false: behind every metadata there can be frames for which all three are wrong, and they are decoded without error. A program must look at the blocks.)", "quantifier": "all metadata, readers, builds", "why_tests_cant": "Files for which it is false are not among the samples, and that they exist for every streaminfo is not a finite matter.", "anchors": ["src/lib.rs FlacReader::blocks", "src/frame.rs FrameReader::read_next_or_eof", "src/metadata.rs StreamInfo"]}
{"id": "C91", "title": "Decoding can start at any frame", "statement": "A frame reader carries nothing from one frame to the next: a new one that starts behind some frames gives, from there on, exactly the results, blocks and errors, of one that has decoded these frames, whatever follows and whatever kinds of readers the two have.", "quantifier": "all lists of frames, all bytes behind them, all buffers, all numbers of further calls, all readers, debug and release", "why_tests_cant": "It compares all continuations of all streams.", "anchors": ["src/frame.rs FrameReader::new", "src/frame.rs FrameReader::read_next_or_eof"]}
{"id": "C92", "title": "Every sound can be stored and played back", "statement": "For every sound of up to 8 channels and 2^36 samples, every bit depth a frame can declare, every block size and every metadata there is a file, in numbered blocks of at most that size, from which the sample iterator gives exactly this sound, interleaved, and then ends.", "quantifier": "all sounds of 32-bit samples, 1 to 8 channels, up to 2^36 points in time; all block sizes from 1 to 65535; all metadata; debug and release", "why_tests_cant": "It is about all sounds.", "anchors": ["src/lib.rs FlacReader::samples", "src/frame.rs FrameReader::read_next_or_eof", "src/subframe.rs decode"]}
{"id": "C93", "title": "The examples for other containers on lists of files", "statement": "decode_ogg and decode_mp4 treat their arguments in order, print nothing, and panic at the first file that they do not accept. decode_ogg accepts a file that opens, whose packets have a front (streaminfo and the announced header packets) and then only empty packets and stereo frames, and which ends without an error of the container; of others it has written the frames up to that point. decode_mp4 decodes the first FLAC track and ignores all others; a file without one is accepted and nothing is written; a track without streaminfo leaves no audio file, one without chunk offsets or sample table an empty one. If several inputs have the same output path, the last one that gets as far as creating the file wins.", "quantifier": "all lists of arguments, all packets and tracks in them (tables in ascending order), both builds; inputs and outputs at different paths", "why_tests_cant": "It is about sequences of files of any number and any contents.", "anchors": ["examples/decode_ogg.rs main, decode_file", "examples/decode_mp4.rs main, decode_file, get_streaminfo"]}
{"id": "C94", "title": "The programs that measure time, from their arguments to what they print", "statement": "bench_decode measures its first argument five times if it can be read to its end, has no fault, has at least one frame and tells its number of samples; each run has one time per frame, from the end of one frame to the end of the next, and prints the 10th, 50th and 90th percentile of the times per sample. It panics for every other file and without an argument. bench_metadata looks at the first 1024 things in its directory; if there is a FLAC file among them and all of them open and have the sixteen tags, it prints the 10th, 50th and 90th percentile of the times for ten openings, and the 10th percentile of the rates at which bytes were read; these are all bytes of the metadata and less than 2048 more. Otherwise it panics.", "quantifier": "all file systems, arguments, directory contents and clocks (that fit 64 bits; for the rates: that go forward)", "why_tests_cant": "It ranges over all files, all directories and all timings.", "anchors": ["examples/bench_decode.rs main, read_file, decode_file, print_stats", "examples/bench_metadata.rs main"]}
{"id": "C95", "title": "The fuzzing configuration on any input", "statement": "Built as the fuzzers are (31-byte buffer, checksums not compared), reading the next frame from any bytes gives exactly one of five results, and which one is determined by the bytes: a frame (with any bytes in the places of its checksums), the error for the first faulty field (never a checksum error), the end, a panic (only in a build with overflow checks, and only if a unary count overflows its counter), or the error of the source if the bytes break off before any of these. Samples come out accordingly, and are those of the published configuration up to the first wrong checksum. Hence the fuzz targets panic exactly for inputs whose (first, or any reached) frame overflows a counter, and for no other input.", "quantifier": "all byte strings of any length, all sources and chunkings, both builds, all buffers", "why_tests_cant": "It gives the exact set of inputs for which a fuzzer reports anything; the shortest such input is longer than 500 MB.", "anchors": ["src/frame.rs read_frame_header_or_eof, FrameReader::read_next_or_eof (cfg(fuzzing))", "src/input.rs BufferedReader::new (cfg(fuzzing))", "fuzz/fuzzers/decode_single_block.rs", "fuzz/fuzzers/decode_full.rs", "fuzz/fuzzers/diff.rs"]}
{"id": "C96", "title": "Truncated and damaged files", "statement": "What a file gives, a longer file that begins with it gives first: the same streaminfo and comments, and the same samples in front of any others; if the shorter file stops at a fault (or cannot be opened because of one), the longer one gives exactly the same. So damage from some byte on, or missing data, cannot change any sample of the frames in front of it. In particular, if a well-formed file is cut anywhere (the source ends, or fails with an I/O error), then either it is cut within the metadata and opening gives the error of the source, or the same metadata and exactly the samples of the frames that are complete come out, followed by the error of the source, or by the end if the source just ends at a frame boundary or one byte behind it.", "quantifier": "all files (well-formed or not), all extensions and cut points, all ends and chunkings, both builds", "why_tests_cant": "There are as many cases as pairs of files and cut points, and the part that was read ahead at the cut depends on the chunking.", "anchors": ["src/lib.rs FlacReader::open, FlacReader::samples, FlacSamples::next", "src/frame.rs FrameReader::read_next_or_eof", "src/input.rs BufferedReader"]}
{"id": "C97", "title": "The documented examples, the measurements and the sample comparison on any file", "statement": "For every file that opens, whatever its contents: the example that computes a root mean square visits exactly the samples of the frames in front of the end, the first error or a panic, and panics in the latter two cases (or if there are 2^31 or more samples in a build with overflow checks); the example that converts to an audio file has written exactly these samples when it ends or panics; the measuring program succeeds for exactly the files that play to their end, have at least one frame and give the number of samples, and its figures are then those of these frames; the benchmark gives the bytes per frame for as many iterations as there are frames in front of an error, and panics for more; the comparison with the reference decoder passes exactly if the frames that cover the number of samples are there and the reference starts with them.", "quantifier": "all files and sources, all reference outputs, all clocks, all numbers of iterations, both builds", "why_tests_cant": "The earlier statements leave out files with half a gigabyte of zeros, in which a counter can wrap around or panic; no test has such a file.", "anchors": ["src/lib.rs documentation examples", "examples/bench_decode.rs main, decode_file", "benches/testsamples.rs bench_decode", "tests/testsamples.rs compare_decoded_stream"]}
{"id": "C98", "title": "Safe code cannot cause undefined behaviour", "statement": "Whatever implementation of io::Read or of ReadBytes the crate is used with, as long as it is safe code, no call of the crate accesses memory outside of its buffers, and nothing it returns depends on memory that was not initialised. In particular this holds for sources that write to the buffer behind the bytes they return, return bytes they did not write, write when they fail, or return any number; and for readers that return anything.", "quantifier": "all implementations of io::Read and of ReadBytes that safe code can give, all sequences of calls, both builds", "why_tests_cant": "A test uses a well-behaved source; and undefined behaviour need not have any visible effect when it happens.", "anchors": ["src/input.rs BufferedReader::read_u8, ReadBytes", "src/metadata.rs read_vorbis_comment_block, read_application_block", "src/frame.rs StereoSamples::next", "src/lib.rs FlacReader::new"]}
{"id": "C99", "title": "A Cursor can be read from any position", "statement": "Wherever a Cursor stands, also behind the end of its data, where set_position or seek can put it: every read returns the bytes from that position on and moves behind them, or, if there are not enough, fails with UnexpectedEof and leaves the position. In particular, behind the end there are no bytes, no frames and no metadata.", "quantifier": "all data, all positions below 2^64, all lengths, all sequences of calls, both builds", "why_tests_cant": "The positions at which sums overflow are far from any that a test uses, and what happens there differs between builds.", "anchors": ["src/input.rs impl ReadBytes for io::Cursor<T>", "src/frame.rs FrameReader::read_next_or_eof", "src/metadata.rs read_metadata_block_with_header"]}
{"id": "C100", "title": "The tag iterators do what they say on any list of comments", "statement": "Tags::new and GetTag::new can be called with any list of strings and indices. Tags returns, for every comment in order, the part before the index as name and the part behind the byte at the index as value. GetTag returns the values of those comments whose name is the given one up to ASCII case, in order. After the last comment both return None on every call, and the size hint of Tags is exact at all times. A call panics exactly if it comes to a comment of which it needs a part that would begin or end inside of a character or behind the end of the string; a later call goes on with the next comment.", "quantifier": "all lists of comments with any strings and any indices, all names, all numbers of calls, also after a panic", "why_tests_cant": "Which indices are harmless depends on where the characters of a string begin, and whether the iteration is still in order after a panic depends on all comments before it.", "anchors": ["src/metadata.rs Tags::new, Tags::next, Tags::size_hint", "src/metadata.rs GetTag::new, GetTag::next"]}
{"id": "C101", "title": "A subframe decodes correctly into any slice, with any sample width", "statement": "subframe::decode is public and can be called with any slice and any number of bits per sample, not only with those of a frame. If it succeeds, the bits it read are a subframe of the format for that many samples of that width, and the slice holds exactly these samples: nothing that was in the slice before matters. It accepts every such subframe. Otherwise it returns an error: also if the slice is empty, or if samples have no bits.", "quantifier": "all slices of 32-bit integers of any length and content, all widths, all bits, all readers, at any bit position, both builds", "why_tests_cant": "The length is cut to 16 bits on the way; tests decode blocks, which have at most 65535 samples, and what goes wrong depends on the length modulo 2^16, the order and the contents of the slice.", "anchors": ["src/subframe.rs decode", "src/subframe.rs decode_fixed", "src/subframe.rs decode_lpc", "src/subframe.rs decode_residual"]}
{"id": "C102", "title": "Bit reads with a number of bits that is not allowed are refused", "statement": "The methods of Bitstream are public and take any 32-bit number of bits. With a number that the method is not meant for (more than 8, 16 or 32 bits, or, for the method that reads 9 to 16 bits, fewer than 9) a read panics, reads nothing, and later reads return the bits that follow as if nothing had happened. All other reads return the next bits of the data.", "quantifier": "all readers, all data, all sequences of bit reads with any widths below 2^32, both builds", "why_tests_cant": "The effect of a wrong width shows in later reads, and depends on the bits that are left from earlier ones; the checks are compiled only into debug builds.", "anchors": ["src/input.rs Bitstream::read_leq_u8", "src/input.rs Bitstream::read_gt_u8_leq_u16", "src/input.rs Bitstream::read_leq_u16", "src/input.rs Bitstream::read_leq_u32", "src/input.rs Bitstream::read_unary"]}
{"id": "C103", "title": "A program that catches a panic can go on with the reader", "statement": "Some data make the decoder panic in debug builds. A program that catches the panic and uses the reader again is safe: after any block reads and any next() of a sample iterator, whether they returned or panicked, the reader stands behind some of the bytes of its data, in order (none comes twice, none is made up); every block read takes at least one byte if there is one, so that going on comes to the end; and after a panic a sample iterator is in the state in which samples() would return it for the reader at that place.", "quantifier": "all data, all readers whose data ends (Cursor, BufferedReader), all sequences of calls with any buffers, any number of panics, both builds", "why_tests_cant": "It concerns the state that every possible panic leaves behind, in every function on the way and for all data; the data that panic are half a gigabyte long.", "anchors": ["src/frame.rs FrameReader::read_next_or_eof", "src/lib.rs FlacSamples::next", "src/crc.rs Crc8Reader", "src/crc.rs Crc16Reader", "src/input.rs Bitstream"]}
