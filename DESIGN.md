# A Rocq model of ruuda/claxon

## Layout (rocq/theories)

| file | contents |
| --- | --- |
| `ModelBase.v` | outcomes (`Ok`/`Err`/`Panic`/`UB`/`OutOfFuel`), state monad, machine integers with debug/release semantics |
| `ModelInput.v` | `src/input.rs`: `ReadBytes`, `BufferedReader`, `Cursor`, `Bitstream` |
| `ModelCrc.v` | `src/crc.rs` |
| `ModelSubframe.v` | `src/subframe.rs` |
| `ModelFrame.v` | `src/frame.rs` |
| `ModelMetadata.v` | `src/metadata.rs` |
| `ModelLib.v` | `src/lib.rs`, `src/error.rs` |
| `SpecBits.v`, `SpecCrc.v`, `SpecFlac.v`, `SpecFrame.v`, `SpecEncoder.v`, `SpecEncode.v` | independent specifications: bits, GF(2) polynomials, the FLAC subframe and frame grammar as a relation between values and bits with a denotation of the PCM samples, and a reference encoder. These import no model file. |
| `SpecMeta.v`, `SpecFile.v` | the grammar of metadata and of whole files. Of the model they use the record types that the API returns (`StreamInfo` etc.). |
| other `Spec*.v` | what readers, histories of calls, iterators and traces are, in terms of the API; they use the model's types and entry points. |
| `Proof*.v` | lemmas |
| `Properties*.v` | the property theorems, each closed by `exact`, with `Print Assumptions` |

## Modelling decisions

* Machine integers are `Z` with explicit wrap. Every function takes a build
  mode `Debug | Release`: in `Debug` an overflowing `+ - *`, an over-wide shift
  or a failed `debug_assert!` is `Panic`; in `Release` it wraps / masks / is
  skipped. Theorems hold for both modes unless they say otherwise.
* `io::Result`/`Result` are one outcome type; `panic!`, out-of-range slicing,
  `unwrap` on None are `Panic`; an out-of-bounds `get_unchecked` is `UB`.
* `ReadBytes` is a record of operations over a state type, so the decoder is
  generic in its reader exactly as in Rust; `BufferedReader`, `Cursor`,
  `Crc8Reader`, `Crc16Reader` are instances. The underlying `io::Read` of a
  `BufferedReader` is a script: the i-th `read` call returns the i-th element
  (some bytes, or an I/O error); after the script every call returns 0 bytes.
  A terminating run makes finitely many calls, so scripts cover all of them.
* Unbounded loops (`read_unary`, metadata iteration, buffer refills) run on
  fuel and end in `OutOfFuel`; theorems show it never occurs when fuel exceeds the
  input length.
* `&mut [i32]` buffers are lists passed in and returned, updated in place, so
  that stale contents are representable. After an `Err` the buffer contents are
  not modelled (every caller in the crate drops the buffer).
* Fresh uninitialised memory is an arbitrary oracle `nat -> list Z`.
* `Vec` allocation requests are recorded by a ghost hook of the reader record.

## Proof structure

1. *Reader refinement*: a reader state denotes a flat list of bytes and an end
   condition; all model functions are shown to simulate their run on the flat list
   (compositional `sim` relation). Chunking independence follows.
2. *Bit refinement*: a `Bitstream` denotes a list of bits; each read operation is
   equal to the obvious operation on the bit list.
3. *Grammar*: for each decoder function, soundness (success implies that
   the consumed bits are an encoding of the result) and completeness (an encoding
   decodes to its value), and totality (no panic, UB or lack of fuel).
4. *CRC*: table update = 8 steps of polynomial division; linearity over GF(2);
   error detection from the algebra of the generator polynomial.
5. *API layer*: blocks, iterators, metadata, FlacReader on top.

## Plan per property

C01 sim lemma for every function, instantiated at two scripts. C02 op-level
lemmas. C03 expected false (refutation by a computed witness: `pos` is reset
before the failing `read`). C04 invariant over histories. C05-C07 bit refinement.
C08, C09 table sweep lifted by induction over the message. C10 from
the grammar soundness. C11, C12 GF(2) algebra. C13, C15, C16 header grammar.
C14 expected false (first byte 0xff). C17, C18 arithmetic. C19, C20, C23, C24
subframe grammar. C21, C22 loop invariants. C25 pointwise. C26-C28 frame grammar.
C29 two runs with different buffers. C30 totality. C31 expected false (u32
overflow in `read_unary`), proved symbolically on a 512 MiB witness. C32, C34
prefix lemma. C33 expected false (single trailing byte). C35, C36 block lemmas.
C37 expected false for short last blocks; the rest proved. C38, C39 induction over
`next`. C40-C46, C53 metadata grammar. C47-C49 FlacReader. C48 expected false
(one block too many is read). C50 composition. C51 direct. C52 error analysis of
the decoder. C54 converse of C50 from the grammar soundness. C55 exact trace of
the allocation hook. C56 the first four bytes, directly. C57 the reader invariant of
step 1 strengthened by what was taken from the script. C58 a Hoare-style
invariant over all functions ("errors satisfy E, everything else keeps I"). C59 a
relation between the two instances of the build parameter, kept by every function.
C60 an abstract player, followed call by call. C61 the two bytes in front are read in any
case, and the simulation of step 1 also relates the states after errors in the data. C62
a grammar of faults (SpecFault.v); soundness and completeness of each parser with respect
to it, next to those with respect to the grammar of frames. C63 the same for metadata
(SpecMetaFault.v), and an induction over the blocks for the iterator and for opening. C64
to C69 programs over the model of the crate (ModelPrograms.v), specified by the grammars of
files and faults (SpecPrograms.v); C62 and C63 give each call's result, induction over the
frames the loop's. C65 by cases. C70 each frame takes more than one byte per channel and has at most 65535
samples per channel; induction over the input's length. C71 and C72 the configuration for
fuzzing (ModelFuzzing.v): a relation "equal, or a checksum error on the left" kept by every
step, the reader invariant of step 1 for any buffer size up to 2048, the frame grammar without
checksums (SpecFuzzing.v), and a measure that every sample makes smaller. C73 to C76 the
documentation's examples and the benchmarks (ModelBench.v, SpecBench.v): as C66; for C74 insertion
sort, counting the elements below and above; for C75 an invariant on the part of the file that
is ahead; for C76 what C57 says about the source. C77: the decoder is a function and accepts
every frame, so two parses agree; induction over the frames. C78: the simulation of C01, between readers
that differ in metadata. C79 the comparisons in tests/testsamples.rs (ModelTests.v, SpecTests.v): as C66, and
decimal and hexadecimal printing are injective. C80 to C82 (SpecLoose.v): the grammar of frames with the width of the counter of
`read_unary` made explicit, soundness and completeness of each parser once more for release builds, and
a grammar of the inputs that make the counter overflow for debug builds. C83 (SpecLooseFault.v): the
same for the faults of C62, and a case distinction over the results without restriction. C84
(ModelComments.v, SpecComments.v): how a text with line ends is cut into lines, and induction over the comments. C85
(SpecAnyPlay.v): C81 to C83 along the blocks of a file, for its iterator and for the examples. C86
(ModelMains.v, SpecMains.v): induction over the arguments, with the audio files written so far. C87, C88
(SpecAnyContainers.v): as C85, for frames in packets, in chunks and for the fuzzers. C89 to C92
(SpecRange.v): constructing frames for given samples and metadata, and C01, C26, C50, C60 applied to them; C92
by induction over the length of the sound. C93 and C94 (ModelMains2.v, SpecMains2.v): as C86, with C87, C74 and C76 for
single files. C95 (SpecAnyFuzzing.v): as C81 to C85 and C88, for the definitions of ModelFuzzing.v. C96 (SpecCut.v):
corollary of C63 and C85; a fault stays one when bytes are added, and a part of a frame is neither a frame nor a
fault. C97 (SpecAnyBench.v): C73 to C75, C79 and C94 once more, with C85 instead of the format. C98 expected false
(unchecked indexing trusts a number that safe code provides; two computed witnesses). The rest of it (ModelHostile.v,
SpecHostile.v): the invariant of C04 for sources that do anything to the buffer, a simulation between these and
those of step 1, and a Hoare-style invariant over all functions ("no undefined behaviour") for any reader. C99 expected
false (sums of `u64` positions overflow); SpecCursor.v, case distinction on the position, with C02 within the data. C100
(SpecAnyTags.v): a string can be cut exactly at a char boundary, by induction over its characters; then induction over
the calls. C101 expected false (the length is cast to 16 bits); SpecAnySub.v, refinement as for C24 with the contents of
the slice as a further argument of the grammar. C102 expected false in release builds (the widths are checked by
`debug_assert!`); SpecAnyWidth.v, one witness, and for debug builds C05 with a step that changes nothing.
C103 (SpecCatch.v): the invariant of C98 over all functions, which also speaks of the state that a panic leaves, with "the
reader stands behind some of the bytes" for the invariant; then induction over the calls.

## Trusted base

* Coq 8.16.1's kernel (no `vm_compute`/`native_compute` beyond the kernel's own VM,
  no plugins, no flags that switch off checks), and `coqc`'s parser and printer for
  reading the statements.
* `Print Assumptions` after each property theorem says "Closed under the global
  context": none uses an axiom. `coqchk`/`vcheck` list seven constants
  `Coq.ssr.ssrunder.Under_rel.*` of the standard library; they are the abstract module
  signature of ssreflect's `under` tactic, loaded by `Lia`/`ZifyBool`, and no
  theorem depends on them.
* The model is a transcription by hand of the Rust text. Nothing checks it against
  the compiled crate (it cannot be run here). The comment of every definition names the lines it
  transcribes. As a guard against slips, the crate's own tests are run on the model, in both
  build modes: `TestsUnit.v` has all unit tests of `src/`, `TestsFiles.v` those of
  `tests/testsamples.rs` whose sample files are in the repository (including all fuzz
  samples). Where the Rust tests compare with the reference decoder, the MD5 sum of the decoded
  samples (`SpecMd5.v`) is compared with the one stored in the file by the encoder.
  `non_subset.flac` (24 bits, stereo, LPC order above 12) was decoded once with the model, to 4096
  samples without error; it stores no MD5 sum and takes over a minute, so it is not part of the build.
* The semantics of Rust that the model assumes: 64-bit `usize`; overflow checks and
  `debug_assert!` exactly in debug builds (`Debug`), wrapping in release builds
  (`Release`); shifts mask their amount in release builds; `as` truncates; `try!`
  returns early; iterators `zip`, `chunks`, `windows`, `rev` as documented;
  `String::from_utf8`, `str::find`, `eq_ignore_ascii_case`/`to_ascii...` as documented; `Vec`
  allocation succeeds.
* The standard library's `io::Cursor` as documented (data and position); a `Read` is the
  sequence of its results (section "Modelling decisions").

## What is modelled

| code | model |
| --- | --- |
| `src/input.rs` | all of `ReadBytes` and its provided methods, `BufferedReader`, the impls for `&mut R` (forwarding, same record) and `io::Cursor<T>`, `Bitstream` with all its methods, `shift_left`/`shift_right` |
| `src/input.rs` once more | `ModelHostile.v`: `BufferedReader` over an `io::Read` that writes anything to the buffer and returns any number. `Cursor` over an `AsRef` that returns another slice each time. Everywhere else a `read` that returns `n` writes `n` bytes to the front of the buffer and nothing else, and one that fails writes nothing |
| `src/crc.rs` | tables, `Crc8Reader`, `Crc16Reader`; their `read_into` and `skip` panic as in the code |
| `src/subframe.rs` | all functions; both residual codings, constant, verbatim, fixed, LPC (low and high order variants) |
| `src/frame.rs` | varint, header, stereo decoding, `Block` and all its methods, `StereoSamples`, `FrameReader::read_next_or_eof`, `ensure_buffer_len` |
| `src/metadata.rs` | header, all block kinds, `Tags`, `GetTag`, `MetadataBlockReader` |
| `src/lib.rs` | `read_stream_header`, `FlacReaderOptions`, `FlacReader` (`new`, `new_ext`, `open`, `open_ext`, accessors, `blocks`, `samples`, `into_samples`, `into_inner`), `FlacSamples`, `FlacIntoSamples` |
| `src/error.rs` | `Error`, its equality, `Display`, `description`, `cause`, conversions |
| `examples/` | `decode_simple`, `decode`, `tags`, `decode_ogg`, `decode_mp4` with their `main` (`ModelMains.v`, `ModelMains2.v`); the crates `hound`, `ogg`, `mp4parse` are idealised: writing audio files succeeds, packets and tracks are given |
| `fuzz/fuzzers/` | all four targets, with and without `cfg(fuzzing)` |
| `benches/testsamples.rs`, `examples/bench_decode.rs`, `examples/bench_metadata.rs`, examples in the documentation in `src/lib.rs` | `ModelBench.v`, `ModelMains2.v`: from the arguments to the numbers that are printed, but for the mean in `bench_metadata` |
| `tests/testsamples.rs` | `ModelTests.v`, `ModelComments.v`: `compare_decoded_stream`, `compare_metaflac_streaminfo`, `compare_metaflac_vorbis_comment`; the outputs of the programs `flac` and `metaflac` are parameters |
| `cfg(fuzzing)` | `ModelFuzzing.v`: the variants in `src/input.rs` (31-byte buffer) and `src/frame.rs` (checksums read but not compared) |

## What is not modelled

* The file system is a function from paths to an error or the results of reads. Of an
  `io::Error` the kind is kept (`UnexpectedEof` or another one with a number); its message is a parameter.
* `SeekTable`, `CueSheet`, `Picture`: types without code (such blocks are skipped and
  reported as padding; that is modelled).
* In `tests/testsamples.rs`: running `flac` and `metaflac`.
* Programs that overwrite a file they read, walking directories, and the shell scripts. Clocks are
  functions from the number of the call to a time. Floating point: the benchmarks' quotients are
  kept as pairs of integers, sums of squares as the list of samples.
* `Block::stereo_samples` etc. hand out borrows; the model returns values. Lifetimes and
  borrow checking are the compiler's.
* Contents of a buffer after an `Err`: it was moved into the call and is dropped.
* Running out of memory, stack overflow, threads (there are none).

## Findings

Statements of the list that are false of the code, each with a machine-checked
counterexample:

* C03: after an I/O error `BufferedReader` has `pos = 0` but still the old `num_valid`, so
  it delivers the last chunk again (`C03_refuted`).
* C14: a frame/sample number that starts with 0xff is accepted and gives up to 42 bits
  (`C14_refuted`); overlong encodings are accepted too.
* C27: in release builds a unary count of 2^32 wraps to 0, so that a frame which is not
  well-formed is accepted (`C27_refuted`).
* C31: in debug builds 2^29 zero bytes in a subframe make `read_unary` panic by overflow
  (`C31_refuted`).
* C33: a single stray byte at the end is reported as a clean end (`C33_refuted`).
* C37: `Block::time` of a shorter last block in a fixed-blocksize stream is its frame number
  times its *own* size (`C37_refuted`).
* C48: with `metadata_only` and without `read_vorbis_comment` one more block than needed is
  read, and may make opening fail (`C48_refuted`).

* C89: samples need not fit the declared bits per sample; any 32-bit values are possible
  (`C89_refuted`, `C89_any`).
* C90: channels, block sizes and the number of samples need not be those of the streaminfo
  (`C90_refuted`).
* C98: the crate is not sound. `BufferedReader::read_u8` indexes its buffer without a check at a position
  below the number that `inner.read` returned (as `u32`). `io::Read` is a safe trait, so safe code can return more than the
  buffer's length, and `FlacReader::new` then reads behind the buffer (`C98_source_witness`, `C98_overrun`). Also, the vectors for
  application blocks and comments are given to `ReadBytes::read_into` without having been initialised; an
  implementation of that public, safe trait that does not fill them exposes what was in memory
  (`C98_readers_refuted`). Both are the only ways: `C98_open_partial`, `C98_reader_open` and the theorems next to them,
  `C98_unseen_partial`, `C98_overwrites`, and C04 for `StereoSamples`.
* C99: `Cursor::read_into` and `skip` add position and length as `u64`. For a cursor that was moved to the end of that range a
  debug build panics, and a release build skips to the front of the data and reports success (`C99_refuted`,
  `C99_wrap_skip`, `C99_wrap_into`).
* C101: `decode_fixed` and `decode_lpc` cast the length of the slice to `u16`. Given 65536 samples or more, they read the
  residual of a shorter block, take the old contents of the slice for the rest of it, and report success
  (`C101_refuted`, `C101_unchanged`). If the length modulo 2^16 is less than the order, a debug build panics (`C101_debug`).
  Frames have at most 65535 samples, so only direct callers of `subframe::decode` are affected.
* C102: in release builds the numbers of bits given to `Bitstream` are not checked. `read_leq_u8(9)` at a byte boundary returns
  0 and leaves 2^32 - 1 as the number of bits left, so that the next 2^29 - 1 bytes read are 0, also at the end of the
  data (`C102_refuted`, `C102_made_up`). The decoder itself uses allowed numbers only (a debug build would panic: C82).

Other observations, visible in the statements:

* `Block::empty().channel(0)` returns an empty slice rather than panicking.
* `Block::sample(ch, i)` with `i` past the end of a channel that is not the last gives a sample of
  the next channel.
* The number of channels, the sample size and the rate in frame headers are not compared to the
  streaminfo.
* The 8-bit sample rate is in kHz in the format, but read as Hz; the value is not exposed.
* Mid/side decoding is exact for samples in [-2^30, 2^30) (`C25`); all formats up to 30 bits
  per sample are inside.
* Rice values of 2^32 and more wrap and are accepted.
* `read_metadata_block` given a type from 128 to 255 reports a reserved block.
* The comments of a Vorbis comment block are stored in elements of 32 bytes, so the memory requested
  for a block can be up to nine times its claimed length (`C46_block_total`), still
  bounded by the 10 MiB limit on that length.
* A failed `skip`/`read_into` leaves `Cursor` where it was, but `BufferedReader` has consumed
  the bytes it had.
* `ErrorKind::Interrupted` is reported like any other error; a `read` is not retried.
* After an error found in the data (not an I/O error) the reader stands at a definite byte:
  the theorems about sessions (C01, C30, C34, C60) go on behind such errors.
* `C30_calls_source` and `C59_same` allow a source to fail, or to report end of file and later
  deliver more, any number of times; they need a bound of 2^29-2049 zero bytes because of the 2048
  stale bytes that C03 describes.
* The MD5 sum and the number of samples in the streaminfo are not compared to what is decoded (C78).
* The root mean square example of the documentation counts samples in an `i32`: it panics
  (debug) or gives a wrong mean (release) for 2^31 samples and more (`C73_rms_overflow`).
* `examples/bench_decode.rs` takes the position of a cursor for the number of metadata bytes;
  the reader has read ahead, so up to 2047 bytes of the frames are not counted (`C74_refuted`, `C74_bytes`).
* `benches/testsamples.rs` counts bytes in a `u32`, and divides by zero if it is run on a
  file without frames (`C75_rate`).
* The comparison of `tests/testsamples.rs` with the reference decoder stops at the number of
  samples in the streaminfo, and does not look at further frames, channels or reference samples; the
  comparison of streaminfos passes if `metaflac` prints nothing (`C79_samples`, `C79_lines`). The
  comparison of comments does not notice comments that only the crate finds (`C84_compares`) or lines of a value
  that only the listing has (`C84_overlooks`), and fails if the vendor string has a line end.
* Long runs of zeros matter in two ways.  In debug builds they make a unary count overflow and
  panic (C31).  In release builds the count wraps, so nothing panics: C30, C61, C68, C70_bounded
  and C72 hold there for every input.  But what is decoded then is not what the format says
  (C27), so theorems that relate frames to the format need the restriction in release builds.
  C80 to C83 have no restriction: they say what is read, which frames are accepted (release),
  which inputs panic (debug) and which errors are reported, for every input.
