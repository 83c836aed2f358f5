(** Model of the rest of src/error.rs, of [FlacReader::open], and of programs that use
    the crate: /repo/examples and /repo/fuzz/fuzzers. *)
From Verif Require Export ModelLib.

(** * src/error.rs *)

(** src/error.rs:47-62.  The text of an [io::Error] comes from the standard library:
    [io_text]. *)
Definition error_display (io_text : io_kind -> string) (e : error) : string :=
  match e with
  | IoError k => io_text k
  | FormatError reason => "Ill-formed FLAC stream: " ++ reason
  | Unsupported feature =>
      "A currently unsupported feature of the FLAC format was encountered: " ++ feature
  end%string.
(** src/error.rs:65-71 *)
Definition error_description (io_description : io_kind -> string) (e : error) : string :=
  match e with
  | IoError k => io_description k
  | FormatError reason => reason
  | Unsupported _ => "unsupported feature"
  end%string.
(** src/error.rs:73-79.  The cause of an error is an [io::Error] if anything. *)
Definition error_cause (e : error) : option io_kind :=
  match e with IoError k => Some k | FormatError _ => None | Unsupported _ => None end.
(** src/error.rs:82-86 *)
Definition from_io (k : io_kind) : error := IoError k.
(** src/error.rs:88-94 *)
Definition from_utf8_error : error :=
  FormatError "Vorbis comment or vendor string is not valid UTF-8".

(** * src/lib.rs: files *)

(** What [File::open] gives for a path: an error, or a file, that is, the results of
    its [read]s.  src/lib.rs:456, :468. *)
Definition file_system := list Z -> io_kind + list event.

(** src/lib.rs:464-469 [FlacReader::open_ext] *)
Definition flac_open_ext (m : build) (uninit : nat -> list Z) (fuel : nat)
    (fs : file_system) (filename : list Z) (options : flac_reader_options)
    : outcome (flac_reader breader) :=
  match fs filename with
  | inl k => Err (from_io k)
  | inr file => flac_new_ext m uninit fuel file options
  end.
(** src/lib.rs:455-458 [FlacReader::open] *)
Definition flac_open (m : build) (uninit : nat -> list Z) (fuel : nat)
    (fs : file_system) (filename : list Z) : outcome (flac_reader breader) :=
  match fs filename with
  | inl k => Err (from_io k)
  | inr file => flac_new m uninit fuel file
  end.

(** * Programs *)

(** The state of a program: the audio file that it writes, if it has created one.
    Simplification: the functions of the crate [hound] that create and write it
    succeed; samples are kept as they are passed to them.
    examples/decode_simple.rs:21-26, examples/decode.rs:27-32. *)
Record wav_spec := mkSpec { ws_channels : Z; ws_sample_rate : Z; ws_bits_per_sample : Z }.
(** examples/decode_simple.rs:29-30, examples/decode.rs:35: the file and what was written to it. *)
Definition wav := option (wav_spec * list Z).

(** examples/decode_simple.rs:29, examples/decode.rs:35 *)
Definition wav_create (spec : wav_spec) : M wav unit := put (Some (spec, [])).
(** examples/decode_simple.rs:34 *)
Definition wav_write (x : Z) : M wav unit := fun w =>
  (Ok tt, match w with Some (spec, l) => Some (spec, l ++ [x]) | None => None end).
(** examples/decode_simple.rs:21-26, examples/decode.rs:27-32 *)
Definition spec_of (si : stream_info) : wav_spec :=
  mkSpec (u16 (si_channels si)) (si_sample_rate si) (u16 (si_bits_per_sample si)).

(** A call on an object that the program owns.
    examples/decode_simple.rs:32, examples/decode.rs:42. *)
Definition call_on {S A} (c : M S A) (s : S) : M wav (A * S) := fun w =>
  match c s with
  | (Ok a, s') => (Ok (a, s'), w)
  | (Err e, _) => (Err e, w)
  | (Panic why, _) => (Panic why, w)
  | (UB why, _) => (UB why, w)
  | (OutOfFuel, _) => (OutOfFuel, w)
  end.
(** [expect], [unwrap], or a [panic!] on errors.  examples/decode.rs:21, :45. *)
Definition expect {A} (o : outcome A) (msg : string) : outcome A :=
  match o with Err _ => Panic msg | o => o end.
(** The same for a call that changes a state (examples/decode_ogg.rs:42, :78-86). *)
Definition expect_m {S A} (c : M S A) (msg : string) : M S A := fun s =>
  let (o, s') := c s in (expect o msg, s').
(** [expect] of an [Option] (examples/decode_ogg.rs:113, examples/decode_mp4.rs:43). *)
Definition expect_some {A} (o : option A) (msg : string) : outcome A :=
  match o with Some a => Ok a | None => Panic msg end.

Section Programs.
  (** [fuel]: as for the functions of the crate.  [turns]: a bound on the turns of the
      loops of the program. *)
  Context (m : build) (uninit : nat -> list Z) (fuel : nat).

  (** ** examples/decode_simple.rs *)

  (** examples/decode_simple.rs:32-35 *)
  Fixpoint simple_loop {S} (rb : ReadBytes S) (turns : nat) (it : flac_samples S) : M wav unit :=
    match turns with
    | O => lift OutOfFuel
    | Datatypes.S turns =>
        r <- call_on (fs_next rb m fuel) it ;;
        let '(item, it) := r in
        match item with
        | None => ret tt
        | Some opt_sample =>
            sample <- lift (of_result opt_sample) ;;
            wav_write sample ;;;
            simple_loop rb turns it
        end
    end.
  (** examples/decode_simple.rs:18-38 [decode_file] *)
  Definition decode_simple (turns : nat) (fs : file_system) (fname : list Z) : M wav unit :=
    reader <- lift (flac_open m uninit fuel fs fname) ;;
    wav_create (spec_of (fr_get_streaminfo reader)) ;;;
    it <- lift (fr_samples reader) ;;
    simple_loop (br_rb m) turns it.

  (** ** examples/decode.rs *)

  (** hound's [SampleWriter16]: it has room for [room] samples.  [write_sample_unchecked]
      writes behind the end of it if that is used up; [flush] panics unless it is.
      examples/decode.rs:48, :57-58, :62. *)
  Definition write_sample_unchecked (x room : Z) : M wav Z :=
    if room <=? 0 then lift (UB "write_sample_unchecked") else wav_write x ;;; ret (room - 1).
  (** examples/decode.rs:51-60 *)
  Fixpoint unchecked_pairs (turns : nat) (ss : stereo_samples) (room : Z) : M wav Z :=
    match turns with
    | O => lift OutOfFuel
    | Datatypes.S turns =>
        r <- call_on (stereo_next m) ss ;;
        let '(item, ss) := r in
        match item with
        | None => ret room
        | Some (l, r) =>
            room <- write_sample_unchecked l room ;;
            room <- write_sample_unchecked r room ;;
            unchecked_pairs turns ss room
        end
    end.
  (** examples/decode.rs:39-63 *)
  Fixpoint decode_loop {S} (rb : ReadBytes S) (turns : nat) (b : block) (frame_reader : S) : M wav unit :=
    match turns with
    | O => lift OutOfFuel
    | Datatypes.S turns =>
        r <- call_on (catch (read_next_or_eof rb m fuel (block_into_buffer b))) frame_reader ;;
        let '(next, frame_reader) := r in
        match next with
        | ROk None => ret tt
        | RErr _ => lift (Panic "error")
        | ROk (Some b) =>
            room <- lift (chk m u32 (block_duration b * 2)) ;;
            ss <- lift (block_stereo_samples b) ;;
            room <- unchecked_pairs (Datatypes.S (Z.to_nat (block_duration b))) ss room ;;
            (if room =? 0 then ret tt else lift (Panic "Insufficient samples written to the sample writer.")) ;;;
            decode_loop rb turns b frame_reader
        end
    end.
  (** examples/decode.rs:20-66 [decode_file] *)
  Definition decode_stereo (turns : nat) (fs : file_system) (fname : list Z) : M wav unit :=
    reader <- lift (expect (flac_open m uninit fuel fs fname) "failed to open FLAC stream") ;;
    let si := fr_get_streaminfo reader in
    if negb ((si_bits_per_sample si =? 16) && (si_channels si =? 2)) then lift (Panic "assertion failed")
    else
      wav_create (spec_of si) ;;;
      frame_reader <- lift (fr_blocks reader) ;;
      decode_loop (br_rb m) turns block_empty frame_reader.

  (** ** examples/tags.rs *)

  (** examples/tags.rs:22-26: the lines that are printed.  [fname ++ ": " ++ name ++ "=" ++
      value] and a newline. *)
  Fixpoint print_tags (turns : nat) (fname : list Z) (it : tags) : outcome (list Z) :=
    match turns with
    | O => OutOfFuel
    | Datatypes.S turns =>
        match tags_next it with
        | (Ok None, _) => Ok []
        | (Ok (Some (name, value)), it) =>
            rest <~ print_tags turns fname it ;;
            Ok (fname ++ [58; 32] ++ name ++ [61] ++ value ++ [10] ++ rest)
        | (o, _) => _ <~ o ;; Ok []
        end
    end.
  (** examples/tags.rs:18-26 *)
  Definition tags_program (turns : nat) (fs : file_system) (fname : list Z) : outcome (list Z) :=
    reader <~ expect (flac_open m uninit fuel fs fname) "failed to open FLAC stream" ;;
    print_tags turns fname (fr_tags reader).

  (** ** examples/decode_ogg.rs, examples/decode_mp4.rs *)

  (** examples/decode_ogg.rs:118-121, examples/decode_mp4.rs:156-159 *)
  Fixpoint write_pairs (turns : nat) (ss : stereo_samples) : M wav unit :=
    match turns with
    | O => lift OutOfFuel
    | Datatypes.S turns =>
        r <- call_on (stereo_next m) ss ;;
        let '(item, ss) := r in
        match item with
        | None => ret tt
        | Some (sl, sr) => wav_write sl ;;; wav_write sr ;;; write_pairs turns ss
        end
    end.
  (** examples/decode_ogg.rs:110-125, examples/decode_mp4.rs:150-161: one frame.  Gives
      the buffer back. *)
  Definition write_frame {S} (rb : ReadBytes S) (buffer : vec) (frame_reader : S) : M wav (vec * S) :=
    r <- call_on (expect_m (read_next_or_eof rb m fuel buffer) "failed to decode frame") frame_reader ;;
        let '(result, frame_reader) := r in
    b <- lift (expect_some result "unexpected EOF") ;;
    ss <- lift (block_stereo_samples b) ;;
    write_pairs (Datatypes.S (Z.to_nat (block_duration b))) ss ;;;
    ret (block_into_buffer b, frame_reader).
  (** [Vec::with_capacity(streaminfo.max_block_size as usize * streaminfo.channels as usize)].
      examples/decode_ogg.rs:59-60, examples/decode_mp4.rs:144-145. *)
  Definition buffer_for (si : stream_info) : vec := mkVec [] (si_max_block_size si * si_channels si).

  (** The packets of an ogg file, as the crate [ogg] gives them.
      examples/decode_ogg.rs:70-94 *)
  Definition read_first_packet (packet : list Z) : outcome (stream_info * Z) :=
    fst ((expect_m (skip (cu_rb m) 7) "unwrap" ;;;
          header_packets_left <- expect_m (read_be_u16 (cu_rb m)) "unwrap" ;;
          expect_m (skip (cu_rb m) 4) "unwrap" ;;;
          b <- expect_m (read_metadata_block_with_header (cu_rb m) m uninit) "failed to read streaminfo" ;;
          match b with
          | MbStreamInfo si => ret (si, header_packets_left)
          | _ => lift (Panic "expected streaminfo, found other metadata block")
          end) (mkCursor packet 0)).
  (** examples/decode_ogg.rs:39-43: gives the packets that are left. *)
  Fixpoint skip_headers (n : nat) (packets : list (list Z)) : outcome (list (list Z)) :=
    match n with
    | O => Ok packets
    | Datatypes.S n =>
        match packets with
        | [] => Panic "failed to read ogg"
        | packet :: packets =>
            _ <~ expect (fst (read_metadata_block_with_header (cu_rb m) m uninit (mkCursor packet 0))) "unwrap" ;;
            skip_headers n packets
        end
    end.
  (** examples/decode_ogg.rs:61-66 *)
  Fixpoint ogg_frames (buffer : vec) (packets : list (list Z)) : M wav unit :=
    match packets with
    | [] => ret tt
    | packet :: packets =>
        if len packet =? 0 then ogg_frames buffer packets
        else r <- write_frame (cu_rb m) buffer (mkCursor packet 0) ;;
        let '(buffer, _) := r in
             ogg_frames buffer packets
    end.
  (** examples/decode_ogg.rs:26-67 [decode_file], after the file was opened *)
  Definition decode_ogg (packets : list (list Z)) : M wav unit :=
    match packets with
    | [] => lift (Panic "failed to read ogg")
    | first_packet :: packets =>
        r <- lift (read_first_packet first_packet) ;;
        let '(streaminfo, header_packets_left) := r in
        packets <- lift (skip_headers (Z.to_nat header_packets_left) packets) ;;
        wav_create (spec_of streaminfo) ;;;
        ogg_frames (buffer_for streaminfo) packets
    end.

  (** A track of an mp4 file, as the crate [mp4parse] gives it: metadata blocks (type and
      contents), offsets of chunks, and pairs of a chunk (counted from 1) and the number
      of frames per chunk from there on.  [reads offset]: the results of the file's
      [read]s after a [seek] to [offset].
      examples/decode_mp4.rs:118-128 *)
  Fixpoint get_streaminfo (blocks : list (Z * list Z)) : outcome (option stream_info) :=
    match blocks with
    | [] => Ok None
    | (block_type, data) :: blocks =>
        b <~ expect (fst (read_metadata_block (cu_rb m) m uninit block_type (u32 (len data)) (mkCursor data 0)))
                    "failed to decode metadata block" ;;
        match b with
        | MbStreamInfo si => Ok (Some si)
        | _ => get_streaminfo blocks
        end
    end.
  (** examples/decode_mp4.rs:147-162 *)
  Fixpoint mp4_frames {S} (rb : ReadBytes S) (n : nat) (buffer : vec) (frame_reader : S) : M wav unit :=
    match n with
    | O => ret tt
    | Datatypes.S n =>
        r <- write_frame rb buffer frame_reader ;;
        let '(buffer, frame_reader) := r in
        mp4_frames rb n buffer frame_reader
    end.
  (** examples/decode_mp4.rs:75-92.  Simplification: [1 + i as u32] is computed also when
      [next_samples] is [None]; it can differ only from the 2^32nd chunk on. *)
  Fixpoint mp4_chunks (reads : Z -> list event) (si : stream_info) (i : Z) (offsets : list Z)
      (next_samples : option (Z * Z)) (samples_iter : list (Z * Z)) (samples_per_chunk : Z) : M wav unit :=
    match offsets with
    | [] => ret tt
    | offset :: offsets =>
        first <- lift (chk m u32 (1 + u32 i)) ;;
        let '(next_samples, samples_iter, samples_per_chunk) :=
          match next_samples with
          | Some (first_chunk, n) =>
              if first_chunk =? first
              then match samples_iter with
                   | [] => (None, [], n)
                   | ns :: rest => (Some ns, rest, n)
                   end
              else (Some (first_chunk, n), samples_iter, samples_per_chunk)
          | None => (None, samples_iter, samples_per_chunk)
          end in
        mp4_frames (br_rb m) (Z.to_nat samples_per_chunk) (buffer_for si) (br_new (reads offset)) ;;;
        mp4_chunks reads si (i + 1) offsets next_samples samples_iter samples_per_chunk
    end.
  (** examples/decode_mp4.rs:38-100 [decode_file], for one track *)
  Definition decode_mp4 (blocks : list (Z * list Z)) (reads : Z -> list event)
      (chunk_offsets : list Z) (chunk_samples : list (Z * Z)) : M wav unit :=
    osi <- lift (get_streaminfo blocks) ;;
    si <- lift (expect_some osi "missing streaminfo") ;;
    wav_create (spec_of si) ;;;
    let '(next_samples, samples_iter) :=
      match chunk_samples with [] => (None, []) | ns :: rest => (Some ns, rest) end in
    mp4_chunks reads si 0 chunk_offsets next_samples samples_iter 0.

  (** ** fuzz/fuzzers (configuration [not(fuzzing)]) *)

  (** [io::Read] of a [Cursor] over [data], through a [BufferedReader]: up to 2048 bytes
      per call.  ([turns] exceeds the number of calls.).
      fuzz/fuzzers/decode_header.rs:17-18. *)
  Fixpoint slice_reads (turns : nat) (data : list Z) : list event :=
    match turns with
    | O => []
    | Datatypes.S turns =>
        match data with
        | [] => []
        | _ => EvData (firstn (Z.to_nat CAPACITY) data) :: slice_reads turns (skipn (Z.to_nat CAPACITY) data)
        end
    end.
  (** fuzz/fuzzers/decode_header.rs:17-18 *)
  Definition new_on (data : list Z) : outcome (flac_reader breader) :=
    flac_new m uninit fuel (slice_reads (Datatypes.S (length data)) data).

  (** fuzz/fuzzers/decode_header.rs:16-22 *)
  Definition fuzz_decode_header (data : list Z) : outcome unit :=
    match new_on data with Err _ => Ok tt | o => _ <~ o ;; Ok tt end.
  (** fuzz/fuzzers/decode_single_block.rs:16-27 *)
  Definition fuzz_decode_single_block (data : list Z) : outcome unit :=
    match new_on data with
    | Ok r =>
        inp <~ fr_blocks r ;;
        match fst (read_next_or_eof (br_rb m) m fuel (mkVec [] 0) inp) with Err _ => Ok tt | o => _ <~ o ;; Ok tt end
    | Err _ => Ok tt
    | o => _ <~ o ;; Ok tt
    end.
  (** fuzz/fuzzers/decode_full.rs:23-28 *)
  Fixpoint fuzz_loop (turns : nat) (it : flac_samples breader) : outcome unit :=
    match turns with
    | O => OutOfFuel
    | Datatypes.S turns =>
        match fs_next (br_rb m) m fuel it with
        | (Ok (Some (ROk _)), it) => fuzz_loop turns it
        | (Ok (Some (RErr _)), _) => Ok tt
        | (Ok None, _) => Ok tt
        | (o, _) => _ <~ o ;; Ok tt
        end
    end.
  (** fuzz/fuzzers/decode_full.rs:16-29 *)
  Definition fuzz_decode_full (turns : nat) (data : list Z) : outcome unit :=
    match new_on data with
    | Ok r => it <~ fr_samples r ;; fuzz_loop turns it
    | Err _ => Ok tt
    | o => _ <~ o ;; Ok tt
    end.
  (** fuzz/fuzzers/diff.rs:40-50, 63-73 *)
  Definition first_block (r : flac_reader breader) (buffer : vec) : outcome (option vec) :=
    inp <~ fr_blocks r ;;
    match fst (read_next_or_eof (br_rb m) m fuel buffer inp) with
    | Ok (Some b) => Ok (Some (block_into_buffer b))
    | Ok None => Ok None
    | Err _ => Ok None
    | o => _ <~ o ;; Ok None
    end.
  (** fuzz/fuzzers/diff.rs:75: [Option<Vec<i32>>] compared by contents *)
  Definition same_result (a b : option vec) : bool :=
    match a, b with
    | Some v, Some v' => if list_eq_dec Z.eq_dec (v_items v) (v_items v') then true else false
    | None, None => true
    | _, _ => false
    end.
  (** fuzz/fuzzers/diff.rs:18-78 *)
  Definition fuzz_diff (data : list Z) : outcome unit :=
    match data with
    | d0 :: d1 :: data =>
        if d0 =? d1 then Ok tt
        else
          let n := 1024 * 8 in
          match new_on data with
          | Err _ => Ok tt
          | Ok r =>
              result0 <~ first_block r (mkVec (repeat d0 (Z.to_nat n)) n) ;;
              if (match result0 with Some v => negb (v_cap v =? n) | None => false end) then Ok tt
              else
                r <~ expect (new_on data) "First time decoded fine, second time should too." ;;
                result1 <~ first_block r (mkVec (repeat d1 (Z.to_nat n)) n) ;;
                if same_result result0 result1 then Ok tt else Panic "assertion failed"
          | o => _ <~ o ;; Ok tt
          end
    | _ => Ok tt
    end.
End Programs.
