(** Model of the benchmarks of /repo, and of the examples in the documentation of the
    crate.  Floating point arithmetic is not modelled: where the programs divide or add up
    floating point numbers, the model gives the numbers that go in. *)
From Verif Require Export ModelPrograms.
From Coq Require Import Ascii.

(** A string literal, as bytes.
    examples/bench_metadata.rs:43-60 and the messages of the examples. *)
Fixpoint literal (s : string) : list Z :=
  match s with
  | EmptyString => []
  | String c s => Z.of_N (N_of_ascii c) :: literal s
  end.

Section Bench.
  (** [fuel], [turns]: as in ModelPrograms.v. *)
  Context (m : build) (uninit : nat -> list Z) (fuel : nat).

  (** ** The documentation of the crate *)

  (** src/lib.rs:20-24.  [summed]: the samples of which the squares are added up.  [count]
      has the type [i32]. *)
  Fixpoint rms_loop {S} (rb : ReadBytes S) (turns : nat) (it : flac_samples S)
      (summed : list Z) (count : Z) : outcome (list Z * Z) :=
    match turns with
    | O => OutOfFuel
    | Datatypes.S turns =>
        match fs_next rb m fuel it with
        | (Ok None, _) => Ok (summed, count)
        | (Ok (Some sample), it) =>
            s <~ expect (of_result sample) "unwrap" ;;
            count <~ chk m i32 (count + 1) ;;
            rms_loop rb turns it (summed ++ [s]) count
        | (o, _) => _ <~ o ;; Ok (summed, count)
        end
    end.
  (** src/lib.rs:17-25 *)
  Definition doc_rms (turns : nat) (fs : file_system) (fname : list Z) : outcome (list Z * Z) :=
    reader <~ expect (flac_open m uninit fuel fs fname) "unwrap" ;;
    it <~ fr_samples reader ;;
    rms_loop (br_rb m) turns it [] 0.

  (** src/lib.rs:49-52 *)
  Fixpoint doc_wav_loop {S} (rb : ReadBytes S) (turns : nat) (it : flac_samples S) : M wav unit :=
    match turns with
    | O => lift OutOfFuel
    | Datatypes.S turns =>
        r <- call_on (fs_next rb m fuel) it ;;
        let '(item, it) := r in
        match item with
        | None => ret tt
        | Some opt_sample =>
            sample <- lift (expect (of_result opt_sample) "failed to decode FLAC stream") ;;
            wav_write sample ;;;
            doc_wav_loop rb turns it
        end
    end.
  (** src/lib.rs:36-52 *)
  Definition doc_wav (turns : nat) (fs : file_system) (fname : list Z) : M wav unit :=
    reader <- lift (expect (flac_open m uninit fuel fs fname) "failed to open FLAC stream") ;;
    wav_create (spec_of (fr_get_streaminfo reader)) ;;;
    it <- lift (fr_samples reader) ;;
    doc_wav_loop (br_rb m) turns it.

  (** src/lib.rs:61-63: the lines that are printed *)
  Fixpoint print_values (turns : nat) (it : get_tag) : outcome (list Z) :=
    match turns with
    | O => OutOfFuel
    | Datatypes.S turns =>
        match get_tag_next it with
        | (Ok None, _) => Ok []
        | (Ok (Some value), it) => rest <~ print_values turns it ;; Ok (value ++ [10] ++ rest)
        | (o, _) => _ <~ o ;; Ok []
        end
    end.
  (** src/lib.rs:60-63 *)
  Definition doc_artist (turns : nat) (fs : file_system) (fname : list Z) : outcome (list Z) :=
    reader <~ expect (flac_open m uninit fuel fs fname) "unwrap" ;;
    print_values turns (fr_get_tag reader (literal "ARTIST")).

  (** ** examples/bench_decode.rs *)

  (** How far into a file or a cursor one is when [left] is left of its [read]s.
      examples/bench_decode.rs:42-45, examples/bench_metadata.rs:62. *)
  Definition event_bytes (e : event) : Z := match e with EvData l => len l | EvErr _ => 0 end.
  (** examples/bench_decode.rs:42 [data.len()], for a list of [read]s. *)
  Definition bytes_in (script : list event) : Z := fold_right Z.add 0 (map event_bytes script).
  (** examples/bench_decode.rs:42-45 [position()]. *)
  Definition file_position (script left : list event) : Z := bytes_in script - bytes_in left.

  (** [a.to(b).num_nanoseconds().unwrap()].  examples/bench_decode.rs:69, :85. *)
  Definition nanoseconds (a b : Z) : outcome Z :=
    if i64 (b - a) =? b - a then Ok (b - a) else Panic "unwrap".

  (** What [decode_file] measures.  Times per sample are pairs of a duration in nanoseconds
      and a number of samples.  examples/bench_decode.rs:70, :86-88. *)
  Record stats := mkStats {
    st_data_bytes : Z;
    st_num_samples : Z;
    st_total_ns : Z;
    st_sample_times : list (Z * Z)
  }.

  (** examples/bench_decode.rs:64-83.  [clock k]: what the [k]-th call of
      [PreciseTime::now] gives. *)
  Fixpoint bench_loop {S} (rb : ReadBytes S) (turns : nat) (clock : nat -> Z) (ticks : nat)
      (sample_buffer : vec) (frame_epoch : Z) (sample_times : list (Z * Z)) (frame_reader : S)
      : outcome (list (Z * Z) * nat) :=
    match turns with
    | O => OutOfFuel
    | Datatypes.S turns =>
        match read_next_or_eof rb m fuel sample_buffer frame_reader with
        | (Ok (Some b), frame_reader) =>
            let now := clock ticks in
            duration_ns <~ nanoseconds frame_epoch now ;;
            n <~ block_len m b ;;
            bench_loop rb turns clock (Datatypes.S ticks) (block_into_buffer b) now
              (sample_times ++ [(duration_ns, n)]) frame_reader
        | (Ok None, _) => Ok (sample_times, ticks)
        | (Err _, _) => Panic "failed to decode"
        | (o, _) => _ <~ o ;; OutOfFuel
        end
    end.
  (** examples/bench_decode.rs:36-89.  [usize] has 64 bits. *)
  Definition bench_decode_file (turns : nat) (clock : nat -> Z) (data : list Z) : outcome stats :=
    let script := slice_reads (Datatypes.S (length data)) data in
    opened <~ expect (new_on m uninit fuel data) "unwrap" ;;
    data_bytes <~ chk m u64 (len data - file_position script (fr_into_inner opened)) ;;
    reader <~ expect (new_on m uninit fuel data) "unwrap" ;;
    let si := fr_get_streaminfo reader in
    let bps := si_bits_per_sample si in
    samples <~ expect_some (si_samples si) "unwrap" ;;
    num_samples <~ chk m i64 (i64 samples * si_channels si) ;;
    if negb (bps <? 8 * 16) then Panic "assertion failed"
    else
      frame_reader <~ fr_blocks reader ;;
      let epoch := clock O in
      r <~ bench_loop (br_rb m) turns clock 1 (buffer_for si) epoch [] frame_reader ;;
      let '(sample_times, ticks) := r in
      total_duration_ns <~ nanoseconds epoch (clock ticks) ;;
      Ok (mkStats data_bytes num_samples total_duration_ns sample_times).

  (** [x.partial_cmp(y).unwrap()] is at most [Equal], for quotients; 0 / 0 is not a number.
      Simplification: quotients are exact.  examples/bench_decode.rs:93. *)
  Definition no_number (x : Z * Z) : bool := (fst x =? 0) && (snd x =? 0).
  (** examples/bench_decode.rs:93 *)
  Definition quotient_le (x y : Z * Z) : outcome bool :=
    if no_number x || no_number y then Panic "unwrap" else Ok (fst x * snd y <=? fst y * snd x).
  (** [sort_by]: any sorting gives the same sequence of values.
      examples/bench_decode.rs:93. *)
  Fixpoint sort_insert (x : Z * Z) (l : list (Z * Z)) : outcome (list (Z * Z)) :=
    match l with
    | [] => Ok [x]
    | y :: l' =>
        c <~ quotient_le x y ;;
        if c then Ok (x :: l) else r <~ sort_insert x l' ;; Ok (y :: r)
    end.
  (** examples/bench_decode.rs:93 *)
  Fixpoint sort_times (l : list (Z * Z)) : outcome (list (Z * Z)) :=
    match l with
    | [] => Ok []
    | x :: l => r <~ sort_times l ;; sort_insert x r
    end.
  (** [times[k * times.len() / 100]].  examples/bench_decode.rs:95-97. *)
  Definition percentile (k : Z) (times : list (Z * Z)) : outcome (Z * Z) :=
    i <~ chk m u64 (k * len times) ;; index times (i / 100).
  (** examples/bench_decode.rs:91-101: the quotients that are printed *)
  Definition print_stats (sample_times : list (Z * Z)) : outcome ((Z * Z) * (Z * Z) * (Z * Z)) :=
    times <~ sort_times sample_times ;;
    p10 <~ percentile 10 times ;;
    p50 <~ percentile 50 times ;;
    p90 <~ percentile 90 times ;;
    Ok (p10, p50, p90).
  (** examples/bench_decode.rs:103-115, after the file was read into memory; [clocks]: one
      clock per run *)
  Fixpoint bench_runs (turns : nat) (clocks : list (nat -> Z)) (data : list Z)
      : outcome (list (stats * ((Z * Z) * (Z * Z) * (Z * Z)))) :=
    match clocks with
    | [] => Ok []
    | clock :: clocks =>
        st <~ bench_decode_file turns clock data ;;
        p <~ print_stats (st_sample_times st) ;;
        rest <~ bench_runs turns clocks data ;;
        Ok ((st, p) :: rest)
    end.

  (** ** benches/testsamples.rs *)

  (** benches/testsamples.rs:43-50: the variables that the closure changes. *)
  Record bench := mkBench {
    bench_reader : flac_reader breader;
    bench_buffer : vec;
    bench_bytes : Z;
    bench_iterations : Z
  }.
  (** The reader after its frame reader was used (it was lent by [blocks()]).
      benches/testsamples.rs:54-63. *)
  Definition give_back (r : flac_reader breader) (blocks : breader) : flac_reader breader :=
    mkFr (fr_streaminfo r) (fr_vorbis_comment r) (Full blocks).
  (** benches/testsamples.rs:51-69.  [data]: what the cursor that is taken out of the
      reader (benches/testsamples.rs:19-33) was made of.  Simplification: for the time
      between the two calls of [mem::replace] there, the reader is not modelled. *)
  Definition bench_iter (data : list Z) (bps : Z) (s : bench) : outcome bench :=
    blocks <~ fr_blocks (bench_reader s) ;;
    match read_next_or_eof (br_rb m) m fuel (bench_buffer s) blocks with
    | (Ok (Some b), blocks) =>
        n <~ block_len m b ;;
        n <~ chk m u32 (n * (bps / 8)) ;;
        bytes <~ chk m u32 (bench_bytes s + n) ;;
        iterations <~ chk m u64 (bench_iterations s + 1) ;;
        Ok (mkBench (give_back (bench_reader s) blocks) (block_into_buffer b) bytes iterations)
    | (Ok None, _) =>
        reader <~ expect (new_on m uninit fuel data) "unwrap" ;;
        Ok (mkBench reader (mkVec [] 0) (bench_bytes s) (bench_iterations s))
    | (Err _, _) => Panic "decode error"
    | (o, _) => _ <~ o ;; OutOfFuel
    end.
  (** [bencher.iter]: it calls the closure some number of times.
      benches/testsamples.rs:51. *)
  Fixpoint bench_iters (n : nat) (data : list Z) (bps : Z) (s : bench) : outcome bench :=
    match n with
    | O => Ok s
    | Datatypes.S n => s <~ bench_iter data bps s ;; bench_iters n data bps s
    end.
  (** benches/testsamples.rs:35-74, after the file was read into memory *)
  Definition bench_decode (n : nat) (data : list Z) : outcome Z :=
    reader <~ expect (new_on m uninit fuel data) "unwrap" ;;
    let bps := si_bits_per_sample (fr_get_streaminfo reader) in
    if negb (bps <? 8 * 16) then Panic "assertion failed"
    else
      s <~ bench_iters n data bps (mkBench reader (mkVec [] 0) 0 0) ;;
      if bench_iterations s =? 0 then Panic "attempt to divide by zero"
      else Ok (bench_bytes s / bench_iterations s).

  (** ** examples/bench_metadata.rs *)

  (** examples/bench_metadata.rs:43-60 *)
  Definition bench_tags : list string :=
    ["date"; "originaldate"; "tracknumber"; "tracktotal"; "discnumber"; "disctotal";
     "title"; "album"; "artist"; "albumartist"; "artistsort"; "albumartistsort";
     "musicbrainz_trackid"; "musicbrainz_albumid"; "musicbrainz_artistid";
     "musicbrainz_albumartistid"]%string.
  (** examples/bench_metadata.rs:43-60: [get_tag(name).next().expect(..)], name after name. *)
  Fixpoint expect_tags {T} (reader : flac_reader T) (names : list string) : outcome unit :=
    match names with
    | [] => Ok tt
    | name :: names =>
        value <~ fst (get_tag_next (fr_get_tag reader (literal name))) ;;
        _ <~ expect_some value name ;;
        expect_tags reader names
    end.
  (** examples/bench_metadata.rs:38-63, [n] times; the type of [bytes] is [u64].  Asking
      the file for its position succeeds. *)
  Fixpoint metadata_opens (n : nat) (fs : file_system) (path : list Z) (bytes : Z) : outcome Z :=
    match n with
    | O => Ok bytes
    | Datatypes.S n =>
        reader <~ expect (flac_open m uninit fuel fs path) "unwrap" ;;
        _ <~ expect_tags reader bench_tags ;;
        let script := match fs path with inl _ => [] | inr script => script end in
        bytes <~ chk m u64 (bytes + file_position script (fr_into_inner reader)) ;;
        metadata_opens n fs path bytes
    end.
  (** examples/bench_metadata.rs:35-63: the bytes that are counted for one file *)
  Definition bench_metadata (fs : file_system) (path : list Z) : outcome Z :=
    metadata_opens 10 fs path 0.
End Bench.
