(** Model of the [main] functions of the examples for other containers and of the programs
    that measure time. *)
From Verif Require Export ModelMains.

(** A track of an mp4 file, as the crate [mp4parse] gives it.
    examples/decode_mp4.rs:38-43, :66-67, :108-118. *)
Record track := mkTrack {
  (** [track.codec_type == CodecType::FLAC] *)
  t_flac : bool;
  (** [track.data]: [None] if it is not an audio entry; in an audio entry, the blocks of
      the [FLACSpecificBox], or [None] if there is no such box *)
  t_blocks : option (option (list (Z * list Z)));
  (** offsets of chunks; [None] if [track.stco] is [None] *)
  t_offsets : option (list Z);
  (** frames per chunk; [None] if [track.stsc] is [None] *)
  t_table : option (list (Z * Z))
}.
(** What the crate [ogg] gives for the file at a path: packets, and whether there is an
    error (and not the end of the file) after them.  [inl]: the file cannot be opened.
    examples/decode_ogg.rs:28-30, :34, :40, :61. *)
Definition ogg_files := list Z -> io_kind + list (list Z) * bool.
(** What the crate [mp4parse] gives for the file at a path: the tracks ([None]: an error),
    and the results of the file's [read]s after a [seek] to an offset.  Simplification:
    seeking succeeds.  examples/decode_mp4.rs:29-34, :76. *)
Definition mp4_files := list Z -> io_kind + option (list track * (Z -> list event)).

Section Containers.
  Context (m : build) (uninit : nat -> list Z) (fuel : nat) (wav_path : list Z -> list Z).

  (** examples/decode_ogg.rs:26-67 [decode_file].  Where the headers end early, it does not
      matter whether by an error or by the end of the file. *)
  Definition ogg_file (files : ogg_files) (fname : list Z) : M wav unit :=
    match files fname with
    | inl _ => lift (Panic "failed to open ogg file")
    | inr (packets, broken) =>
        decode_ogg m uninit fuel packets ;;;
        if broken : bool then lift (Panic "failed to read ogg") else ret tt
    end.
  (** examples/decode_ogg.rs:127-131 *)
  Definition ogg_main (files : ogg_files) : list (list Z) -> M world unit :=
    for_each (run_file wav_path (ogg_file files)).

  (** examples/decode_mp4.rs:43-95, for a FLAC track; with :104-129 [get_streaminfo] *)
  Definition mp4_track (t : track) (reads : Z -> list event) : M wav unit :=
    flac_box <- lift (expect_some (t_blocks t) "expected to find audio entry in FLAC track") ;;
    let blocks := match flac_box with Some blocks => blocks | None => [] end in
    match t_offsets t, t_table t with
    | Some chunk_offsets, Some chunk_samples =>
        decode_mp4 m uninit fuel blocks reads chunk_offsets chunk_samples
    | Some _, None =>
        osi <- lift (get_streaminfo m uninit blocks) ;;
        si <- lift (expect_some osi "missing streaminfo") ;;
        wav_create (spec_of si) ;;;
        lift (Panic "missing sample to chunk box")
    | None, _ =>
        osi <- lift (get_streaminfo m uninit blocks) ;;
        si <- lift (expect_some osi "missing streaminfo") ;;
        wav_create (spec_of si) ;;;
        lift (Panic "missing chunk offset box")
    end.
  (** examples/decode_mp4.rs:38-100: the first FLAC track, if there is one *)
  Fixpoint mp4_tracks (tracks : list track) (reads : Z -> list event) : M wav unit :=
    match tracks with
    | [] => ret tt
    | t :: tracks => if t_flac t then mp4_track t reads else mp4_tracks tracks reads
    end.
  (** examples/decode_mp4.rs:26-101 [decode_file] *)
  Definition mp4_file (files : mp4_files) (fname : list Z) : M wav unit :=
    match files fname with
    | inl _ => lift (Panic "failed to open mp4 file")
    | inr None => lift (Panic "failed to decode mp4")
    | inr (Some (tracks, reads)) => mp4_tracks tracks reads
    end.
  (** examples/decode_mp4.rs:169-173 *)
  Definition mp4_main (files : mp4_files) : list (list Z) -> M world unit :=
    for_each (run_file wav_path (mp4_file files)).
End Containers.

Section Measuring.
  Context (m : build) (uninit : nat -> list Z) (fuel turns : nat) (fs : file_system).

  (** [read_to_end], until a [read] gives nothing.  Simplification: [read]s give what they
      give to a buffer of 2048 bytes.
      examples/bench_decode.rs:22, benches/testsamples.rs:40. *)
  Fixpoint read_to_end (script : list event) : outcome (list Z) :=
    match script with
    | [] => Ok []
    | EvErr k :: _ => Err (IoError k)
    | EvData [] :: _ => Ok []
    | EvData c :: script => rest <~ read_to_end script ;; Ok (c ++ rest)
    end.
  (** examples/bench_decode.rs:19-24 *)
  Definition read_file (path : list Z) : outcome (list Z) :=
    match fs path with
    | inl _ => Panic "unwrap"
    | inr script => expect (read_to_end script) "unwrap"
    end.
  (** examples/bench_decode.rs:103-115.  [clock run k]: what the [k]-th call of
      [PreciseTime::now] in this run gives.  [args]: without the name of the program. *)
  Definition bench_decode_main (clock : nat -> nat -> Z) (args : list (list Z))
      : outcome (list (stats * ((Z * Z) * (Z * Z) * (Z * Z)))) :=
    fname <~ expect_some (nth_error args 0) "no file given" ;;
    data <~ read_file fname ;;
    bench_runs m uninit fuel turns (map clock (seq 0 5)) data.

  (** examples/bench_metadata.rs:31-69.  [entries]: paths, and whether there is a file at
      the path and its extension is "flac".  Times are in nanoseconds for ten openings
      ([duration_ns] over 1), rates in bytes per nanosecond. *)
  Fixpoint measure_loop (clock : nat -> Z) (ticks : nat) (entries : list (list Z * bool))
      (times rates : list (Z * Z)) : outcome (list (Z * Z) * list (Z * Z)) :=
    match entries with
    | [] => Ok (times, rates)
    | (path, true) :: entries =>
        let epoch := clock ticks in
        bytes <~ bench_metadata m uninit fuel fs path ;;
        duration_ns <~ nanoseconds epoch (clock (Datatypes.S ticks)) ;;
        measure_loop clock (Datatypes.S (Datatypes.S ticks)) entries
          (times ++ [(duration_ns, 1)]) (rates ++ [(bytes, duration_ns)])
    | (_, false) :: entries => measure_loop clock ticks entries times rates
    end.
  (** examples/bench_metadata.rs:19-82.  [walk]: what [WalkDir] gives, without errors.  The
      mean, which is computed from the sum of the times, is not modelled. *)
  Definition bench_metadata_main (clock : nat -> Z) (walk : list (list Z * bool))
      : outcome ((Z * Z) * (Z * Z) * (Z * Z) * (Z * Z)) :=
    r <~ measure_loop clock 0 (firstn 1024 walk) [] [] ;;
    let '(file_times, bytes_per_sec) := r in
    file_times <~ sort_times file_times ;;
    bytes_per_sec <~ sort_times bytes_per_sec ;;
    p10 <~ percentile m 10 file_times ;;
    p50 <~ percentile m 50 file_times ;;
    p90 <~ percentile m 90 file_times ;;
    p10_mibs <~ percentile m 10 bytes_per_sec ;;
    Ok (p10, p50, p90, p10_mibs).
End Measuring.
