(** Properties of the configuration [fuzzing]: the crate as the fuzzers in [fuzz/] build
    it, with a buffer of 31 bytes and without the comparison of checksums.  Definitions
    whose names end in [_fz] model that configuration (ModelFuzzing.v).

    [unchecked_frame h chs w] (SpecFuzzing.v): [w] is a frame with header [h] and channels
    [chs], but with any bytes in the places of its checksums.  [delivers_in 31 t script l]:
    the results of [read] in [script], of at most 31 bytes each, deliver [l] and then [t].
    [no_zero_bytes], [no_zero_run]: as in C27. *)
From Verif Require Import SpecFuzzing ProofFuzz2 ProofTimes PropertiesFrame PropertiesMeta PropertiesWhole PropertiesPrograms.
From Verif Require Import SpecReader.

(** * C71: only checksums make a difference *)

(** On the same reader, in the same state, with the same buffer: the published
    configuration reports a checksum that does not match, or both do the same. *)
Theorem C71_frames : forall {S} (rb : ReadBytes S) m fuel buffer s,
  (exists e, fst (read_next_or_eof rb m fuel buffer s) = Err e /\ checksum_error e)
  \/ read_next_or_eof rb m fuel buffer s = read_next_or_eof_fz rb m fuel buffer s.
Proof. exact (@frames_differ). Qed.
Theorem C71_samples : forall {S} (rb : ReadBytes S) m fuel it,
  (exists e, fst (fs_next rb m fuel it) = Ok (Some (RErr e)) /\ checksum_error e)
  \/ fs_next rb m fuel it = fs_next_fz rb m fuel it.
Proof. exact (@samples_differ). Qed.

(** What is decoded are frames with any bytes for checksums; all of them and no other. *)
Theorem C71_decoded : forall {S} (rb : ReadBytes S) t D, stream rb t D -> forall m fuel buffer st h chs w rest,
  unchecked_frame h chs w -> D st (w ++ rest) -> (length (w ++ rest) < fuel)%nat ->
  exists b st', read_next_or_eof_fz rb m fuel buffer st = (Ok (Some b), st') /\ block_shows b h chs /\ D st' rest.
Proof. exact (@frame_decoded_fz). Qed.
Theorem C71_only : forall {S} (rb : ReadBytes S) t D, stream rb t D -> forall m fuel buffer st l b st',
  m = Debug \/ no_zero_run (2 ^ 32 - 1) (bytes_bits l) ->
  D st l -> (length l < fuel)%nat -> read_next_or_eof_fz rb m fuel buffer st = (Ok (Some b), st') ->
  exists h chs w rest, l = w ++ rest /\ D st' rest /\ unchecked_frame h chs w /\ block_shows b h chs.
Proof. exact (@frame_only_fz). Qed.

(** The smaller buffer does not show: the reader is a stream of the bytes that the source
    delivers, and opening gives the same as in the published configuration, with both
    readers before the same bytes. *)
Theorem C71_reader_is_a_stream : forall m t,
  stream (br_rb m) t (buffered_in 31 t)
  /\ forall script l, delivers_in 31 t script l -> buffered_in 31 t (br_new_fz script) l.
Proof. exact (fun m t => conj (cap_stream 31 cap31 m t) (cap_new 31 cap31 t)). Qed.
Theorem C71_open : forall m un un' t fuel script script' l opts,
  (forall n, length (un n) = n) -> (forall n, length (un' n) = n) ->
  delivers t script l -> delivers_in 31 t script' l ->
  opened_alike (fun r r' => match fr_input r, fr_input r' with
                            | Full inp, Full inp' | MetadataOnly inp, MetadataOnly inp' =>
                                exists rest, buffered t inp rest /\ buffered_in 31 t inp' rest
                            | _, _ => False
                            end)
    (flac_new_ext m un fuel script opts) (flac_new_ext_fz m un' fuel script' opts).
Proof. exact open_fz. Qed.

(** * C72: the fuzzers, built as they are, find nothing *)

Theorem C72_frames : forall {S} (rb : ReadBytes S) t D, stream rb t D -> forall m fuel buffer st l,
  m = Release \/ no_zero_run (2 ^ 32 - 1) (bytes_bits l) -> D st l -> (length l < fuel)%nat ->
  value_or_error (fst (read_next_or_eof_fz rb m fuel buffer st)).
Proof. exact (@frame_safe_fz). Qed.
(** Iterating over samples gives samples, no more than 65535 per byte, then perhaps one
    error, and then the end for ever. *)
Theorem C72_samples : forall {S} (rb : ReadBytes S) t D, stream rb t D -> forall m fuel (r : flac_reader S) s it l,
  fr_blocks r = Ok s -> fr_samples r = Ok it \/ fr_into_samples r = Ok it ->
  D s l -> (length l < fuel)%nat -> (1 < fuel)%nat -> m = Release \/ no_zero_bytes (2 ^ 29 - 1) l ->
  exists pcm last, yields (fs_next_fz rb m fuel) it (map ROk pcm ++ last) /\ len pcm <= 65535 * len l
    /\ (last = [] \/ exists e, last = [RErr e]).
Proof. exact (@samples_bounded_fz). Qed.
(** What the buffer contains and how large it is does not matter. *)
Theorem C72_buffers : forall {S} (rb : ReadBytes S) t D, stream rb t D -> forall m fuel buffer1 buffer2 st l,
  D st l -> (length l < fuel)%nat ->
  match fst (read_next_or_eof_fz rb m fuel buffer1 st), fst (read_next_or_eof_fz rb m fuel buffer2 st) with
  | Ok (Some b1), Ok (Some b2) =>
      block_time_of b1 = block_time_of b2 /\ block_duration b1 = block_duration b2
      /\ block_channels b1 = block_channels b2
      /\ v_items (block_into_buffer b1) = v_items (block_into_buffer b2)
  | r1, r2 => r1 = r2
  end.
Proof. exact (@frame_buffers_fz). Qed.

Section ForAllBuilds.
Context (m : build) (un : nat -> list Z).
Notation memory := (forall n, length (un n) = n).

Theorem C72_header : memory -> forall fuel data, bytes_ok data -> (length data < fuel)%nat ->
  fuzz_decode_header_fz m un fuel data = Ok tt.
Proof. exact (fuzz_header_ok_fz m un). Qed.
Theorem C72_single_block : memory -> forall fuel data, bytes_ok data -> (length data < fuel)%nat ->
  m = Release \/ no_zero_bytes (2 ^ 29 - 1) data -> fuzz_decode_single_block_fz m un fuel data = Ok tt.
Proof. exact (fuzz_block_ok_fz m un). Qed.
Theorem C72_full : memory -> forall fuel turns data, bytes_ok data -> (length data + 1 < fuel)%nat ->
  m = Release \/ no_zero_bytes (2 ^ 29 - 1) data -> 65535 * len data < Z.of_nat turns ->
  fuzz_decode_full_fz m un fuel turns data = Ok tt.
Proof. exact (fuzz_full_ok_fz m un). Qed.
Theorem C72_diff : memory -> forall fuel data, bytes_ok data -> (length data < fuel)%nat ->
  m = Release \/ no_zero_bytes (2 ^ 29 - 1) data -> fuzz_diff_fz m un fuel data = Ok tt.
Proof. exact (fuzz_diff_ok_fz m un). Qed.
End ForAllBuilds.

(** * Examples *)

(** A frame with its last byte changed: an error, or decoded nevertheless. *)
Definition broken_bytes : list Z := removelast stereo_bytes ++ [(List.last stereo_bytes 0 + 1) mod 256].
Example C71_example :
  fst (read_next_or_eof (cu_rb Debug) Debug 1000 (mkVec [] 0) (mkCursor broken_bytes 0)) = Err (FormatError "frame CRC mismatch")
  /\ match read_next_or_eof_fz (cu_rb Debug) Debug 1000 (mkVec [] 0) (mkCursor broken_bytes 0) with
     | (Ok (Some b), st) => v_items (block_into_buffer b) = concat (snd (hd (mkHeader false 0 0 None MidSide None, []) program_good))
         /\ cu_pos st = len broken_bytes
     | _ => False
     end.
Proof. vm_compute. repeat split. Qed.
Example C71_unchecked : unchecked_frame (info_header stereo_info 4) stereo_pcm broken_bytes.
Proof.
  destruct stereo_bytes_ok as (hw & bps & bits & pad & body & crc & (front & c & Hh & Hc & ->) & Hw & Hch & Hb & Ebits & Hpad & Hcrc & E).
  exists (front ++ [c]), bps, bits, pad, body, (crc / 256), ((List.last stereo_bytes 0 + 1) mod 256).
  split; [exists front, c; split; [exact Hh|split; [destruct Hc; assumption|reflexivity]]|].
  do 5 (split; [assumption|]). assert (0 <= crc < 2 ^ 16) by (destruct Hcrc; assumption).
  split; [lia|]. split; [apply Z.mod_pos_bound; lia|].
  unfold broken_bytes. change [crc / 256; crc mod 256] with ([crc / 256] ++ [crc mod 256]) in E. rewrite !app_assoc in E.
  rewrite E at 1. rewrite removelast_last, <- !app_assoc. reflexivity.
Qed.
Example C71_open_example : exists script l, delivers_in 31 TEof script l /\ bytes_ok l /\ l = program_file
  /\ match flac_new_fz Debug (repeat 7) 1000 script with Ok r => fr_get_streaminfo r = info | _ => False end.
Proof.
  assert (bytes_ok program_file) as Hb by (apply bytes_check; vm_compute; reflexivity).
  exists (slice_reads_fz 1000 program_file), program_file. split; [|split; [exact Hb|split; [reflexivity|vm_compute; reflexivity]]].
  apply slice_delivers_fz; [exact Hb|apply Nat.ltb_lt; vm_compute; reflexivity].
Qed.
Definition fuzz_data : list Z := [1; 2] ++ firstn 200 program_file ++ broken_bytes.
Example C72_example : bytes_ok fuzz_data /\ no_zero_bytes (2 ^ 29 - 1) fuzz_data
  /\ fuzz_diff_fz Debug (repeat 7) 1000 fuzz_data = Ok tt.
Proof.
  split; [apply bytes_check; vm_compute; reflexivity|]. split; [apply short_zeros; vm_compute; reflexivity|].
  vm_compute. reflexivity.
Qed.

Print Assumptions C71_frames.
Print Assumptions C71_samples.
Print Assumptions C71_decoded.
Print Assumptions C71_only.
Print Assumptions C71_reader_is_a_stream.
Print Assumptions C71_open.
Print Assumptions C72_frames.
Print Assumptions C72_samples.
Print Assumptions C72_buffers.
Print Assumptions C72_header.
Print Assumptions C72_single_block.
Print Assumptions C72_full.
Print Assumptions C72_diff.
