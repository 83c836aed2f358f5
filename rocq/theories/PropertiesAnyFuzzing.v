(** C95: what the configuration [fuzzing] gives on any input, in either kind of build.

    SpecAnyFuzzing.v: [unchecked_any_frame m f w]: [w] is a frame, with any bytes in the
    places of its checksums; in a build without overflow checks, perhaps one that needs a
    32-bit counter to wrap.  [unchecked_any_fault m e w]: the bytes up to what the error [e]
    is about.  [unchecked_any_overflow m w]: bytes that make a counter overflow, in a build
    that checks.  [unchecked_incomplete m l]: [l] starts with none of these.
    [unchecked_plays m t l frames o]: [l] consists of [frames], then the samples end as [o]
    says. *)
From Verif Require Import SpecAnyFuzzing ProofAnyFuzzing2 ProofTimes PropertiesFrame PropertiesMeta PropertiesWhole PropertiesPrograms PropertiesFuzzing PropertiesAnyPlay.
From Verif Require Import SpecReader.

(** * Reading one frame *)

Theorem C95_decoded : forall {S} (rb : ReadBytes S) t D, stream rb t D -> forall m fuel buffer st f w rest,
  unchecked_any_frame m f w -> D st (w ++ rest) -> (length (w ++ rest) < fuel)%nat ->
  exists b st', read_next_or_eof_fz rb m fuel buffer st = (Ok (Some b), st')
    /\ block_shows b (fst f) (snd f) /\ block_holds b (snd f) /\ D st' rest.
Proof. exact (@unchecked_decoded). Qed.
Theorem C95_reported : forall {S} (rb : ReadBytes S) t D, stream rb t D -> forall m fuel buffer st e w rest,
  unchecked_any_fault m e w -> D st (w ++ rest) -> (length (w ++ rest) < fuel)%nat ->
  exists st', read_next_or_eof_fz rb m fuel buffer st = (Err e, st') /\ D st' rest.
Proof. exact (@unchecked_reported). Qed.
Theorem C95_panics : forall {S} (rb : ReadBytes S) t D, stream rb t D -> forall m fuel buffer st p rest,
  unchecked_any_overflow m p -> D st (p ++ rest) -> (length (p ++ rest) < fuel)%nat ->
  exists why, fst (read_next_or_eof_fz rb m fuel buffer st) = Panic why.
Proof. exact (@unchecked_panics). Qed.
(** There is nothing else. *)
Theorem C95_cases : forall {S} (rb : ReadBytes S) t D, stream rb t D -> forall m fuel buffer st l,
  D st l -> (length l < fuel)%nat -> (1 < fuel)%nat ->
  let r := read_next_or_eof_fz rb m fuel buffer st in
  (exists f w rest b, l = w ++ rest /\ unchecked_any_frame m f w
     /\ fst r = Ok (Some b) /\ block_shows b (fst f) (snd f) /\ D (snd r) rest)
  \/ (exists e w rest, l = w ++ rest /\ unchecked_any_fault m e w /\ fst r = Err e /\ D (snd r) rest)
  \/ (t = TEof /\ (length l <= 1)%nat /\ fst r = Ok None /\ D (snd r) [])
  \/ (exists p rest why, l = p ++ rest /\ unchecked_any_overflow m p /\ fst r = Panic why)
  \/ (unchecked_incomplete m l /\ fst r = Err (tail_error t)).
Proof. exact (@unchecked_cases). Qed.

(** * Samples *)

(** Any bytes play, in one way. *)
Theorem C95_always : forall m t l, bytes_ok l -> exists frames o, unchecked_plays m t l frames o.
Proof. exact unchecked_exist. Qed.
Theorem C95_one_way : forall m t frames l frames' o o', bytes_ok l ->
  unchecked_plays m t l frames o -> unchecked_plays m t l frames' o' -> frames = frames' /\ o = o'.
Proof. exact unchecked_unique. Qed.
Theorem C95_samples : forall {S} (rb : ReadBytes S) t D, stream rb t D -> forall m fuel s l frames o,
  unchecked_plays m t l frames o -> D s l -> (length l < fuel)%nat -> (1 < fuel)%nat ->
  sounds (fs_next_fz rb m fuel) (mkFs s block_empty 0 0 false) (pcm_of frames) o.
Proof. exact (@unchecked_samples). Qed.
(** The published configuration plays the same, up to the first wrong checksum. *)
Theorem C95_published : forall m t l frames o, bytes_ok l -> any_plays m t l frames o ->
  unchecked_plays m t l frames o
  \/ exists e more o', o = OnError e /\ checksum_error e /\ unchecked_plays m t l (frames ++ more) o'.
Proof. exact published_plays. Qed.

(** * Files and the fuzzers *)
Section ForAllBuilds.
Context (m : build) (un : nat -> list Z).
Notation memory := (forall n, length (un n) = n).

Theorem C95_file : memory -> forall fuel script t l si vc frames o,
  delivers_in 31 t script l -> (length l + 1 < fuel)%nat -> file_unchecked_plays m t l si vc frames o ->
  exists r it, flac_new_fz m un fuel script = Ok r /\ fr_get_streaminfo r = si /\ fr_vorbis_comment r = vc
    /\ fr_samples r = Ok it /\ sounds (fs_next_fz (br_rb m) m fuel) it (pcm_of frames) o.
Proof. exact (unchecked_file_samples m un). Qed.
Theorem C95_single_block : memory -> forall fuel data, bytes_ok data -> (length data + 1 < fuel)%nat ->
  (unchecked_overflows_first m data -> exists why, fuzz_decode_single_block_fz m un fuel data = Panic why)
  /\ (~ unchecked_overflows_first m data -> fuzz_decode_single_block_fz m un fuel data = Ok tt).
Proof. exact (fuzz_block_any_fz m un). Qed.
Theorem C95_full : memory -> forall fuel turns data, bytes_ok data -> (length data + 1 < fuel)%nat ->
  8 * 65535 * len data < Z.of_nat turns ->
  let panics := exists si vc frames, file_unchecked_plays m TEof data si vc frames OnPanic in
  (panics -> exists why, fuzz_decode_full_fz m un fuel turns data = Panic why)
  /\ (~ panics -> fuzz_decode_full_fz m un fuel turns data = Ok tt).
Proof. exact (fuzz_full_any_fz m un). Qed.
(** The first two bytes are what the buffers are filled with. *)
Theorem C95_diff : memory -> forall fuel data, bytes_ok data -> (length data + 1 < fuel)%nat ->
  let overflows := exists d0 d1 data', data = d0 :: d1 :: data' /\ d0 <> d1 /\ unchecked_overflows_first m data' in
  (overflows -> exists why, fuzz_diff_fz m un fuel data = Panic why)
  /\ (~ overflows -> fuzz_diff_fz m un fuel data = Ok tt).
Proof. exact (fuzz_diff_any_fz m un). Qed.
End ForAllBuilds.

(** * Examples *)

(** A frame with a wrong checksum, then one with a reserved bit set. *)
Definition unchecked_bytes : list Z := broken_bytes ++ [255; 250; 0; 0].
Example C95_example : bytes_ok unchecked_bytes
  /\ unchecked_plays Debug TEof unchecked_bytes program_good (OnError (FormatError "invalid frame header, encountered reserved value"))
  /\ any_plays Debug TEof unchecked_bytes [] (OnError (FormatError "frame CRC mismatch")).
Proof.
  assert (bytes_ok unchecked_bytes) as Hb by (apply bytes_check; vm_compute; reflexivity).
  split; [exact Hb|].
  set (n := (length unchecked_bytes + 2)%nat).
  assert (any_plays Debug TEof unchecked_bytes [] (OnError (FormatError "frame CRC mismatch"))) as Ha.
  { exists [], unchecked_bytes. split; [reflexivity|]. split; [constructor|].
    destruct (any_case (fl_rb TEof) TEof _ (fl_stream TEof) Debug n (mkVec [] 0) unchecked_bytes unchecked_bytes (conj eq_refl Hb) ltac:(unfold n; lia) ltac:(unfold n; lia))
      as [(f & w & rest & st & El & Hw & _)|[o Ho]].
    - exfalso. pose proof Hb as Hb'. rewrite El in Hb'.
      destruct (any_decoded (fl_rb TEof) TEof _ (fl_stream TEof) Debug n (mkVec [] 0) (w ++ rest) f w rest Hw (conj eq_refl Hb') ltac:(rewrite <- El; unfold n; lia)) as (b & st' & E & _).
      rewrite <- El in E. vm_compute in E. discriminate E.
    - pose proof (any_stop_now Debug TEof unchecked_bytes o Hb Ho) as E.
      match type of E with ending_outcome o ?r => set (r0 := r) in E; assert (r0 = Err (FormatError "frame CRC mismatch")) as Er by (vm_compute; reflexivity) end.
      rewrite Er in E. destruct o as [|e|]; cbn in E; [discriminate E| |destruct E as [? E]; discriminate E]. congruence. }
  split; [|exact Ha].
  exists [broken_bytes], [255; 250; 0; 0]. split; [reflexivity|]. split; [constructor; [exact C71_unchecked|constructor]|].
  apply (unchecked_on_fault TEof Debug _ [255; 250] [0; 0]). apply unchecked_fault_header.
  - exact (fault_sync_bit 250 (or_introl eq_refl)).
  - intros [H|H]; discriminate H.
Qed.
Example C95_panic : exists script l, delivers_in 31 TEof script l /\ bytes_ok l
  /\ file_unchecked_plays Debug TEof l info program_vc program_good OnPanic.
Proof.
  destruct C85_panic as (fs & path & l & Hat & (w & rest & El & Hw & Hp)).
  pose proof (file_delivers _ _ _ _ Hat) as Hb.
  exists (slice_reads_fz (Datatypes.S (length l)) l), l. split; [apply slice_delivers_fz; [exact Hb|lia]|]. split; [exact Hb|].
  exists w, rest. split; [exact El|]. split; [exact Hw|]. rewrite El in Hb. apply bytes_app in Hb as [_ Hb].
  destruct (C95_published Debug TEof rest _ _ Hb Hp) as [H|(e & _ & _ & H & _)]; [exact H|discriminate H].
Qed.

Print Assumptions C95_decoded.
Print Assumptions C95_reported.
Print Assumptions C95_panics.
Print Assumptions C95_cases.
Print Assumptions C95_always.
Print Assumptions C95_one_way.
Print Assumptions C95_samples.
Print Assumptions C95_published.
Print Assumptions C95_file.
Print Assumptions C95_single_block.
Print Assumptions C95_full.
Print Assumptions C95_diff.
