(** C97: the examples in the documentation, the programs that measure and the comparisons of
    the tests, with any file.

    [file_any_plays m t l si vc frames o] (SpecAnyPlay.v): in a build [m] the file [l] opens
    with the streaminfo [si], and has [frames], behind which comes the end, an error or a
    panic, as [o] says.  Every file that opens is like that (C85).  For files that do not open see
    C73 to C76 and C94.  [ends_or_panics], [any_measurable]: SpecAnyBench.v. *)
From Verif Require Import SpecAnyBench ProofAnyBench PropertiesMeta PropertiesWhole PropertiesPrograms PropertiesBench PropertiesTests PropertiesAnyPlay PropertiesMains2.
From Verif Require Import SpecReader.

Section ForAllBuilds.
Context (m : build) (un : nat -> list Z).
Notation memory := (forall n, length (un n) = n).

(** Adding up the squares of all samples; the counter is an [i32]. *)
Theorem C97_rms : memory -> forall fuel turns fs path t l si vc frames o,
  file_at fs path t l -> (length l + 1 < fuel)%nat -> (length (pcm_of frames) < turns)%nat ->
  file_any_plays m t l si vc frames o ->
  let n := len (pcm_of frames) in
  (m = Release \/ n < 2 ^ 31 -> ends_or_panics o (pcm_of frames, i32 n) (doc_rms m un fuel turns fs path))
  /\ (m = Debug /\ 2 ^ 31 <= n -> exists why, doc_rms m un fuel turns fs path = Panic why).
Proof. exact (any_rms m un). Qed.
(** Decoding to an audio file: everything in front of an error or a panic is written. *)
Theorem C97_wav : memory -> forall fuel turns fs path t l si vc frames o,
  file_at fs path t l -> (length l + 1 < fuel)%nat -> (length (pcm_of frames) < turns)%nat ->
  file_any_plays m t l si vc frames o ->
  exists r, doc_wav m un fuel turns fs path None = (r, audio si (pcm_of frames)) /\ ends_or_panics o tt r.
Proof. exact (any_wav m un). Qed.

(** Measuring succeeds for exactly those files that play up to the end, have a frame, and
    have the number of samples in the streaminfo. *)
Theorem C97_measured : memory -> forall fuel turns fs path others t data si n metadata frames clock,
  file_at fs path t data -> (length data + 1 < fuel)%nat -> len data < Z.of_nat turns -> len data < 2 ^ 56 ->
  (forall run, clock_ok (clock run)) -> any_measurable m t data si n metadata frames ->
  exists rs, bench_decode_main m un fuel turns fs clock (path :: others) = Ok rs /\ length rs = 5%nat
    /\ forall run st p, nth_error rs run = Some (st, p) ->
         st_data_bytes st = Z.max 0 (len data - 2048 * ((len metadata + 2047) / 2048))
         /\ st_num_samples st = n * si_channels si
         /\ st_total_ns st = clock run (S (length frames)) - clock run O
         /\ st_sample_times st = measured (clock run) O frames
         /\ are_percentiles (measured (clock run) O frames) p.
Proof. exact (any_main m un). Qed.
Theorem C97_not_measured : memory -> forall fuel turns fs path others t data clock,
  file_at fs path t data -> (length data + 1 < fuel)%nat -> len data < Z.of_nat turns -> len data < 2 ^ 56 ->
  (forall run, clock_ok (clock run)) -> (forall si n metadata frames, ~ any_measurable m t data si n metadata frames) ->
  exists why, bench_decode_main m un fuel turns fs clock (path :: others) = Panic why.
Proof. exact (any_main_panics m un). Qed.

(** The benchmark, called [n] times: if the file plays up to the end, or [n] times is not
    beyond its frames, it gives the number of bytes per frame.  If there are more calls than frames
    in front of an error or a panic, it panics. *)
Theorem C97_rate : memory -> forall fuel data w rest si vc frames o,
  bytes_ok data -> (length data + 1 < fuel)%nat -> data = w ++ rest -> well_formed si vc w ->
  any_plays m TEof rest frames o ->
  forall n, o = AtEnd \/ (n <= length frames)%nat -> Z.of_nat n < 2 ^ 64 ->
  let total := samples_read (over_and_over frames n) * (si_bits_per_sample si / 8) in
  let reads := frames_read (over_and_over frames n) in
  (m = Release \/ total < 2 ^ 32 -> 0 < reads -> bench_decode m un fuel n data = Ok (total mod 2 ^ 32 / reads))
  /\ (reads = 0 \/ (m = Debug /\ 2 ^ 32 <= total) -> exists why, bench_decode m un fuel n data = Panic why).
Proof. exact (any_over m un). Qed.
Theorem C97_rate_stops : memory -> forall fuel data w rest si vc frames o,
  bytes_ok data -> (length data + 1 < fuel)%nat -> data = w ++ rest -> well_formed si vc w ->
  any_plays m TEof rest frames o ->
  forall n, o <> AtEnd -> Z.of_nat n < 2 ^ 64 -> (length frames < n)%nat ->
  exists why, bench_decode m un fuel n data = Panic why.
Proof. exact (any_over_stop m un). Qed.

(** The comparison with the reference decoder passes exactly if the frames with the
    number of samples in the streaminfo are there, and the reference starts with those ([agrees],
    SpecTests.v). *)
Theorem C97_compared : memory -> forall fuel turns fs path t l refs,
  file_at fs path t l -> (length l + 1 < fuel)%nat -> (length l < turns)%nat ->
  (compare_decoded_stream m un fuel turns fs path refs = Ok tt
   /\ exists si vc frames o, file_any_plays m t l si vc frames o /\ agrees si frames refs)
  \/ ((exists why, compare_decoded_stream m un fuel turns fs path refs = Panic why)
      /\ forall si vc frames o, file_any_plays m t l si vc frames o -> ~ agrees si frames refs).
Proof. exact (any_compare m un). Qed.
End ForAllBuilds.

(** * Examples *)

Lemma tagged_any m : any_plays m TEof (stereo_bytes ++ tiny_frame) tagged_frames AtEnd.
Proof.
  apply C85_usual; [apply bytes_check; vm_compute; reflexivity|apply short_zeros; vm_compute; reflexivity|].
  exists None. split; [reflexivity|exact tagged_plays].
Qed.
Example C97_example : forall m,
  file_any_plays m TEof tagged_file info tagged_vc tagged_frames AtEnd
  /\ any_measurable m TEof tagged_file info 1000000 tagged_metadata tagged_frames
  /\ (forall si n w frames, ~ any_measurable m TEof program_file si n w frames).
Proof.
  intros m. destruct C74_example as (Hb & _ & _ & El & Hw & _ & Hn).
  split; [exists tagged_metadata, (stereo_bytes ++ tiny_frame); split; [exact El|split; [exact Hw|apply tagged_any]]|]. split.
  - split; [reflexivity|]. split; [exists tagged_vc, (stereo_bytes ++ tiny_frame); split; [exact El|split; [exact Hw|apply tagged_any]]|].
    split; [exact Hn|discriminate].
  - intros si n w frames (_ & (vc & rest & El' & Hw' & Hp') & _).
    assert (bytes_ok program_file) as Hbp by (apply bytes_check; vm_compute; reflexivity).
    destruct (any_file_unique m TEof program_file _ _ _ _ si vc frames AtEnd Hbp (C85_example m)) as (_ & _ & _ & E); [exists w, rest; auto|discriminate E].
Qed.
(** A file that plays one frame in a debug build and then panics: that frame has been
    written. *)
Example C97_panic : exists fs path l, file_at fs path TEof l /\ forall fuel, (length l + 1 < fuel)%nat ->
  (exists why, doc_wav Debug (repeat 7) fuel 9 fs path None = (Panic why, audio info [10; 9; 12; 10; -15; 1600; 20; -22]))
  /\ (exists why, doc_rms Debug (repeat 7) fuel 9 fs path = Panic why)
  /\ compare_decoded_stream Debug (repeat 7) fuel (length l + 1) fs path [] <> Ok tt.
Proof.
  destruct C85_panic as (fs & path & l & Hat & Hp). exists fs, path, l. split; [exact Hat|]. intros fuel Hf.
  pose proof (repeat_length 7) as Hun. split; [|split].
  - destruct (C97_wav Debug (repeat 7) Hun fuel 9 fs path TEof l info program_vc program_good OnPanic Hat Hf ltac:(vm_compute; lia) Hp) as (r & E & why & ->).
    exists why. rewrite E. reflexivity.
  - exact (proj1 (C97_rms Debug (repeat 7) Hun fuel 9 fs path TEof l info program_vc program_good OnPanic Hat Hf ltac:(vm_compute; lia) Hp) (or_intror eq_refl)).
  - destruct (C97_compared Debug (repeat 7) Hun fuel (length l + 1) fs path TEof l [] Hat Hf ltac:(lia)) as [(_ & si & vc & frames & o & Hp' & Ha)|([why E] & _)]; [exfalso|congruence].
    pose proof Hat as (script & _ & Hd). apply delivers_bytes in Hd.
    destruct (any_file_unique Debug TEof l _ _ _ _ _ _ _ _ Hd Hp Hp') as (<- & _ & <- & _).
    destruct Ha as (samples & first & more & Es & Hr & _ & E). injection Es as <-.
    inversion Hr as [? ? Hle|? f frames' first' Hlt Hr']; subst; [lia|]. discriminate E.
Qed.
(** The third frame of this file is damaged: two calls are fine, three are not. *)
Example C97_run : bench_decode Debug (repeat 7) 1000 2 program_file = Ok 24
  /\ (exists why, bench_decode Debug (repeat 7) 1000 3 program_file = Panic why).
Proof. vm_compute. split; [reflexivity|eexists; reflexivity]. Qed.

Print Assumptions C97_rms.
Print Assumptions C97_wav.
Print Assumptions C97_measured.
Print Assumptions C97_not_measured.
Print Assumptions C97_rate.
Print Assumptions C97_rate_stops.
Print Assumptions C97_compared.
