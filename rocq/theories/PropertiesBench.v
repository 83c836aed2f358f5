(** Properties of the examples in the documentation of the crate and of the benchmarks.

    [file_at], [file_plays], [plays]: as in PropertiesPrograms.v.  [pcm_of frames]: the
    samples of these frames, in order.  [has_comments vc cs] (SpecBench.v): [cs] are the
    comments of the file.  [values_of name cs vs] (SpecFile.v): the values of the comments
    with that name, upper and lower case being the same. *)
From Verif Require Import SpecBench ProofBench ProofAlloc PropertiesFrame PropertiesMeta PropertiesWhole PropertiesPrograms.
From Verif Require Import SpecReader.

Section ForAllBuilds.
Context (m : build) (un : nat -> list Z).
Notation memory := (forall n, length (un n) = n).

(** * C73: the examples in the documentation *)

(** The root mean square: all samples are added up, and counted, if there are less than
    2^31 of them. *)
Theorem C73_rms : memory -> forall fuel turns fs path t l si vc frames,
  file_at fs path t l -> (length l + 1 < fuel)%nat -> (length (pcm_of frames) < turns)%nat ->
  file_plays t l si vc frames None -> len (pcm_of frames) < 2 ^ 31 ->
  doc_rms m un fuel turns fs path = Ok (pcm_of frames, len (pcm_of frames)).
Proof. exact (rms_ok m un). Qed.
(** Otherwise the counter, which is an [i32], overflows. *)
Theorem C73_rms_overflow : memory -> forall fuel turns fs path t l si vc frames,
  file_at fs path t l -> (length l + 1 < fuel)%nat -> (length (pcm_of frames) < turns)%nat ->
  file_plays t l si vc frames None -> 2 ^ 31 <= len (pcm_of frames) ->
  match m with
  | Debug => exists why, doc_rms m un fuel turns fs path = Panic why
  | Release => doc_rms m un fuel turns fs path = Ok (pcm_of frames, i32 (len (pcm_of frames)))
  end.
Proof. exact (rms_overflow m un). Qed.
(** A fault in the file, or its end in the middle of a frame, is not overlooked. *)
Theorem C73_rms_fault : memory -> forall fuel turns fs path t l si vc frames e,
  file_at fs path t l -> (length l + 1 < fuel)%nat -> (length (pcm_of frames) < turns)%nat ->
  no_zero_bytes (2 ^ 29 - 1) l -> file_plays t l si vc frames (Some e) ->
  exists why, doc_rms m un fuel turns fs path = Panic why.
Proof. exact (rms_fault m un). Qed.
(** Decoding to an audio file: as [decode_simple] (C66) but for panics instead of errors. *)
Theorem C73_wav : memory -> forall fuel turns fs path t l si vc frames o,
  file_at fs path t l -> (length l + 1 < fuel)%nat -> (length (pcm_of frames) < turns)%nat ->
  o = None \/ no_zero_bytes (2 ^ 29 - 1) l -> file_plays t l si vc frames o ->
  exists r, doc_wav m un fuel turns fs path None = (r, audio si (pcm_of frames))
    /\ match o with None => r = Ok tt | Some _ => exists why, r = Panic why end.
Proof. exact (wav_ok m un). Qed.
(** One line for every comment called "ARTIST". *)
Theorem C73_artist : memory -> forall fuel turns fs path t w rest si vc cs vs,
  file_at fs path t (w ++ rest) -> (length (w ++ rest) < fuel)%nat -> well_formed si vc w ->
  has_comments vc cs -> values_of [65; 82; 84; 73; 83; 84] cs vs -> (length vs < turns)%nat ->
  doc_artist m un fuel turns fs path = Ok (flat_map (fun v => v ++ [10]) vs).
Proof. exact (artist_ok m un). Qed.
(** Without a file, or without metadata in front of it, they panic. *)
Theorem C73_missing : forall fuel turns fs path k, fs path = inl k ->
  (exists why, doc_rms m un fuel turns fs path = Panic why)
  /\ (exists why, doc_wav m un fuel turns fs path None = (Panic why, None))
  /\ (exists why, doc_artist m un fuel turns fs path = Panic why).
Proof. exact (doc_missing m un). Qed.
Theorem C73_unopened : memory -> forall fuel turns fs path t l,
  file_at fs path t l -> (length l < fuel)%nat ->
  (forall si vc w rest, l = w ++ rest -> ~ well_formed si vc w) ->
  (exists why, doc_rms m un fuel turns fs path = Panic why)
  /\ (exists why, doc_wav m un fuel turns fs path None = (Panic why, None))
  /\ (exists why, doc_artist m un fuel turns fs path = Panic why).
Proof. exact (doc_unopened m un). Qed.

(** * C74: the program that measures decoding *)

(** For a file without a fault and with a number of samples in its streaminfo: one time per
    frame, from one end of a frame to the next, with the number of its samples.  Every other
    file that opens makes it panic.  The bytes of the frames are counted from the next
    multiple of 2048 on. *)
Theorem C74_decode : memory -> forall fuel turns clock data w rest si vc frames o,
  bytes_ok data -> (length data + 1 < fuel)%nat -> (length frames < turns)%nat ->
  data = w ++ rest -> well_formed si vc w -> plays TEof rest frames o ->
  o = None \/ no_zero_bytes (2 ^ 29 - 1) data -> len data < 2 ^ 63 -> clock_ok clock ->
  match o, si_samples si with
  | None, Some n => exists st, bench_decode_file m un fuel turns clock data = Ok st
      /\ st_data_bytes st = Z.max 0 (len data - 2048 * ((len w + 2047) / 2048))
      /\ st_num_samples st = n * si_channels si
      /\ st_total_ns st = clock (S (length frames)) - clock O
      /\ st_sample_times st = measured clock O frames
  | _, _ => exists why, bench_decode_file m un fuel turns clock data = Panic why
  end.
Proof. exact (decode_file_runs m un). Qed.
(** Without metadata in front it panics. *)
Theorem C74_unopened : memory -> forall fuel turns clock data, bytes_ok data -> (length data < fuel)%nat ->
  (forall si vc w rest, data = w ++ rest -> ~ well_formed si vc w) ->
  exists why, bench_decode_file m un fuel turns clock data = Panic why.
Proof. exact (decode_file_unopened m un). Qed.
(** It prints the 10th, 50th and 90th percentile of the times per sample. *)
Theorem C74_percentiles : forall times, Forall (fun x => 0 < snd x) times -> len times < 2 ^ 56 ->
  match times with
  | [] => exists why, print_stats m times = Panic why
  | _ => exists p10 p50 p90, print_stats m times = Ok (p10, p50, p90)
      /\ has_rank (10 * len times / 100) times p10 /\ has_rank (50 * len times / 100) times p50
      /\ has_rank (90 * len times / 100) times p90
  end.
Proof. exact (percentiles_ok m). Qed.
(** All runs succeed, if there is a frame at all. *)
Theorem C74_runs : memory -> forall fuel turns data w rest si vc frames n,
  bytes_ok data -> (length data + 1 < fuel)%nat -> (length frames < turns)%nat ->
  data = w ++ rest -> well_formed si vc w -> plays TEof rest frames None ->
  len data < 2 ^ 56 -> si_samples si = Some n ->
  forall clocks, Forall clock_ok clocks ->
  match frames with
  | [] => clocks <> [] -> exists why, bench_runs m un fuel turns clocks data = Panic why
  | _ => exists rs, bench_runs m un fuel turns clocks data = Ok rs
      /\ Forall2 (fun clock r => bench_decode_file m un fuel turns clock data = Ok (fst r)
                                 /\ print_stats m (measured clock O frames) = Ok (snd r)) clocks rs
  end.
Proof. exact (runs_ok m un). Qed.

(** * C75: the benchmark *)

(** However often the closure is called, it decodes the file over and over; the result is
    the number of bytes of a block, on average. *)
Theorem C75_rate : memory -> forall fuel data w rest si vc frames,
  bytes_ok data -> (length data + 1 < fuel)%nat -> data = w ++ rest -> well_formed si vc w ->
  plays TEof rest frames None -> forall n, Z.of_nat n < 2 ^ 64 ->
  let total := samples_read (over_and_over frames n) * (si_bits_per_sample si / 8) in
  let reads := frames_read (over_and_over frames n) in
  (m = Release \/ total < 2 ^ 32 -> 0 < reads -> bench_decode m un fuel n data = Ok (total mod 2 ^ 32 / reads))
  /\ (reads = 0 \/ (m = Debug /\ 2 ^ 32 <= total) -> exists why, bench_decode m un fuel n data = Panic why).
Proof. exact (rate_ok m un). Qed.
(** It does not overlook a fault, if it gets there. *)
Theorem C75_fault : memory -> forall fuel data w rest si vc frames e,
  bytes_ok data -> (length data + 1 < fuel)%nat -> data = w ++ rest -> well_formed si vc w ->
  plays TEof rest frames (Some e) -> no_zero_bytes (2 ^ 29 - 1) data ->
  forall n, Z.of_nat n < 2 ^ 64 -> (length frames < n)%nat ->
  exists why, bench_decode m un fuel n data = Panic why.
Proof. exact (decode_faults m un). Qed.
Theorem C75_unopened : memory -> forall fuel n data, bytes_ok data -> (length data < fuel)%nat ->
  (forall si vc w rest, data = w ++ rest -> ~ well_formed si vc w) ->
  exists why, bench_decode m un fuel n data = Panic why.
Proof. exact (rate_unopened m un). Qed.

(** * C76: the program that measures reading metadata *)

(** If all sixteen tags are there, it counts ten times the bytes that were read from the
    file: all metadata, and less than 2048 bytes more. *)
Theorem C76_bytes : memory -> forall fuel fs path t w rest si vc cs,
  file_at fs path t (w ++ rest) -> (length (w ++ rest) < fuel)%nat -> well_formed si vc w ->
  has_comments vc cs -> len (w ++ rest) < 2 ^ 60 -> Forall (has_name cs) metadata_names ->
  exists p, bench_metadata m un fuel fs path = Ok (10 * p)
    /\ len w <= p < len w + 2048 /\ p <= len (w ++ rest).
Proof. exact (metadata_ok m un). Qed.
(** Otherwise it panics with the first name that is missing. *)
Theorem C76_missing : memory -> forall fuel fs path t w rest si vc cs front name back,
  file_at fs path t (w ++ rest) -> (length (w ++ rest) < fuel)%nat -> well_formed si vc w ->
  has_comments vc cs -> metadata_names = front ++ name :: back -> Forall (has_name cs) front ->
  ~ has_name cs name -> bench_metadata m un fuel fs path = Panic name.
Proof. exact (metadata_missing m un). Qed.
Theorem C76_unopened : memory -> forall fuel fs path t l, file_at fs path t l -> (length l < fuel)%nat ->
  (forall si vc w rest, l = w ++ rest -> ~ well_formed si vc w) ->
  exists why, bench_metadata m un fuel fs path = Panic why.
Proof. exact (metadata_unopened m un). Qed.
End ForAllBuilds.

(** The number that [C74_decode] speaks of is not that of the bytes of the frames, but it
    is less than 2048 away from it. *)
Theorem C74_bytes : forall metadata frames, 0 < metadata -> 0 <= frames ->
  let counted := Z.max 0 (metadata + frames - 2048 * ((metadata + 2047) / 2048)) in
  counted <= frames < counted + 2048.
Proof. exact data_bytes_close. Qed.
(** Percentiles are determined by their rank. *)
Theorem C74_rank : forall k l x y, Forall (fun x => 0 < snd x) l -> has_rank k l x -> has_rank k l y ->
  fst x * snd y = fst y * snd x.
Proof. exact rank_unique. Qed.
(** While frames are decoded, no memory is requested ([traced], SpecAlloc.v, records
    requests), if they fit what the streaminfo says. *)
Theorem C74_no_allocation : forall {S} (rb : ReadBytes S) I t D, byte_reader rb I -> stream rb t D ->
  forall m fuel si frames l s, streaminfo_fits si -> plays t l frames None -> I s -> D s l ->
  (length l + 1 < fuel)%nat ->
  Forall (fun f => frame_samples f <= si_max_block_size si * si_channels si) frames ->
  exists bs s', blocks_read (traced rb) m fuel (buffer_for si) (s, []) bs (Ok None) (s', [])
    /\ Forall2 (fun b f => block_shows b (fst f) (snd f)) bs frames.
Proof. exact (@bench_no_allocation). Qed.
(** Of [n] calls, one in [len frames + 1] finds the end of the file. *)
Theorem C75_count : forall frames n,
  frames_read (over_and_over frames n) = Z.of_nat n - Z.of_nat n / (len frames + 1).
Proof. exact over_count. Qed.

(** * Examples: the hypotheses are met *)

(** A file with all tags, "ARTIST" twice, and two frames. *)
Definition tagged_entries : list (option comment) :=
  map (fun name => Some (text name, [120])) metadata_names ++ [None; Some ([65; 114; 116; 105; 83; 116], [226; 130; 172])].
Definition tagged_metadata : list Z :=
  signature ++ ([0; 0; 0; 34] ++ info_bytes)
  ++ [132] ++ be_bytes 3 (len (comments_bytes [] tagged_entries)) ++ comments_bytes [] tagged_entries.
Definition tagged_file : list Z := tagged_metadata ++ stereo_bytes ++ tiny_frame.
Definition tagged_vc : option vorbis_comment := Some (vorbis_of [] (present tagged_entries)).
Definition tagged_frames : list (header * list (list Z)) := program_good ++ program_bad.
Definition tagged_files : file_system := fun path =>
  if list_eq_dec Z.eq_dec path program_path then inr [EvData tagged_file] else inl (OtherIo 2).

Lemma tagged_ok : utf8 [] /\ Forall entry_ok tagged_entries.
Proof.
  split; [exists []; split; [constructor|reflexivity]|].
  unfold tagged_entries. apply Forall_app. split.
  - apply Forall_map. apply Forall_forall. intros name Hn. split; cbn [fst snd].
    + apply Forall_forall. intros x Hx.
      assert (forallb (fun name => forallb (fun x => (32 <=? x) && (x <=? 125) && negb (x =? 61)) (text name)) metadata_names = true) as H by (vm_compute; reflexivity).
      rewrite forallb_forall in H. specialize (H name Hn). rewrite forallb_forall in H. specialize (H x Hx). lia.
    + exists [120]. split; [repeat constructor; unfold scalar; lia|reflexivity].
  - repeat constructor; cbn [fst snd]; try lia. exists [8364]. split; [repeat constructor; unfold scalar; lia|reflexivity].
Qed.
Example C73_metadata_example : well_formed info tagged_vc tagged_metadata
  /\ has_comments tagged_vc (present tagged_entries)
  /\ values_of [65; 82; 84; 73; 83; 84] (present tagged_entries) [[120]; [226; 130; 172]].
Proof.
  split; [|split].
  - eexists [MbVorbisComment (vorbis_of [] (present tagged_entries))], _. split; [reflexivity|]. split; [|split].
    + apply blocks_more; [exact (info_block false)|]. apply blocks_last.
      exists 4, (comments_bytes [] tagged_entries). split; [|split; reflexivity].
      apply body_comments; [apply tagged_ok..|vm_compute; discriminate].
    + repeat constructor; intros ? ?; discriminate.
    + apply (comment_one [] []); repeat constructor.
  - exists []. reflexivity.
  - repeat first
      [ apply values_nil
      | apply values_skip;
        [let H := fresh in intros H;
         repeat match goal with H : same_name _ _ |- _ => unfold same_name in H | H : Forall2 _ _ _ |- _ => inversion H; clear H; subst end;
         unfold same_letter, upper in *; lia|]
      | apply values_take; [repeat constructor; unfold same_letter, upper; cbn; lia|] ].
Qed.
Lemma tagged_plays : plays TEof (stereo_bytes ++ tiny_frame) tagged_frames None.
Proof.
  exists [stereo_bytes; tiny_frame], []. split; [cbn [concat]; rewrite !app_nil_r; reflexivity|].
  split; [constructor; [exact stereo_bytes_ok|]; constructor; [exact tiny_frame_ok|constructor]|].
  apply stop_end; [reflexivity|apply Nat.le_0_l].
Qed.
Example C73_example : file_at tagged_files program_path TEof tagged_file
  /\ file_plays TEof tagged_file info tagged_vc tagged_frames None /\ tagged_files [98] = inl (OtherIo 2).
Proof.
  split; [|split; [|reflexivity]].
  - exists [EvData tagged_file]. split; [reflexivity|].
    rewrite <- (app_nil_r tagged_file) at 2. apply delivers_chunk; [|constructor; reflexivity].
    split; [apply bytes_check; vm_compute; reflexivity|vm_compute; split; congruence].
  - exists tagged_metadata, (stereo_bytes ++ tiny_frame). split; [reflexivity|]. split; [apply C73_metadata_example|exact tagged_plays].
Qed.
Example C73_run :
  doc_rms Debug (repeat 7) 1000 50 tagged_files program_path = Ok ([10; 9; 12; 10; -15; 1600; 20; -22] ++ repeat (-3) 16, 24)
  /\ doc_wav Debug (repeat 7) 1000 50 tagged_files program_path None
     = (Ok tt, Some (mkSpec 2 44100 16, [10; 9; 12; 10; -15; 1600; 20; -22] ++ repeat (-3) 16))
  /\ doc_artist Debug (repeat 7) 1000 50 tagged_files program_path = Ok [120; 10; 226; 130; 172; 10].
Proof. vm_compute. repeat split; reflexivity. Qed.
(** With the file of [C66_example], in which the third frame is damaged. *)
Example C73_fault_run :
  (exists why, doc_rms Debug (repeat 7) 1000 50 program_files program_path = Panic why)
  /\ (exists why, doc_wav Debug (repeat 7) 1000 50 program_files program_path None
     = (Panic why, Some (mkSpec 2 44100 16, [10; 9; 12; 10; -15; 1600; 20; -22] ++ repeat (-3) 16)))
  /\ (exists why, bench_decode_file Debug (repeat 7) 1000 50 (fun i => Z.of_nat i) program_file = Panic why)
  /\ (exists why, bench_decode Debug (repeat 7) 1000 3 program_file = Panic why)
  /\ bench_metadata Debug (repeat 7) 1000 program_files program_path = Panic "date".
Proof. vm_compute. repeat split; eexists; reflexivity. Qed.
Example C74_example : bytes_ok tagged_file /\ len tagged_file < 2 ^ 56 /\ clock_ok (fun i => Z.of_nat (Nat.min i 3) * 100)
  /\ tagged_file = tagged_metadata ++ stereo_bytes ++ tiny_frame /\ well_formed info tagged_vc tagged_metadata
  /\ plays TEof (stereo_bytes ++ tiny_frame) tagged_frames None /\ si_samples info = Some 1000000.
Proof.
  split; [apply bytes_check; vm_compute; reflexivity|]. split; [vm_compute; reflexivity|].
  split; [intros i j; lia|]. split; [reflexivity|]. split; [apply C73_metadata_example|]. split; [exact tagged_plays|reflexivity].
Qed.
Example C74_run :
  bench_decode_file Debug (repeat 7) 1000 50 (fun i => Z.of_nat i * 100) tagged_file
  = Ok (mkStats 0 2000000 300 [(100, 8); (100, 16)])
  /\ print_stats Debug [(100, 8); (100, 16)] = Ok ((100, 16), (100, 8), (100, 8)).
Proof. vm_compute. split; reflexivity. Qed.
(** "The position of the file is the number of metadata bytes read" (the comment in the
    program) is not true: the frames of this file have 250 bytes, and 0 are counted. *)
Theorem C74_refuted : exists data w rest si vc frames n clock, bytes_ok data /\ data = w ++ rest
  /\ well_formed si vc w /\ plays TEof rest frames None /\ si_samples si = Some n /\ clock_ok clock
  /\ exists st, bench_decode_file Debug (repeat 7) 1000 50 clock data = Ok st /\ st_data_bytes st <> len rest.
Proof.
  exists tagged_file, tagged_metadata, (stereo_bytes ++ tiny_frame), info, tagged_vc, tagged_frames, 1000000, (fun i => Z.of_nat (Nat.min i 3) * 100).
  destruct C74_example as (A & _ & B & C & D & E & F). repeat (split; [assumption|]).
  eexists. split; [vm_compute; reflexivity|vm_compute; discriminate].
Qed.
(** Seven turns: two frames, the end, two frames, the end, one frame. *)
Example C75_run : bench_decode Debug (repeat 7) 1000 7 tagged_file = Ok 22
  /\ samples_read (over_and_over tagged_frames 7) * (si_bits_per_sample info / 8) = 112
  /\ frames_read (over_and_over tagged_frames 7) = 5
  /\ exists why, bench_decode Debug (repeat 7) 1000 0 tagged_file = Panic why.
Proof. vm_compute. repeat split. eexists. reflexivity. Qed.
Example C76_example : Forall (has_name (present tagged_entries)) metadata_names
  /\ ~ has_name (present example_entries) "date".
Proof.
  split.
  - apply Forall_forall. intros name Hn. apply (has_name_in _ (text name) [120]); [|apply same_letter_refl].
    assert (present tagged_entries = map (fun name => (text name, [120])) metadata_names ++ [([65; 114; 116; 105; 83; 116], [226; 130; 172])]) as -> by (vm_compute; reflexivity).
    apply in_or_app. left. exact (in_map (fun name => (text name, [120])) _ _ Hn).
  - intros (v & vs & H). 
    repeat match goal with
    | H : values_of _ _ _ |- _ => inversion H; clear H; subst
    end;
    repeat match goal with H : same_name _ _ |- _ => unfold same_name in H | H : Forall2 _ _ _ |- _ => inversion H; clear H; subst end;
    unfold same_letter, upper in *; lia.
Qed.
Example C76_run : bench_metadata Debug (repeat 7) 1000 tagged_files program_path = Ok 6090 /\ len tagged_metadata = 359.
Proof. vm_compute. split; reflexivity. Qed.
Print Assumptions C73_rms.
Print Assumptions C73_rms_overflow.
Print Assumptions C73_rms_fault.
Print Assumptions C73_wav.
Print Assumptions C73_artist.
Print Assumptions C73_missing.
Print Assumptions C73_unopened.
Print Assumptions C74_decode.
Print Assumptions C74_unopened.
Print Assumptions C74_percentiles.
Print Assumptions C74_runs.
Print Assumptions C75_rate.
Print Assumptions C75_fault.
Print Assumptions C75_unopened.
Print Assumptions C76_bytes.
Print Assumptions C76_missing.
Print Assumptions C76_unopened.
Print Assumptions C74_bytes.
Print Assumptions C74_rank.
Print Assumptions C74_no_allocation.
Print Assumptions C75_count.
Print Assumptions C74_refuted.
