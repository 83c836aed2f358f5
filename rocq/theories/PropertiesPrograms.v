(** Properties of files, error values, and programs that use the crate.

    [file_at fs path t l] (SpecPrograms.v): there is a file at [path] with the contents
    [l]; reading it ends with [t].  [plays t l frames o]: [l] consists of [frames], and
    then something ends the decoding: [o] is the error, or [None] at a proper end.
    [file_plays]: the same with the metadata in front.  [file_unopened t l e]: the
    metadata of [l] are bad or not complete.  [no_zero_bytes] (SpecWhole.v): no 512 MiB of
    zero bytes in a row (C27, C31). *)
From Verif Require Import SpecPrograms ProofPrograms3 ProofTimes PropertiesFrame PropertiesFault PropertiesMeta PropertiesWhole.
From Verif Require Import SpecReader.

Section ForAllBuilds.
Context (m : build) (un : nat -> list Z).
Notation memory := (forall n, length (un n) = n).

(** * C64: opening by path *)

(** If the file cannot be opened, that error comes back, with and without options. *)
Theorem C64_missing : forall fuel fs path k opts, fs path = inl k ->
  flac_open_ext m un fuel fs path opts = Err (IoError k) /\ flac_open m un fuel fs path = Err (IoError k).
Proof. exact (path_missing m un). Qed.
(** Otherwise it is read: the metadata in front come out and the reader stands behind
    them; or the error is that of a fault in them, or of the file's end. *)
Theorem C64_open : memory -> forall fuel fs path t l opts,
  file_at fs path t l -> (length l < fuel)%nat ->
  match flac_open_ext m un fuel fs path opts with
  | Ok r => exists w rest inp, l = w ++ rest /\ opens opts (fr_get_streaminfo r) (fr_vorbis_comment r) w
      /\ buffered t inp rest
      /\ fr_input r = (if metadata_only opts then MetadataOnly inp else Full inp)
  | Err e => (exists w rest, l = w ++ rest /\ open_fault opts e w)
      \/ (e = tail_error t /\ open_cut opts l)
  | _ => False
  end.
Proof. exact (path_cases m un). Qed.
Theorem C64_fault_reported : memory -> forall fuel fs path t w rest opts e,
  file_at fs path t (w ++ rest) -> (length (w ++ rest) < fuel)%nat -> open_fault opts e w ->
  flac_open_ext m un fuel fs path opts = Err e.
Proof. exact (path_reports m un). Qed.
(** [open] uses the default options. *)
Theorem C64_default : forall fuel fs path,
  flac_open m un fuel fs path = flac_open_ext m un fuel fs path default_options.
Proof. exact (path_default m un). Qed.

(** * C66: the example programs that decode a file *)

(** [decode_simple]: all samples of the file up to the place where it goes wrong, if it
    does, are in the audio file, in order, under a header that is made of the
    streaminfo; the program ends with the error, or without one. *)
Theorem C66_simple : memory -> forall fuel turns fs path t l si vc frames o,
  file_at fs path t l -> (length l + 1 < fuel)%nat -> (length (pcm_of frames) < turns)%nat ->
  o = None \/ no_zero_bytes (2 ^ 29 - 1) l -> file_plays t l si vc frames o ->
  decode_simple m un fuel turns fs path None = (outcome_of o, audio si (pcm_of frames)).
Proof. exact (simple_plays m un). Qed.
Theorem C66_simple_missing : forall fuel turns fs path k, fs path = inl k ->
  decode_simple m un fuel turns fs path None = (Err (IoError k), None).
Proof. exact (simple_missing m un). Qed.
(** There are no other cases. *)
Theorem C66_simple_cases : memory -> forall fuel turns fs path t l,
  file_at fs path t l -> (length l + 1 < fuel)%nat -> 65535 * len l < Z.of_nat turns ->
  no_zero_bytes (2 ^ 29 - 1) l ->
  (exists e, file_unopened t l e /\ decode_simple m un fuel turns fs path None = (Err e, None))
  \/ (exists si vc frames o, file_plays t l si vc frames o
      /\ decode_simple m un fuel turns fs path None = (outcome_of o, audio si (pcm_of frames))).
Proof. exact (simple_cases m un). Qed.

(** [decode]: for stereo files of 16 bits per sample.  [good]: the frames before the first
    one that is not stereo. *)
Theorem C66_stereo : memory -> forall fuel turns fs path t l si vc good bad o,
  file_at fs path t l -> (length l + 1 < fuel)%nat -> (length good < turns)%nat ->
  o = None \/ no_zero_bytes (2 ^ 29 - 1) l -> file_plays t l si vc (good ++ bad) o ->
  si_bits_per_sample si = 16 -> si_channels si = 2 -> Forall stereo_frame good ->
  (forall f bad', bad = f :: bad' -> ~ stereo_frame f) ->
  exists r, decode_stereo m un fuel turns fs path None = (r, audio si (pcm_of good))
    /\ stereo_outcome bad o r.
Proof. exact (@ProofPrograms.stereo_plays m un). Qed.
Theorem C66_stereo_missing : forall fuel turns fs path k, fs path = inl k ->
  exists why, decode_stereo m un fuel turns fs path None = (Panic why, None).
Proof. exact (stereo_missing m un). Qed.
(** Other files, and those that do not open: it panics and has written nothing. *)
Theorem C66_stereo_others : memory -> forall fuel turns fs path t l,
  file_at fs path t l -> (length l < fuel)%nat ->
  (forall si vc w rest, l = w ++ rest -> well_formed si vc w -> si_bits_per_sample si <> 16 \/ si_channels si <> 2) ->
  exists why, decode_stereo m un fuel turns fs path None = (Panic why, None).
Proof. exact (ProofPrograms.stereo_others m un). Qed.
(** Whatever the file contains: its unchecked writes stay in the buffer. *)
Theorem C66_stereo_safe : memory -> forall fuel turns fs path t l,
  file_at fs path t l -> (length l + 1 < fuel)%nat -> (length l < turns)%nat ->
  no_zero_bytes (2 ^ 29 - 1) l ->
  exists r w, decode_stereo m un fuel turns fs path None = (r, w)
    /\ (r = Ok tt \/ exists why, r = Panic why).
Proof. exact (ProofPrograms.stereo_safe m un). Qed.

(** * C67: frames and metadata blocks in other containers *)

(** [decode_ogg]: one block or frame per packet. *)
Theorem C67_ogg : memory -> forall fuel packets si frames,
  Forall (packet_ok fuel) packets -> ogg_code si frames packets -> Forall stereo_frame frames ->
  decode_ogg m un fuel packets None = (Ok tt, audio si (pcm_of frames)).
Proof. exact (ogg_decoded m un). Qed.
(** For all packets: that, or a panic after the samples of the packets before the bad one
    were written. *)
Theorem C67_ogg_cases : memory -> forall fuel packets,
  Forall (packet_ok fuel) packets -> Forall (no_zero_bytes (2 ^ 29 - 1)) packets -> (1 < fuel)%nat ->
  (exists si frames, ogg_code si frames packets /\ Forall stereo_frame frames
     /\ decode_ogg m un fuel packets None = (Ok tt, audio si (pcm_of frames)))
  \/ (exists why, decode_ogg m un fuel packets None = (Panic why, None))
  \/ (exists why si frames packets' rest, packets = packets' ++ rest
     /\ ogg_code si frames packets' /\ Forall stereo_frame frames
     /\ decode_ogg m un fuel packets None = (Panic why, audio si (pcm_of frames))).
Proof. exact (ogg_cases m un). Qed.
(** [decode_mp4]: blocks without headers; frames in chunks, with a table of how many there
    are in each. *)
Theorem C67_mp4 : memory -> forall fuel blocks reads offsets table si frames,
  Forall raw_block_ok blocks -> track_info si blocks -> ascending 0 table -> len offsets < 2 ^ 32 ->
  (forall offset t l, In offset offsets -> delivers t (reads offset) l -> (length l < fuel)%nat) ->
  chunks_code reads table 1 offsets frames -> Forall stereo_frame frames ->
  decode_mp4 m un fuel blocks reads offsets table None = (Ok tt, audio si (pcm_of frames)).
Proof. exact (mp4_decoded m un). Qed.
Theorem C67_mp4_cases : memory -> forall fuel blocks reads offsets table,
  Forall raw_block_ok blocks -> ascending 0 table -> len offsets < 2 ^ 32 -> (1 < fuel)%nat ->
  (forall offset, In offset offsets ->
     exists t l, delivers t (reads offset) l /\ (length l < fuel)%nat /\ no_zero_bytes (2 ^ 29 - 1) l) ->
  (exists si frames, track_info si blocks /\ chunks_code reads table 1 offsets frames
     /\ Forall stereo_frame frames
     /\ decode_mp4 m un fuel blocks reads offsets table None = (Ok tt, audio si (pcm_of frames)))
  \/ (exists why w, decode_mp4 m un fuel blocks reads offsets table None = (Panic why, w)).
Proof. exact (mp4_cases m un). Qed.

(** * C68: what the fuzzers look for is not there *)

Theorem C68_header : memory -> forall fuel data, bytes_ok data -> (length data < fuel)%nat ->
  fuzz_decode_header m un fuel data = Ok tt.
Proof. exact (fuzz_header_ok m un). Qed.
Theorem C68_single_block : memory -> forall fuel data, bytes_ok data -> (length data < fuel)%nat ->
  m = Release \/ no_zero_bytes (2 ^ 29 - 1) data -> fuzz_decode_single_block m un fuel data = Ok tt.
Proof. exact (fuzz_block_ok m un). Qed.
Theorem C68_full : memory -> forall fuel turns data, bytes_ok data -> (length data + 1 < fuel)%nat ->
  m = Release \/ no_zero_bytes (2 ^ 29 - 1) data -> 65535 * len data < Z.of_nat turns ->
  fuzz_decode_full m un fuel turns data = Ok tt.
Proof. exact (fuzz_full_ok m un). Qed.
(** Two decodings into buffers with different rubbish in them agree. *)
Theorem C68_diff : memory -> forall fuel data, bytes_ok data -> (length data < fuel)%nat ->
  m = Release \/ no_zero_bytes (2 ^ 29 - 1) data -> fuzz_diff m un fuel data = Ok tt.
Proof. exact (fuzz_diff_ok m un). Qed.

(** * C69: the example program that lists tags *)

(** One line per comment, in order. *)
Theorem C69_printed : memory -> forall fuel turns fs path t w rest si vc cs,
  file_at fs path t (w ++ rest) -> (length (w ++ rest) < fuel)%nat -> (length cs < turns)%nat ->
  well_formed si vc w ->
  match vc with Some v => exists vendor, v = vorbis_of vendor cs | None => cs = [] end ->
  tags_program m un fuel turns fs path = Ok (tag_lines path cs).
Proof. exact (tags_printed m un). Qed.
Theorem C69_cases : memory -> forall fuel turns fs path t l,
  file_at fs path t l -> (length l < fuel)%nat -> len l < Z.of_nat turns ->
  (exists si vc w rest cs, l = w ++ rest /\ well_formed si vc w
     /\ match vc with Some v => exists vendor, v = vorbis_of vendor cs | None => cs = [] end
     /\ tags_program m un fuel turns fs path = Ok (tag_lines path cs))
  \/ (exists why e, tags_program m un fuel turns fs path = Panic why /\ file_unopened t l e).
Proof. exact (tags_unopened m un). Qed.
End ForAllBuilds.

(** * C65: error values *)

(** The text of an error of the format contains its reason and tells the kinds apart. *)
Theorem C65_display : forall io e e',
  (forall k, e <> IoError k) -> (forall k, e' <> IoError k) ->
  error_display io e = error_display io e' -> e = e'.
Proof. exact display_determines. Qed.
Theorem C65_cause : forall e k, error_cause e = Some k <-> e = IoError k.
Proof. exact cause_only_io. Qed.
(** Errors of the source are passed on with their own text and are the cause. *)
Theorem C65_io : forall io k, error_display io (from_io k) = io k
  /\ error_description io (from_io k) = io k /\ error_cause (from_io k) = Some k.
Proof. exact (fun io k => conj eq_refl (conj eq_refl eq_refl)). Qed.

(** * C70: how much comes out of how little *)

(** Every input consists of frames and then ends or has a fault. *)
Theorem C70_decomposition : forall t l, bytes_ok l -> no_zero_bytes (2 ^ 29 - 1) l ->
  exists frames o, plays t l frames o.
Proof. exact plays_exist. Qed.
(** Iterating over the samples ends: there are no more than 65535 per byte of input,
    then at most one error. *)
Theorem C70_bounded : forall {S} (rb : ReadBytes S) t D m fuel (r : flac_reader S) s it l,
  stream rb t D -> fr_blocks r = Ok s -> sample_iterator r it ->
  D s l -> (length l < fuel)%nat -> (1 < fuel)%nat -> m = Release \/ no_zero_bytes (2 ^ 29 - 1) l ->
  exists pcm last, yields (fs_next rb m fuel) it (map ROk pcm ++ last) /\ len pcm <= 65535 * len l
    /\ (last = [] \/ exists e, last = [RErr e]).
Proof. exact (@samples_bounded). Qed.

(** * Examples: the hypotheses are met *)

Lemma bytes_check l : forallb (fun x => (0 <=? x) && (x <? 256)) l = true -> bytes_ok l.
Proof.
  intros H. apply Forall_forall. intros x Hx. rewrite forallb_forall in H. specialize (H x Hx). unfold is_byte. lia.
Qed.
Lemma short_zeros l : len l < 2 ^ 29 - 1 -> no_zero_bytes (2 ^ 29 - 1) l.
Proof.
  intros H a b E. apply (f_equal (@length Z)) in E. rewrite !app_length, repeat_length in E. unfold len in H. lia.
Qed.

(** A file with a stereo frame, a mono frame and one with a wrong checksum. *)
Definition stereo_bytes : list Z := encode_frame stereo_info stereo_pcm.
Definition program_file : list Z :=
  example_metadata ++ stereo_bytes ++ tiny_frame ++ (tiny_front ++ [246]) ++ [0; 253] ++ [124; 162].
Definition program_path : list Z := [97; 46; 102].
Definition program_files : file_system := fun path =>
  if list_eq_dec Z.eq_dec path program_path then inr [EvData program_file] else inl (OtherIo 2).
Definition program_vc : option vorbis_comment := Some (vorbis_of example_vendor (present example_entries)).
Definition program_good : list (header * list (list Z)) := [(info_header stereo_info 4, stereo_pcm)].
Definition program_bad : list (header * list (list Z)) := [(tiny_header, [repeat (-3) 16])].

Lemma stereo_bytes_ok : frame_code (info_header stereo_info 4) stereo_pcm stereo_bytes.
Proof. exact (encode_frame_ok stereo_info stereo_pcm (proj1 C26_round_trip_example)). Qed.
Example C64_example : file_at program_files program_path TEof program_file /\ program_files [98] = inl (OtherIo 2).
Proof.
  split; [|reflexivity]. exists [EvData program_file]. split; [reflexivity|].
  rewrite <- (app_nil_r program_file) at 2. apply delivers_chunk; [|constructor; reflexivity].
  split; [apply bytes_check; vm_compute; reflexivity|vm_compute; split; congruence].
Qed.
Example C66_example :
  file_plays TEof program_file info program_vc (program_good ++ program_bad) (Some (FormatError "frame CRC mismatch"))
  /\ Forall stereo_frame program_good
  /\ (forall f bad', program_bad = f :: bad' -> ~ stereo_frame f)
  /\ no_zero_bytes (2 ^ 29 - 1) program_file.
Proof.
  split; [|split; [|split]].
  - exists example_metadata, (stereo_bytes ++ tiny_frame ++ (tiny_front ++ [246]) ++ [0; 253] ++ [124; 162]).
    split; [reflexivity|]. split; [exact C47_example|].
    exists [stereo_bytes; tiny_frame], ((tiny_front ++ [246]) ++ [0; 253] ++ [124; 162]).
    split; [cbn [concat]; rewrite app_nil_r, <- app_assoc; reflexivity|].
    split; [constructor; [exact stereo_bytes_ok|]; constructor; [exact tiny_frame_ok|constructor]|].
    rewrite <- (app_nil_r ((tiny_front ++ [246]) ++ [0; 253] ++ [124; 162])). apply stop_fault.
    exact (proj1 (proj2 (proj2 C62_fault_example))).
  - constructor; [reflexivity|constructor].
  - intros f bad' [= <- <-]. vm_compute. discriminate.
  - apply short_zeros. vm_compute. reflexivity.
Qed.
Example C66_run :
  decode_simple Debug (repeat 7) 1000 50 program_files program_path None
  = (Err (FormatError "frame CRC mismatch"),
     Some (mkSpec 2 44100 16, [10; 9; 12; 10; -15; 1600; 20; -22] ++ repeat (-3) 16))
  /\ (exists why, decode_stereo Debug (repeat 7) 1000 5 program_files program_path None
      = (Panic why, Some (mkSpec 2 44100 16, [10; 9; 12; 10; -15; 1600; 20; -22])))
  /\ decode_simple Debug (repeat 7) 1000 50 program_files [98] None = (Err (IoError (OtherIo 2)), None).
Proof. vm_compute. split; [reflexivity|]. split; [eexists; reflexivity|reflexivity]. Qed.
(** The frames of [program_file] have 24 samples. *)
Example C70_example :
  let l := skipn (length example_metadata) program_file in
  bytes_ok l /\ no_zero_bytes (2 ^ 29 - 1) l
  /\ plays TEof l (program_good ++ program_bad) (Some (FormatError "frame CRC mismatch"))
  /\ len (pcm_of (program_good ++ program_bad)) = 24.
Proof.
  split; [apply bytes_check; vm_compute; reflexivity|]. split; [apply short_zeros; vm_compute; reflexivity|].
  split; [|reflexivity].
  exists [stereo_bytes; tiny_frame], ((tiny_front ++ [246]) ++ [0; 253] ++ [124; 162]). split; [vm_compute; reflexivity|].
  split; [constructor; [exact stereo_bytes_ok|]; constructor; [exact tiny_frame_ok|constructor]|].
  rewrite <- (app_nil_r ((tiny_front ++ [246]) ++ [0; 253] ++ [124; 162])). apply stop_fault.
  exact (proj1 (proj2 (proj2 C62_fault_example))).
Qed.
Example C69_run : tags_program Release (repeat 7) 1000 9 program_files program_path
  = Ok (program_path ++ [58; 32; 84; 73; 84; 76; 69; 61; 226; 130; 172; 61; 10]
     ++ program_path ++ [58; 32; 116; 105; 116; 108; 101; 61; 10]
     ++ program_path ++ [58; 32; 88; 61; 120; 10]).
Proof. vm_compute. reflexivity. Qed.

(** The same frame in packets, after one packet with comments; and an empty packet. *)
Definition ogg_packets : list (list Z) :=
  [repeat 9 7 ++ [0; 1] ++ repeat 9 4 ++ [0] ++ [0; 0; 34] ++ info_bytes;
   [132] ++ be_bytes 3 (len (comments_bytes example_vendor example_entries)) ++ comments_bytes example_vendor example_entries;
   stereo_bytes; []; stereo_bytes ++ [5]].
Example C67_ogg_example : Forall (packet_ok 1000) ogg_packets
  /\ ogg_code info (program_good ++ program_good) ogg_packets /\ Forall stereo_frame (program_good ++ program_good).
Proof.
  split; [|split; [|repeat constructor]].
  - repeat (apply Forall_cons; [split; [apply bytes_check; vm_compute; reflexivity|split; [vm_compute; reflexivity|apply Nat.ltb_lt; vm_compute; reflexivity]]|]). constructor.
  - eexists _, [_], [_; _; _], (repeat 9 7), 1, (repeat 9 4), false, ([0] ++ [0; 0; 34] ++ info_bytes), [],
      [program_good; []; program_good].
    split; [reflexivity|]. split; [reflexivity|]. do 4 (split; [reflexivity|]). split; [exact (info_block false)|].
    split; [|split; [|reflexivity]].
    + constructor; [|constructor]. exists true, example_comments. eexists. exists []. split; [symmetry; apply app_nil_r|exact (example_block true)].
    + constructor; [rewrite <- (app_nil_r stereo_bytes); apply packet_frame; exact stereo_bytes_ok|].
      constructor; [constructor|]. constructor; [apply packet_frame; exact stereo_bytes_ok|constructor].
Qed.
Example C67_ogg_run : decode_ogg Debug (repeat 7) 1000 ogg_packets None
  = (Ok tt, Some (mkSpec 2 44100 16, [10; 9; 12; 10; -15; 1600; 20; -22] ++ [10; 9; 12; 10; -15; 1600; 20; -22])).
Proof. vm_compute. reflexivity. Qed.

(** Two frames in the first chunk, one in the second and third. *)
Definition mp4_blocks : list (Z * list Z) := [(9, [255; 255]); (0, info_bytes); (77, [])].
Definition mp4_reads (offset : Z) : list event :=
  if offset =? 100 then [EvData (stereo_bytes ++ stereo_bytes ++ [1])] else [EvData (stereo_bytes ++ [255])].
Definition mp4_table : list (Z * Z) := [(1, 2); (2, 1)].
Definition mp4_offsets : list Z := [100; 300; 200].
Example C67_mp4_example : Forall raw_block_ok mp4_blocks /\ track_info info mp4_blocks /\ ascending 0 mp4_table
  /\ chunks_code mp4_reads mp4_table 1 mp4_offsets (program_good ++ program_good ++ program_good ++ program_good)
  /\ (forall offset t l, In offset mp4_offsets -> delivers t (mp4_reads offset) l -> (length l < 1000)%nat).
Proof.
  assert (forall w, bytes_ok w -> 0 < len w <= 2048 -> delivers TEof [EvData w] w) as One.
  { intros w Hb Hl. rewrite <- (app_nil_r w) at 2. apply delivers_chunk; [|constructor; reflexivity]. split; [exact Hb|exact Hl]. }
  split; [|split; [|split; [|split]]].
  - repeat (apply Forall_cons; [split; [cbn; lia|split; [apply bytes_check; vm_compute; reflexivity|vm_compute; reflexivity]]|]). constructor.
  - apply (info_later info 9 [255; 255] MbReserved); [lia|reflexivity|apply body_reserved; [lia|apply bytes_check; reflexivity]|intros ? ?; discriminate|].
    apply info_here; [lia|reflexivity|]. constructor; apply info_code.
  - repeat constructor; lia.
  - change (program_good ++ program_good ++ program_good ++ program_good)
      with ((program_good ++ program_good) ++ program_good ++ program_good ++ []).
    apply (chunks_cons mp4_reads mp4_table 1 100 _ TEof (program_good ++ program_good) [stereo_bytes; stereo_bytes] [1]).
    + cbn [concat]. rewrite app_nil_r, <- app_assoc. apply One; [apply bytes_check; vm_compute; reflexivity|vm_compute; split; congruence].
    + constructor; [exact stereo_bytes_ok|]. constructor; [exact stereo_bytes_ok|constructor].
    + reflexivity.
    + apply (chunks_cons mp4_reads mp4_table 2 300 _ TEof program_good [stereo_bytes] [255]);
        [|constructor; [exact stereo_bytes_ok|constructor]|reflexivity|].
      { cbn [concat]. rewrite app_nil_r. apply One; [apply bytes_check; vm_compute; reflexivity|vm_compute; split; congruence]. }
      apply (chunks_cons mp4_reads mp4_table 3 200 _ TEof program_good [stereo_bytes] [255]);
        [|constructor; [exact stereo_bytes_ok|constructor]|reflexivity|constructor].
      cbn [concat]. rewrite app_nil_r. apply One; [apply bytes_check; vm_compute; reflexivity|vm_compute; split; congruence].
  - intros offset t l _ Hd.
    assert (exists w, mp4_reads offset = [EvData w] /\ (length w < 500)%nat) as (w & E & Hw).
    { unfold mp4_reads. destruct (offset =? 100); eexists; (split; [reflexivity|apply Nat.ltb_lt; vm_compute; reflexivity]). }
    rewrite E in Hd. inversion Hd as [| |c l' s Hc Hd' Ec El]; subst. inversion Hd'; subst; rewrite ?app_nil_r; try lia;
      rewrite app_length; cbn; lia.
Qed.
Example C67_mp4_run : decode_mp4 Release (repeat 7) 1000 mp4_blocks mp4_reads mp4_offsets mp4_table None
  = (Ok tt, Some (mkSpec 2 44100 16, concat (repeat [10; 9; 12; 10; -15; 1600; 20; -22] 4))).
Proof. vm_compute. reflexivity. Qed.

Example C68_example : bytes_ok ([1; 2] ++ program_file) /\ no_zero_bytes (2 ^ 29 - 1) ([1; 2] ++ program_file)
  /\ fuzz_diff Debug (repeat 7) 1000 ([1; 2] ++ program_file) = Ok tt.
Proof.
  split; [apply bytes_check; vm_compute; reflexivity|]. split; [apply short_zeros; vm_compute; reflexivity|].
  vm_compute. reflexivity.
Qed.
Example C65_example : error_display (fun _ => "io"%string) (FormatError "a") = "Ill-formed FLAC stream: a"%string
  /\ error_description (fun _ => "io"%string) (FormatError "a") = "a"%string.
Proof. split; reflexivity. Qed.

Print Assumptions C64_missing.
Print Assumptions C64_open.
Print Assumptions C64_fault_reported.
Print Assumptions C64_default.
Print Assumptions C65_display.
Print Assumptions C65_cause.
Print Assumptions C65_io.
Print Assumptions C66_simple.
Print Assumptions C66_simple_missing.
Print Assumptions C66_simple_cases.
Print Assumptions C66_stereo.
Print Assumptions C66_stereo_missing.
Print Assumptions C66_stereo_others.
Print Assumptions C66_stereo_safe.
Print Assumptions C67_ogg.
Print Assumptions C67_ogg_cases.
Print Assumptions C67_mp4.
Print Assumptions C67_mp4_cases.
Print Assumptions C68_header.
Print Assumptions C68_single_block.
Print Assumptions C68_full.
Print Assumptions C68_diff.
Print Assumptions C69_printed.
Print Assumptions C69_cases.
Print Assumptions C70_decomposition.
Print Assumptions C70_bounded.
