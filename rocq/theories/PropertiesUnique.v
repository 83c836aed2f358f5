(** A file has one meaning, and its frames do not depend on its metadata.

    [frame_code], [header_code] (SpecFrame.v): the grammar of frames.  [plays], [file_plays],
    [file_unopened] (SpecPrograms.v): the frames of a byte string or file up to its end or
    first fault; the file does not open.  None of them speaks about the decoder. *)
From Verif Require Import ProofUnique PropertiesFrame PropertiesMeta PropertiesWhole PropertiesPrograms PropertiesBench.
From Verif Require Import SpecReader.

(** * C77: there are no two ways to read a file *)

Theorem C77_header : forall h w r h' w' r', header_code h w -> header_code h' w' -> bytes_ok (w ++ r) ->
  w ++ r = w' ++ r' -> h = h' /\ w = w' /\ r = r'.
Proof. exact header_unique. Qed.
Theorem C77_frame : forall h chs w r h' chs' w' r', frame_code h chs w -> frame_code h' chs' w' -> bytes_ok (w ++ r) ->
  w ++ r = w' ++ r' -> h = h' /\ chs = chs' /\ w = w' /\ r = r'.
Proof. exact frame_unique. Qed.
Theorem C77_frames : forall t l frames o frames' o', bytes_ok l -> plays t l frames o -> plays t l frames' o' ->
  frames = frames' /\ o = o'.
Proof. exact plays_unique. Qed.
(** Every file is exactly one of: not to be opened, with this error; or to be opened, with
    this streaminfo, these comments and these frames. *)
Theorem C77_file : forall t l si vc frames o si' vc' frames' o', bytes_ok l ->
  file_plays t l si vc frames o -> file_plays t l si' vc' frames' o' ->
  si = si' /\ vc = vc' /\ frames = frames' /\ o = o'.
Proof. exact file_unique. Qed.
Theorem C77_unopened : forall t l e e', bytes_ok l -> file_unopened t l e -> file_unopened t l e' -> e = e'.
Proof. exact unopened_unique. Qed.
Theorem C77_not_both : forall t l e si vc frames o, bytes_ok l ->
  file_unopened t l e -> ~ file_plays t l si vc frames o.
Proof. exact unopened_or_plays. Qed.
Theorem C77_one : forall t l, bytes_ok l -> no_zero_bytes (2 ^ 29 - 1) l ->
  (exists e, file_unopened t l e) \/ (exists si vc frames o, file_plays t l si vc frames o).
Proof. exact file_exists. Qed.

(** * C78: the frames do not depend on the metadata *)

(** Two files, possibly read by different kinds of reader, that have the same bytes, of any
    kind, behind their metadata: every sequence of calls that read blocks or samples has
    the same results on both, up to the first failure of the source. *)
Theorem C78_apart : forall {S1 S2} (rb1 : ReadBytes S1) (rb2 : ReadBytes S2) t D1 D2,
  stream rb1 t D1 -> stream rb2 t D2 ->
  forall m un1 un2, (forall n, length (un1 n) = n) -> (forall n, length (un2 n) = n) ->
  forall fuel s1 s2 si1 vc1 w1 si2 vc2 w2 rest, well_formed si1 vc1 w1 -> well_formed si2 vc2 w2 ->
  D1 s1 (w1 ++ rest) -> D2 s2 (w2 ++ rest) -> (length (w1 ++ rest) < fuel)%nat -> (length (w2 ++ rest) < fuel)%nat ->
  exists r1 r2, fst (new_ext rb1 m un1 fuel default_options s1) = Ok r1
    /\ fst (new_ext rb2 m un2 fuel default_options s2) = Ok r2
    /\ forall fuel' calls, fst (history_until_io (session_step rb1 m fuel') calls (mkSession r1 None))
        = fst (history_until_io (session_step rb2 m fuel') calls (mkSession r2 None)).
Proof. exact (@metadata_apart). Qed.

(** * Examples: the hypotheses are met *)

Example C77_example : bytes_ok program_file /\ no_zero_bytes (2 ^ 29 - 1) program_file
  /\ file_plays TEof program_file info program_vc (program_good ++ program_bad) (Some (FormatError "frame CRC mismatch"))
  /\ frame_code (info_header stereo_info 4) stereo_pcm stereo_bytes
  /\ file_unopened TEof [73; 68; 51; 4; 0] (FormatError "stream starts with ID3 header rather than FLAC header").
Proof.
  split; [apply bytes_check; vm_compute; reflexivity|]. split; [apply C66_example|]. split; [apply C66_example|].
  split; [exact stereo_bytes_ok|]. left. exists [73; 68; 51; 4], [0]. split; [reflexivity|constructor].
Qed.
(** The metadata of C47 and of C73 before the same frames. *)
Example C78_example : well_formed info tagged_vc tagged_metadata /\ well_formed info program_vc example_metadata
  /\ tagged_vc <> program_vc
  /\ delivers TEof [EvData (tagged_metadata ++ stereo_bytes)] (tagged_metadata ++ stereo_bytes)
  /\ delivers TEof [EvData (example_metadata ++ stereo_bytes)] (example_metadata ++ stereo_bytes).
Proof.
  split; [apply C73_metadata_example|]. split; [exact C47_example|]. split; [vm_compute; discriminate|].
  split; rewrite <- (app_nil_r (_ ++ stereo_bytes)) at 2; (apply delivers_chunk; [|constructor; reflexivity]);
    (split; [apply bytes_check; vm_compute; reflexivity|vm_compute; split; congruence]).
Qed.

Print Assumptions C77_header.
Print Assumptions C77_frame.
Print Assumptions C77_frames.
Print Assumptions C77_file.
Print Assumptions C77_unopened.
Print Assumptions C77_not_both.
Print Assumptions C77_one.
Print Assumptions C78_apart.
