(** Playing any file at all, in either kind of build.

    [any_plays m t l frames o] (SpecAnyPlay.v): in a build [m] the bytes [l] consist of
    [frames], and then comes the end, an error or a panic, as [o] says.  [sounds]: what
    the iterator over the samples does then.  [rb], [t], [D], [fuel] as in
    PropertiesFrame.v; [file_at], [file_unopened], [audio] as in PropertiesPrograms.v. *)
From Verif Require Import SpecAnyPlay ProofAnyPlay PropertiesFrame PropertiesFault PropertiesMeta PropertiesWhole PropertiesPrograms.
From Verif Require Import SpecReader.

(** * C85 *)

(** Every string of bytes plays in exactly one way, ... *)
Theorem C85_always : forall m t l, bytes_ok l -> exists frames o, any_plays m t l frames o.
Proof. exact any_exist. Qed.
Theorem C85_one_way : forall m t frames l frames' o o', bytes_ok l ->
  any_plays m t l frames o -> any_plays m t l frames' o' -> frames = frames' /\ o = o'.
Proof. exact any_unique. Qed.
(** ... which is that of C66 (SpecPrograms.v) unless it has 512 MiB of zeros in a row. *)
Theorem C85_usual : forall m t l frames e, bytes_ok l -> no_zero_bytes (2 ^ 29 - 1) l ->
  any_plays m t l frames e <-> exists o, e = ending_of o /\ plays t l frames o.
Proof. exact any_usual. Qed.

(** The iterator yields the samples of these frames, and ends like that. *)
Theorem C85_samples : forall S (rb : ReadBytes S) t D, stream rb t D -> forall m fuel s l frames o,
  any_plays m t l frames o -> D s l -> (length l < fuel)%nat -> (1 < fuel)%nat ->
  sounds (fs_next rb m fuel) (mkFs s block_empty 0 0 false) (pcm_of frames) o.
Proof. exact @any_samples. Qed.

Section ForAllBuilds.
Context (m : build) (un : nat -> list Z).
Notation memory := (forall n, length (un n) = n).

(** Files. *)
Theorem C85_file : memory -> forall fuel fs path t l si vc frames o,
  file_at fs path t l -> (length l + 1 < fuel)%nat -> file_any_plays m t l si vc frames o ->
  exists r it, flac_open m un fuel fs path = Ok r /\ fr_get_streaminfo r = si /\ fr_vorbis_comment r = vc
    /\ fr_samples r = Ok it /\ sounds (fs_next (br_rb m) m fuel) it (pcm_of frames) o.
Proof. exact (any_file_samples m un). Qed.
(** Every file cannot be opened, or plays. *)
Theorem C85_file_cases : memory -> forall fuel fs path t l,
  file_at fs path t l -> (length l + 1 < fuel)%nat ->
  (exists e, file_unopened t l e /\ flac_open m un fuel fs path = Err e)
  \/ (exists si vc frames o, file_any_plays m t l si vc frames o).
Proof. exact (any_file_cases m un). Qed.

(** C66 for [decode_simple] without its proviso: what the program does with any file. *)
Theorem C85_simple : memory -> forall fuel turns fs path t l si vc frames o,
  file_at fs path t l -> (length l + 1 < fuel)%nat -> (length (pcm_of frames) < turns)%nat ->
  file_any_plays m t l si vc frames o ->
  exists r, decode_simple m un fuel turns fs path None = (r, audio si (pcm_of frames)) /\ ends o r.
Proof. exact (any_simple m un). Qed.
Theorem C85_simple_cases : memory -> forall fuel turns fs path t l,
  file_at fs path t l -> (length l + 1 < fuel)%nat -> 8 * 65535 * len l < Z.of_nat turns ->
  (exists e, file_unopened t l e /\ decode_simple m un fuel turns fs path None = (Err e, None))
  \/ (exists si vc frames o r, file_any_plays m t l si vc frames o
      /\ decode_simple m un fuel turns fs path None = (r, audio si (pcm_of frames)) /\ ends o r).
Proof. exact (any_simple_cases m un). Qed.
(** The same for [decode]; its unchecked writes stay in the buffer. *)
Theorem C85_stereo : memory -> forall fuel turns fs path t l si vc good bad o,
  file_at fs path t l -> (length l + 1 < fuel)%nat -> (length good < turns)%nat ->
  file_any_plays m t l si vc (good ++ bad) o -> si_bits_per_sample si = 16 -> si_channels si = 2 ->
  Forall stereo_frame good -> (forall f bad', bad = f :: bad' -> ~ stereo_frame f) ->
  exists r, decode_stereo m un fuel turns fs path None = (r, audio si (pcm_of good)) /\ any_stereo_outcome bad o r.
Proof. exact (any_stereo m un). Qed.
Theorem C85_stereo_cases : memory -> forall fuel turns fs path t l,
  file_at fs path t l -> (length l + 1 < fuel)%nat -> (length l < turns)%nat ->
  (exists e why, file_unopened t l e /\ decode_stereo m un fuel turns fs path None = (Panic why, None))
  \/ (exists si vc frames o, file_any_plays m t l si vc frames o
      /\ ((si_bits_per_sample si <> 16 \/ si_channels si <> 2)
          /\ (exists why, decode_stereo m un fuel turns fs path None = (Panic why, None))
          \/ si_bits_per_sample si = 16 /\ si_channels si = 2
            /\ exists good bad r, frames = good ++ bad /\ Forall stereo_frame good
               /\ (forall f bad', bad = f :: bad' -> ~ stereo_frame f)
               /\ decode_stereo m un fuel turns fs path None = (r, audio si (pcm_of good))
               /\ any_stereo_outcome bad o r)).
Proof. exact (any_stereo_cases m un). Qed.
End ForAllBuilds.

(** The file of C66, in both builds; and a file that plays a frame and then panics. *)
Example C85_example : forall m,
  file_any_plays m TEof program_file info program_vc (program_good ++ program_bad) (OnError (FormatError "frame CRC mismatch")).
Proof.
  intros m. destruct C66_example as ((w & rest & E & Hw & Hp) & _ & _ & Hz). exists w, rest. split; [exact E|]. split; [exact Hw|].
  assert (bytes_ok program_file) as Hb by (apply bytes_check; vm_compute; reflexivity). rewrite E in Hb, Hz.
  apply C85_usual; [apply bytes_app in Hb; tauto|exact (no_zero_bytes_suffix _ _ _ Hz)|]. eexists (Some _). split; [reflexivity|exact Hp].
Qed.
Example C85_panic : exists fs path l, file_at fs path TEof l
  /\ file_any_plays Debug TEof l info program_vc program_good OnPanic.
Proof.
  apply (panicking_file (Z.to_nat (2 ^ 29)) info program_vc program_good example_metadata [stereo_bytes] (Z2Nat.id (2 ^ 29) ltac:(lia))).
  - exact C47_example.
  - apply bytes_check. vm_compute. reflexivity.
  - constructor; [exact stereo_bytes_ok|constructor].
  - apply bytes_check. vm_compute. reflexivity.
Qed.

Print Assumptions C85_always.
Print Assumptions C85_one_way.
Print Assumptions C85_usual.
Print Assumptions C85_samples.
Print Assumptions C85_file.
Print Assumptions C85_file_cases.
Print Assumptions C85_simple.
Print Assumptions C85_simple_cases.
Print Assumptions C85_stereo.
Print Assumptions C85_stereo_cases.
