(** Properties of whole files: opening them, and everything a program can do with
    an open one.

    [rb], [t], [D] as in PropertiesHeader.v: a reader [rb] whose state [st] has the
    bytes [l] to come and then ends as [t] says.  [fuel] as in PropertiesFrame.v: a
    bound on the loops that exceeds the number of bytes.  [un]: the contents of
    fresh, uninitialised buffers.  [session_step] (SpecWhole.v): one call on an open
    [FlacReader]; [history] performs calls up to the first one that fails,
    [history_all] goes on after failures. *)
From Verif Require Import SpecOps SpecWhole ProofWhole ProofSession ProofTotal.
From Verif Require PropertiesMeta ProofTimes.
From Verif Require Import SpecReader.

(** * C01: decoding does not depend on how the source splits its data *)

(** Two sources that deliver the same bytes in different pieces: [new_ext] fails in
    the same way on both, or it gives the same streaminfo and comments and two
    readers on which every sequence of calls gives the same results, also after
    calls that failed. *)
Theorem C01_scripts : forall m un, (forall n, length (un n) = n) -> forall fuel opts script script' l,
  delivers TEof script l -> delivers TEof script' l ->
  opened_alike (fun r r' => forall fuel' calls,
      fst (history_all (session_step (br_rb m) m fuel') calls (mkSession r None))
      = fst (history_all (session_step (br_rb m) m fuel') calls (mkSession r' None)))
    (flac_new_ext m un fuel script opts) (flac_new_ext m un fuel script' opts).
Proof. exact scripts_alike. Qed.

(** Any two kinds of reader, a [BufferedReader] over any script and a [Cursor] for
    instance, with the same bytes and the same end, which may be an I/O error; going on
    after errors that the decoder found in the data, up to the first I/O error. *)
Theorem C01_readers : forall {S1 S2} (rb1 : ReadBytes S1) (rb2 : ReadBytes S2) t D1 D2,
  stream rb1 t D1 -> stream rb2 t D2 ->
  forall m un1 un2, (forall n, length (un1 n) = n) -> (forall n, length (un2 n) = n) ->
  forall fuel opts s1 s2 l, D1 s1 l -> D2 s2 l ->
  opened_alike (fun r1 r2 => forall fuel' calls,
      fst (history_until_io (session_step rb1 m fuel') calls (mkSession r1 None))
      = fst (history_until_io (session_step rb2 m fuel') calls (mkSession r2 None)))
    (fst (new_ext rb1 m un1 fuel opts s1)) (fst (new_ext rb2 m un2 fuel opts s2)).
Proof. exact (@open_alike). Qed.

(** The functions of the module [metadata]. *)
Theorem C01_metadata : forall {S1 S2} (rb1 : ReadBytes S1) (rb2 : ReadBytes S2) t D1 D2,
  stream rb1 t D1 -> stream rb2 t D2 ->
  forall m un1 un2, (forall n, length (un1 n) = n) -> (forall n, length (un2 n) = n) ->
  forall n s1 s2 l, D1 s1 l -> D2 s2 l ->
  fst (nexts (mr_next rb1 m un1) n (mr_new s1)) = fst (nexts (mr_next rb2 m un2) n (mr_new s2)).
Proof. exact (@metadata_alike). Qed.
Theorem C01_block : forall {S1 S2} (rb1 : ReadBytes S1) (rb2 : ReadBytes S2) t D1 D2,
  stream rb1 t D1 -> stream rb2 t D2 ->
  forall m un1 un2, (forall n, length (un1 n) = n) -> (forall n, length (un2 n) = n) ->
  forall ty n s1 s2 l, 0 <= n < 2 ^ 32 -> D1 s1 l -> D2 s2 l ->
  fst (read_metadata_block rb1 m un1 ty n s1) = fst (read_metadata_block rb2 m un2 ty n s2)
  /\ fst (read_metadata_block_with_header rb1 m un1 s1) = fst (read_metadata_block_with_header rb2 m un2 s2).
Proof. exact (@block_alike). Qed.

(** * C30: decoding never panics, never runs undefined behaviour, and terminates *)

(** In release builds on every input; in debug builds without very long runs of zeros
    ([no_zero_bytes], SpecWhole.v), on which C31 shows them to panic. *)

(** Opening: any reader, any options. *)
Theorem C30_open : forall {S} (rb : ReadBytes S) t D, stream rb t D ->
  forall m un, (forall n, length (un n) = n) -> forall fuel opts st l,
  D st l -> (length l < fuel)%nat -> value_or_error (fst (new_ext rb m un fuel opts st)).
Proof. exact (@open_safe). Qed.
Theorem C30_open_source : forall m un, (forall n, length (un n) = n) -> forall fuel script opts,
  Forall contract_ok script -> (length (script_data script) < fuel)%nat ->
  value_or_error (flac_new_ext m un fuel script opts).
Proof. exact source_open. Qed.

(** Any calls on an open file, up to the first I/O error. *)
Theorem C30_calls : forall {S} (rb : ReadBytes S) t D, stream rb t D ->
  forall m un, (forall n, length (un n) = n) -> forall fuel opts st l r calls,
  D st l -> (length l < fuel)%nat -> m = Release \/ no_zero_bytes (2 ^ 29 - 1) l ->
  metadata_only opts = false -> fst (new_ext rb m un fuel opts st) = Ok r ->
  Forall value_or_error (fst (history_until_io (session_step rb m fuel) calls (mkSession r None))).
Proof. exact (@opened_safe). Qed.

(** Going on after failures: a [BufferedReader] over any source, which may fail now and
    then, or say that it has ended and later deliver more ...  (2048 bytes of the buffer may
    be seen again after a failure.) *)
Theorem C30_calls_source : forall m un, (forall n, length (un n) = n) -> forall fuel script opts r inp calls,
  Forall contract_ok script -> m = Release \/ no_zero_bytes (2 ^ 29 - 2049) (script_data script) ->
  (Z.to_nat 2048 + length (script_data script) < fuel)%nat ->
  flac_new_ext m un fuel script opts = Ok r -> fr_blocks r = Ok inp ->
  Forall value_or_error (fst (history_all (session_step (br_rb m) m fuel) calls (mkSession r None))).
Proof. exact source_sessions. Qed.

(** ... and a [Cursor]. *)
Theorem C30_calls_memory : forall m fuel r inp l calls,
  fr_blocks r = Ok inp -> cursor_at inp l -> (length l < fuel)%nat -> m = Release \/ no_zero_bytes (2 ^ 29 - 1) l ->
  Forall value_or_error (fst (history_all (session_step (cu_rb m) m fuel) calls (mkSession r None))).
Proof. exact memory_sessions. Qed.

(** The functions of the module [metadata]. *)
Theorem C30_metadata : forall {S} (rb : ReadBytes S) t D, stream rb t D ->
  forall m un, (forall n, length (un n) = n) -> forall ty n st l,
  0 <= ty <= 255 -> 0 <= n < 2 ^ 32 -> D st l ->
  value_or_error (fst (read_metadata_block rb m un ty n st))
  /\ value_or_error (fst (read_metadata_block_with_header rb m un st)).
Proof. exact (@metadata_safe). Qed.
Theorem C30_metadata_iterator : forall {S} (rb : ReadBytes S) t D, stream rb t D ->
  forall m un, (forall n, length (un n) = n) -> forall n st l, D st l ->
  Forall succeeded (fst (nexts (mr_next rb m un) n (mr_new st))).
Proof. exact (@metadata_iter_safe). Qed.

(** * C50: a whole file decodes to its PCM data *)

(** [file_code si vc frames l]: [l] is signature, metadata with streaminfo [si] and
    comments [vc], and the frames; [pcm_of]: their samples, interleaved;
    [yields]: these and then the end for ever. *)
Theorem C50_file : forall {S} (rb : ReadBytes S) t D, stream rb t D ->
  forall m un, (forall n, length (un n) = n) -> forall fuel si vc frames st l,
  t = TEof -> file_code si vc frames l -> D st l -> (length l + 1 < fuel)%nat ->
  exists r it, fst (new_ext rb m un fuel default_options st) = Ok r
    /\ fr_get_streaminfo r = si /\ fr_vorbis_comment r = vc
    /\ fr_samples r = Ok it /\ fr_into_samples r = Ok it
    /\ yields (fs_next rb m fuel) it (map ROk (pcm_of frames)).
Proof. exact (@file_samples). Qed.

Theorem C50_new : forall m un fuel script si vc frames l, (forall n, length (un n) = n) ->
  file_code si vc frames l -> delivers TEof script l -> (length l + 1 < fuel)%nat ->
  exists r it, flac_new m un fuel script = Ok r
    /\ fr_get_streaminfo r = si /\ fr_vorbis_comment r = vc
    /\ fr_samples r = Ok it /\ fr_into_samples r = Ok it
    /\ yields (fs_next (br_rb m) m fuel) it (map ROk (pcm_of frames)).
Proof. exact source_samples. Qed.

(** With the frames of the reference encoder (SpecEncode.v), of which every choice of
    parameters and every PCM data that fits them is an instance. *)
Theorem C50_round_trip : forall m un fuel script si vc w parts, (forall n, length (un n) = n) ->
  well_formed si vc w -> Forall (fun p => info_ok (fst p) (snd p)) parts ->
  let l := w ++ flat_map (fun p => encode_frame (fst p) (snd p)) parts in
  delivers TEof script l -> (length l + 1 < fuel)%nat ->
  exists r it, flac_new m un fuel script = Ok r
    /\ fr_get_streaminfo r = si /\ fr_vorbis_comment r = vc
    /\ fr_samples r = Ok it /\ fr_into_samples r = Ok it
    /\ yields (fs_next (br_rb m) m fuel) it
         (map ROk (flat_map (fun p => interleave (length (hd [] (snd p))) (snd p)) parts)).
Proof. exact encoder_samples. Qed.

(** * C54: samples without an error come only from a well-formed file *)

(** The last byte [x] may be a stray one (C33). *)
Theorem C54_only : forall {S} (rb : ReadBytes S) t D, stream rb t D ->
  forall m un, (forall n, length (un n) = n) -> forall fuel st l r it pcm,
  D st l -> (length l + 1 < fuel)%nat ->
  m = Debug \/ no_zero_run (2 ^ 32 - 1) (bytes_bits l) ->
  fst (new_ext rb m un fuel default_options st) = Ok r -> sample_iterator r it ->
  yields (fs_next rb m fuel) it (map ROk pcm) ->
  t = TEof /\ exists frames l' x, l = l' ++ x /\ (length x <= 1)%nat
    /\ file_code (fr_get_streaminfo r) (fr_vorbis_comment r) frames l' /\ pcm = pcm_of frames.
Proof. exact (@file_only). Qed.

(** * Examples: the hypotheses are met *)

(** A file: streaminfo, a block of a reserved type, comments, padding; two frames of
    17 and 16 samples. *)
Definition example_metadata : list Z := signature ++ PropertiesMeta.example_data.
Definition example_parts : list (frame_info * list (list Z)) :=
  [(ProofTimes.quiet_info 0, ProofTimes.quiet 17); (ProofTimes.quiet_info 1, ProofTimes.quiet 16)].
Definition example_frames : list Z := flat_map (fun p => encode_frame (fst p) (snd p)) example_parts.
Definition example_file : list Z := example_metadata ++ example_frames.

Example C50_example : file_code PropertiesMeta.info
  (Some (vorbis_of PropertiesMeta.example_vendor (present PropertiesMeta.example_entries)))
  ProofTimes.two_quiet example_file.
Proof.
  exists example_metadata, ProofTimes.two_bytes. split; [exact PropertiesMeta.C47_example|].
  split; [exact ProofTimes.two_quiet_ok|]. unfold example_file. f_equal.
Qed.
Example C50_round_trip_example : Forall (fun p => info_ok (fst p) (snd p)) example_parts.
Proof. constructor; [apply ProofTimes.quiet_ok; lia|]. constructor; [apply ProofTimes.quiet_ok; lia|constructor]. Qed.
Example C50_example_run :
  match flac_new Debug (repeat 7) 500%nat [EvData example_file] with
  | Ok r => match fr_samples r with
            | Ok it => fst (nexts (fs_next (br_rb Debug) Debug 500%nat) 34 it)
                       = repeat (Ok (Some (ROk (-3)))) 33 ++ [Ok None]
            | _ => False
            end
  | _ => False
  end.
Proof. vm_compute. reflexivity. Qed.

(** Two ways to cut it. *)
Lemma example_bytes : bytes_ok example_file.
Proof.
  apply Forall_forall. intros x Hx.
  assert (forallb (fun x => (0 <=? x) && (x <? 256)) example_file = true) as H by (vm_compute; reflexivity).
  rewrite forallb_forall in H. specialize (H x Hx). unfold is_byte. lia.
Qed.
Example C01_example : delivers TEof [EvData example_file] example_file
  /\ delivers TEof (map (fun b => EvData [b]) example_file) example_file.
Proof.
  pose proof example_bytes as Hb. split.
  - rewrite <- (app_nil_r example_file) at 2. apply delivers_chunk; [|constructor; reflexivity]. split; [exact Hb|]. vm_compute. split; congruence.
  - induction example_file as [|b l IH]; [constructor; reflexivity|]. inversion Hb. subst. cbn [map].
    apply (delivers_chunk TEof [b]); [|apply IH; assumption]. split; [constructor; [assumption|constructor]|]. cbn. lia.
Qed.

(** A source that fails before the second frame, then claims to have ended, and then goes on. *)
Definition example_script : list event :=
  [EvData example_metadata; EvData (firstn 12 example_frames); EvErr (OtherIo 110); EvData []; EvData (skipn 12 example_frames)].
Example C30_example : Forall contract_ok example_script
  /\ no_zero_bytes (2 ^ 29 - 2049) (script_data example_script)
  /\ match flac_new_ext Debug (repeat 7) 3000%nat example_script (mkOpts false true) with
     | Ok r => succeeded (fr_blocks r)
     | _ => False
     end.
Proof.
  pose proof example_bytes as Hb. unfold example_file in Hb. apply Forall_app in Hb as [Hm Hf]. split; [|split].
  - rewrite <- (firstn_skipn 12 example_frames) in Hf. apply Forall_app in Hf as [Hf1 Hf2].
    repeat constructor; try assumption; vm_compute; congruence.
  - intros a b E. apply (f_equal (@length Z)) in E. rewrite !app_length, repeat_length in E.
    assert (length (script_data example_script) = 125%nat) as L by (vm_compute; reflexivity). lia.
  - vm_compute. eexists. reflexivity.
Qed.
(** Gigabytes of zeros: release builds need no limit. *)
Example C30_release_example : forall n, 2 ^ 29 <= Z.of_nat n < 2 ^ 40 ->
  cursor_at (mkCursor (repeat 0 n) 0) (repeat 0 n) /\ ~ no_zero_bytes (2 ^ 29 - 1) (repeat 0 n).
Proof.
  intros n Hn. split.
  - exists []. split; [reflexivity|]. split; [reflexivity|]. split.
    + apply Forall_forall. intros x Hx. apply repeat_spec in Hx. subst x. unfold is_byte. lia.
    + unfold len. cbn [cu_data]. rewrite repeat_length. lia.
  - intros H. apply (H [] (repeat 0 (n - Z.to_nat (2 ^ 29 - 1)))). cbn [app]. rewrite <- repeat_app. f_equal. lia.
Qed.
Example C54_example :
  match flac_new Debug (repeat 7) 500%nat [EvData (example_file ++ [9])] with
  | Ok r => match fr_samples r with
            | Ok it => fst (nexts (fs_next (br_rb Debug) Debug 500%nat) 34 it)
                       = repeat (Ok (Some (ROk (-3)))) 33 ++ [Ok None]
            | _ => False
            end
  | _ => False
  end.
Proof. vm_compute. reflexivity. Qed.

Print Assumptions C01_scripts.
Print Assumptions C01_readers.
Print Assumptions C01_metadata.
Print Assumptions C01_block.
Print Assumptions C30_open.
Print Assumptions C30_open_source.
Print Assumptions C30_calls.
Print Assumptions C30_calls_source.
Print Assumptions C30_calls_memory.
Print Assumptions C30_metadata.
Print Assumptions C30_metadata_iterator.
Print Assumptions C50_file.
Print Assumptions C50_new.
Print Assumptions C50_round_trip.
Print Assumptions C54_only.
