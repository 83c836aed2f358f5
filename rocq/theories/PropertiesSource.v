(** Properties of the source that a file is read from.

    A source is a script of [read] results (Model: [event]); [delivers t script l]
    (SpecReader.v): it delivers the bytes [l], in any chunks, and then ends as [t]
    says.  [br_into_inner], [fr_into_inner]: [into_inner], the source with the results
    that were not taken yet.  [taken_for], [took]: SpecSource.v.  [un], [fuel],
    [session_step], [history], [history_all] as in PropertiesWhole.v. *)
From Verif Require Import SpecOps SpecWhole SpecSource ProofTaken.
From Verif Require PropertiesMeta PropertiesWhole PropertiesAlloc ProofTimes.
From Verif Require Import SpecReader.

(** * C56: what does not start like a FLAC file is rejected by its first bytes *)

Theorem C56_id3 : forall {S} (rb : ReadBytes S) t D, stream rb t D -> forall m un fuel opts st x rest,
  D st ([0x49; 0x44; 0x33; x] ++ rest) ->  (* "ID3" *)
  fst (new_ext rb m un fuel opts st)
  = Err (FormatError "stream starts with ID3 header rather than FLAC header").
Proof. exact (@starts_id3). Qed.
Theorem C56_other : forall {S} (rb : ReadBytes S) t D, stream rb t D -> forall m un fuel opts st a b c d rest,
  D st ([a; b; c; d] ++ rest) ->
  [a; b; c; d] <> [0x66; 0x4c; 0x61; 0x43] -> [a; b; c] <> [0x49; 0x44; 0x33] ->  (* "fLaC", "ID3" *)
  fst (new_ext rb m un fuel opts st) = Err (FormatError "invalid stream header").
Proof. exact (@starts_other). Qed.
Theorem C56_short : forall {S} (rb : ReadBytes S) t D, stream rb t D -> forall m un fuel opts st l,
  D st l -> (length l < 4)%nat -> fst (new_ext rb m un fuel opts st) = Err (tail_error t).
Proof. exact (@starts_short). Qed.

(** * C57: no more is taken from the source than needed *)

(** Reading bytes: [spec_byte_op] (SpecOps.v) is what the operations do to the list of
    bytes to come. *)
Theorem C57_bytes : forall m t script l, delivers t script l -> forall ops,
  Forall legal_byte_op ops -> Forall succeeded (fst (history (spec_byte_op t) ops l)) ->
  taken_for script (len l - len (snd (history (spec_byte_op t) ops l)))
    (br_into_inner (snd (history (run_byte_op (br_rb m)) ops (br_new script)))).
Proof. exact bytes_taken. Qed.

(** Opening a file, with any options. *)
Theorem C57_open : forall m t script l, delivers t script l ->
  forall un, (forall n, length (un n) = n) -> forall fuel, (length l < fuel)%nat -> forall opts r,
  flac_new_ext m un fuel script opts = Ok r ->
  exists w rest, l = w ++ rest
    /\ opens opts (fr_get_streaminfo r) (fr_vorbis_comment r) w
    /\ taken_for script (len w) (fr_into_inner r).
Proof. exact open_taken. Qed.

(** Reading frames: whatever follows them, an I/O error for instance, they can be
    decoded before it is looked at. *)
Theorem C57_frames : forall m t script l, delivers t script l ->
  forall un, (forall n, length (un n) = n) -> forall fuel, (length l < fuel)%nat ->
  forall opts si vc w frames ws rest buffers,
  opens opts si vc w -> metadata_only opts = false ->
  Forall2 (fun f w => frame_code (fst f) (snd f) w) frames ws ->
  l = w ++ concat ws ++ rest -> length buffers = length frames ->
  exists r, flac_new_ext m un fuel script opts = Ok r
    /\ let h := history_all (session_step (br_rb m) m fuel) (map ReadBlock buffers) (mkSession r None) in
       Forall2 (fun o f => exists b, o = Ok (GotBlock (Some b)) /\ block_shows b (fst f) (snd f)) (fst h) frames
       /\ taken_for script (len (w ++ concat ws)) (fr_into_inner (drop_samples (snd h))).
Proof. exact frames_taken. Qed.

(** Any calls, blocks and samples mixed, also behind errors found in the data: as long as
    no call panics (C30) or reports an error of the source ([from_source], SpecOps.v),
    [rest] is still to come, and no more was taken than the bytes before it needed. *)
Theorem C57_calls : forall m t script l, delivers t script l ->
  forall un, (forall n, length (un n) = n) -> forall fuel, (length l < fuel)%nat ->
  forall opts r calls, flac_new_ext m un fuel script opts = Ok r ->
  let h := history_all (session_step (br_rb m) m fuel) calls (mkSession r None) in
  Forall (fun o => from_source o = false) (fst h) ->
  exists w rest, l = w ++ rest
    /\ match fr_input (drop_samples (snd h)) with Full inp | MetadataOnly inp => buffered t inp rest end
    /\ taken_for script (len w) (fr_into_inner (drop_samples (snd h))).
Proof. exact calls_taken. Qed.

(** * C58: I/O errors are passed on, and none are made up *)

(** [contract_ok] (SpecOps.v): a [read] fails or returns at most 2048 bytes.  [took before r after]:
    a call that reports [r] made [read]s that returned data, and possibly a last one that failed
    or returned no bytes, in line with [r]. *)

(** Opening a file. *)
Theorem C58_open : forall m un fuel script opts, Forall contract_ok script ->
  let r := new_ext (br_rb m) m un fuel opts (br_new script) in
  took script (report_of (fst r)) (br_into_inner (snd r))
  /\ forall f, fst r = Ok f -> fr_into_inner f = br_into_inner (snd r).
Proof. exact open_took. Qed.

(** Any call on an open file, after any others. *)
Theorem C58_calls : forall m un fuel script opts r calls c,
  Forall contract_ok script -> flac_new_ext m un fuel script opts = Ok r ->
  let s := snd (history_all (session_step (br_rb m) m fuel) calls (mkSession r None)) in
  let reply := session_step (br_rb m) m fuel c s in
  took (fr_into_inner (drop_samples s)) (call_report (fst reply)) (fr_into_inner (drop_samples (snd reply))).
Proof. exact call_took. Qed.

(** Metadata: the iterator, and the functions of the module [metadata]. *)
Theorem C58_iterator : forall m un script n, Forall contract_ok script ->
  let st := snd (nexts (mr_next (br_rb m) m un) n (mr_new (br_new script))) in
  let r := mr_next (br_rb m) m un st in
  took (br_into_inner (mr_input st)) (item_report (fst r)) (br_into_inner (mr_input (snd r))).
Proof. exact item_took. Qed.
Theorem C58_metadata : forall m un script ty n, Forall contract_ok script ->
  (let r := read_metadata_block (br_rb m) m un ty n (br_new script) in
   took script (report_of (fst r)) (br_into_inner (snd r)))
  /\ (let r := read_metadata_block_with_header (br_rb m) m un (br_new script) in
      took script (report_of (fst r)) (br_into_inner (snd r))).
Proof. exact block_took. Qed.

(** Any operation that reads bytes, after any others. *)
Theorem C58_bytes : forall m script ops o, Forall contract_ok script ->
  let st := snd (history_all (run_byte_op (br_rb m)) ops (br_new script)) in
  let r := run_byte_op (br_rb m) o st in
  took (br_into_inner st) (op_report (fst r)) (br_into_inner (snd r)).
Proof. exact op_took. Qed.

(** * Examples *)

Example C56_example :
  flac_new Release (repeat 7) 10%nat [EvData [0x49; 0x44]; EvData [0x33; 4; 0]]
  = Err (FormatError "stream starts with ID3 header rather than FLAC header")
  /\ flac_new Release (repeat 7) 10%nat [EvData [0x4f; 0x67; 0x67; 0x53]] = Err (FormatError "invalid stream header")
  /\ flac_new Release (repeat 7) 10%nat [EvData [0x66; 0x4c; 0x61]] = Err (IoError UnexpectedEof)
  /\ flac_new Release (repeat 7) 10%nat [EvData [0x66; 0x4c; 0x61]; EvErr (OtherIo 5)] = Err (IoError (OtherIo 5)).
Proof. vm_compute. repeat split. Qed.

Example C57_bytes_example :
  let script := [EvData [1; 2; 3]; EvData [4; 5]; EvErr (OtherIo 5)] in
  delivers (TErr (OtherIo 5)) script [1; 2; 3; 4; 5]
  /\ br_into_inner (snd (history (run_byte_op (br_rb Debug)) [OpBe16; OpU8] (br_new script)))
     = [EvData [4; 5]; EvErr (OtherIo 5)]
  /\ taken_for script 3 [EvData [4; 5]; EvErr (OtherIo 5)]
  /\ ~ taken_for script 3 [EvErr (OtherIo 5)].
Proof.
  cbv zeta. split; [|split; [vm_compute; reflexivity|split]].
  - change [1; 2; 3; 4; 5] with ([1; 2; 3] ++ [4; 5] ++ []).
    repeat apply delivers_chunk; try (split; [repeat constructor; unfold is_byte; lia|vm_compute; split; congruence]). constructor. reflexivity.
  - exists [[1; 2; 3]]. vm_compute. repeat split; [congruence|right; reflexivity].
  - intros (chunks & E & _ & H). destruct chunks as [|a [|b [|c chunks]]]; cbn in E; try discriminate. injection E as <- <-.
    destruct H as [H|H]; [discriminate|vm_compute in H; discriminate].
Qed.

(** The example file of PropertiesWhole.v in chunks of eleven bytes, with an error in
    place of the end: both frames are decoded, then the error is seen. *)
Fixpoint pieces (n : nat) (l : list Z) : list event :=
  match n with
  | O => []
  | Datatypes.S n => match l with [] => [] | _ => EvData (firstn 11 l) :: pieces n (skipn 11 l) end
  end.
Definition broken : list event := pieces 100 PropertiesWhole.example_file ++ [EvErr (OtherIo 5); EvData [1]].
Definition run_broken (calls : list call) : option (list (option io_kind) * Z) :=
  match flac_new Debug (repeat 7) 500%nat broken with
  | Ok r => let h := history_all (session_step (br_rb Debug) Debug 500%nat) calls (mkSession r None) in
            Some (map io_failure (fst h), len (fr_into_inner (drop_samples (snd h))))
  | _ => None
  end.
Example C57_example :
  match flac_new Debug (repeat 7) 500%nat broken with Ok r => Some (len (fr_into_inner r)) | _ => None end = Some 4
  /\ run_broken [ReadBlock (mkVec [] 0)] = Some ([None], 3)
  /\ run_broken [ReadBlock (mkVec [] 0); ReadBlock (mkVec [] 0)] = Some ([None; None], 2)
  /\ run_broken [ReadBlock (mkVec [] 0); ReadBlock (mkVec [] 0); ReadBlock (mkVec [] 0)]
     = Some ([None; None; Some (OtherIo 5)], 1)
  /\ run_broken [NextSample; NextSample; ReadBlock (mkVec [] 0)] = Some ([None; None; None], 2).
Proof. vm_compute. repeat split. Qed.
Example C58_example : Forall contract_ok broken.
Proof.
  assert (forall n l, bytes_ok l -> Forall contract_ok (pieces n l)) as X.
  { induction n as [|n IH]; intros l Hl; [constructor|]. cbn [pieces]. destruct l as [|x l]; [constructor|].
    rewrite <- (firstn_skipn 11 (x :: l)) in Hl. apply Forall_app in Hl as [H1 H2]. constructor; [|apply IH, H2].
    split; [exact H1|]. unfold len. rewrite firstn_length. lia. }
  apply Forall_app. split; [apply X, PropertiesWhole.example_bytes|].
  repeat constructor; unfold is_byte; try lia. vm_compute. congruence.
Qed.

(** What [took] excludes: passing over an error or over a [read] of no bytes; reporting an
    error, or the end, where there was none. *)
Example C58_took : forall k,
  took [EvData [1]; EvErr k; EvData [2]] (Failed k) [EvData [2]]
  /\ took [EvData [1]; EvData []; EvData [2]] (Failed UnexpectedEof) [EvData [2]]
  /\ took [EvData [1]; EvData []; EvData [2]] Ended [EvData [2]]
  /\ ~ took [EvErr k; EvData [2]] Other []
  /\ ~ took [EvData []; EvData [2]] Other []
  /\ ~ took [EvData [1]; EvErr k] (Failed k) [EvErr k]
  /\ ~ took [EvData [1]; EvData [2]] Ended [EvData [2]].
Proof.
  intros k. split; [|split; [|split; [|split; [|split; [|split]]]]].
  - exists [[1]], [EvErr k; EvData [2]]. repeat split; [repeat constructor; discriminate|left; reflexivity].
  - exists [[1]], [EvData []; EvData [2]]. repeat split; [repeat constructor; discriminate|right; split; [reflexivity|left; reflexivity]].
  - exists [[1]], [EvData []; EvData [2]]. repeat split; [repeat constructor; discriminate|left; reflexivity].
  - intros (chunks & rest & E & _ & ->). destruct chunks as [|c chunks]; discriminate.
  - intros (chunks & rest & E & Hn & ->). destruct chunks as [|c chunks]; [discriminate|]. injection E as <- _.
    inversion Hn as [|? ? H]. apply H. reflexivity.
  - intros (chunks & rest & E & _ & [->|[_ H]]).
    + destruct chunks as [|c [|d chunks]]; discriminate.
    + destruct H as [->|[-> H]]; [|discriminate]. destruct chunks as [|c [|d chunks]]; discriminate.
  - intros (chunks & rest & E & _ & [->|[-> H]]); [|discriminate]. apply (f_equal (@length _)) in E as El.
    rewrite app_length in El. destruct chunks as [|c chunks]; [discriminate|cbn in El; lia].
Qed.
(** A source that says in between that it has ended: in front of a frame this is the end,
    within one it is an error. *)
Definition run_paused (k : nat) : option (list report) :=
  let data := PropertiesWhole.example_file in
  let n := (length data - k)%nat in
  let script := [EvData (firstn n data); EvData []; EvErr (OtherIo 5); EvData (skipn n data)] in
  match flac_new Debug (repeat 7) 500%nat script with
  | Ok r => let h := history_all (session_step (br_rb Debug) Debug 500%nat) (repeat (ReadBlock (mkVec [] 0)) 5) (mkSession r None) in
            Some (map call_report (fst h))
  | _ => None
  end.
Example C58_run :
  run_paused 11 = Some [Other; Ended; Failed (OtherIo 5); Other; Ended]
  /\ run_paused 8 = Some [Other; Failed UnexpectedEof; Failed (OtherIo 5); Other; Other].
Proof. vm_compute. split; reflexivity. Qed.

Print Assumptions C56_id3.
Print Assumptions C56_other.
Print Assumptions C56_short.
Print Assumptions C57_bytes.
Print Assumptions C57_open.
Print Assumptions C57_frames.
Print Assumptions C57_calls.
Print Assumptions C58_open.
Print Assumptions C58_calls.
Print Assumptions C58_iterator.
Print Assumptions C58_metadata.
Print Assumptions C58_bytes.
