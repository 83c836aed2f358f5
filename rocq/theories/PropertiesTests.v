(** What the comparisons of tests/testsamples.rs find out.

    [file_at], [file_plays] (SpecPrograms.v): the contents of a file; its streaminfo,
    comments and frames up to the end or first fault.  [agrees], [same_streaminfo]
    (SpecTests.v): what the comparison is about.  [Panic] is a test that fails. *)
From Verif Require Import ProofTests PropertiesMeta PropertiesFrame PropertiesWhole PropertiesPrograms.
From Verif Require Import SpecReader.

(** * C79: the tests that compare with [flac] and [metaflac] *)

(** For every file and every sequence of reference samples, the comparison passes exactly
    if the file has the number of samples in its streaminfo in frames that decode, and the
    reference starts with those. *)
Theorem C79_samples : forall m un, (forall n, length (un n) = n) ->
  forall fuel turns fs path t l refs, file_at fs path t l ->
  (length l + 1 < fuel)%nat -> (length l < turns)%nat -> no_zero_bytes (2 ^ 29 - 1) l ->
  (compare_decoded_stream m un fuel turns fs path refs = Ok tt
   /\ exists si vc frames o, file_plays t l si vc frames o /\ agrees si frames refs)
  \/ ((exists why, compare_decoded_stream m un fuel turns fs path refs = Panic why)
      /\ forall si vc frames o, file_plays t l si vc frames o -> ~ agrees si frames refs).
Proof. exact compare_cases. Qed.
(** If the frames have the number of channels of the streaminfo, those are all samples of
    these frames. *)
Theorem C79_all_channels : forall n frames, Forall (fun f => len (snd f) = n) frames ->
  pcm_channels n frames = pcm_of frames.
Proof. exact pcm_all_channels. Qed.
(** The lines that [metaflac] prints for a streaminfo, and more or not: the comparison
    passes exactly if the file has this streaminfo. *)
Theorem C79_streaminfo : forall m un, (forall n, length (un n) = n) ->
  forall fuel fs path t w rest si vc si' more, file_at fs path t (w ++ rest) ->
  (length (w ++ rest) < fuel)%nat -> well_formed si vc w -> streaminfo_fits si' ->
  (same_streaminfo si' si /\ compare_metaflac_streaminfo m un fuel fs path (streaminfo_lines si' ++ more) = Ok tt)
  \/ (~ same_streaminfo si' si
      /\ exists why, compare_metaflac_streaminfo m un fuel fs path (streaminfo_lines si' ++ more) = Panic why).
Proof. exact streaminfo_agrees. Qed.
(** For any lines: those that are there on both sides are the same.  So the comparison
    passes if [metaflac] prints nothing. *)
Theorem C79_lines : forall m un, (forall n, length (un n) = n) ->
  forall fuel fs path t w rest si vc metaflac, file_at fs path t (w ++ rest) ->
  (length (w ++ rest) < fuel)%nat -> well_formed si vc w ->
  (compare_metaflac_streaminfo m un fuel fs path metaflac = Ok tt
   /\ forall i a b, nth_error metaflac i = Some a -> nth_error (streaminfo_lines si) i = Some b -> a = b)
  \/ ((exists why, compare_metaflac_streaminfo m un fuel fs path metaflac = Panic why)
      /\ exists i a b, nth_error metaflac i = Some a /\ nth_error (streaminfo_lines si) i = Some b /\ a <> b).
Proof. exact streaminfo_compared. Qed.

(** * Examples: the hypotheses are met *)

(** Seven samples per channel, in two frames of four. *)
Definition seven_info : stream_info :=
  mkSi 4096 4608 None (Some 5000) 44100 2 16 (Some 7)
    [1; 2; 3; 4; 5; 6; 7; 8; 9; 10; 11; 12; 13; 14; 15; 16].
Definition seven_metadata : list Z := signature ++ [128; 0; 0; 34] ++
  [16; 0; 18; 0; 0; 0; 0; 0; 19; 136; 10; 196; 66; 240; 0; 0; 0; 7;
   1; 2; 3; 4; 5; 6; 7; 8; 9; 10; 11; 12; 13; 14; 15; 16].
Definition seven_file : list Z := seven_metadata ++ stereo_bytes ++ stereo_bytes.
Definition seven_files : file_system := fun path =>
  if list_eq_dec Z.eq_dec path program_path then inr [EvData seven_file] else inl (OtherIo 2).

Lemma seven_fits : streaminfo_fits seven_info.
Proof. unfold streaminfo_fits, seven_info, byte_string. cbn. repeat (split; [first [exact I|lia|repeat constructor; lia]|]). reflexivity. Qed.
Lemma seven_well_formed : well_formed seven_info None seven_metadata.
Proof.
  exists [], (skipn 4 seven_metadata). split; [reflexivity|]. split; [|split; [constructor|apply comment_none; constructor]].
  apply (blocks_last (MbStreamInfo seven_info)). exists 0, (skipn 8 seven_metadata). split; [|split; reflexivity].
  constructor; [exact seven_fits|unfold streaminfo_valid, seven_info; cbn; lia|].
  exists (firstn 18 (skipn 8 seven_metadata)). split; [reflexivity|]. split; [repeat constructor; unfold is_byte; lia|vm_compute; reflexivity].
Qed.
Example C79_example : file_at seven_files program_path TEof seven_file
  /\ no_zero_bytes (2 ^ 29 - 1) seven_file
  /\ file_plays TEof seven_file seven_info None (program_good ++ program_good) None
  /\ agrees seven_info (program_good ++ program_good)
       ([10; 9; 12; 10; -15; 1600; 20; -22] ++ [10; 9; 12; 10; -15; 1600; 20; -22] ++ [5]).
Proof.
  split; [|split; [apply short_zeros; vm_compute; reflexivity|split]].
  - exists [EvData seven_file]. split; [reflexivity|]. rewrite <- (app_nil_r seven_file) at 2. apply delivers_chunk; [|constructor; reflexivity].
    split; [apply bytes_check; vm_compute; reflexivity|vm_compute; split; congruence].
  - exists seven_metadata, (stereo_bytes ++ stereo_bytes). split; [reflexivity|]. split; [exact seven_well_formed|].
    exists [stereo_bytes; stereo_bytes], []. split; [cbn [concat]; rewrite !app_nil_r; reflexivity|].
    split; [constructor; [exact stereo_bytes_ok|]; constructor; [exact stereo_bytes_ok|constructor]|]. apply stop_end; [reflexivity|cbn; lia].
  - exists 7, (program_good ++ program_good), [5]. split; [reflexivity|]. split; [|split; [repeat constructor; vm_compute; discriminate|reflexivity]].
    apply reaches_frame; [lia|]. apply reaches_frame; [reflexivity|]. apply reaches_none. vm_compute. discriminate.
Qed.
Example C79_run :
  compare_decoded_stream Debug (repeat 7) 1000 200 seven_files program_path
    ([10; 9; 12; 10; -15; 1600; 20; -22] ++ [10; 9; 12; 10; -15; 1600; 20; -22] ++ [5]) = Ok tt
  /\ (exists why, compare_decoded_stream Debug (repeat 7) 1000 200 seven_files program_path
       ([10; 9; 12; 10; -15; 1600; 20; -22] ++ [10; 9; 12; 10; -15; 1600; 20; -21]) = Panic why)
  /\ compare_metaflac_streaminfo Debug (repeat 7) 1000 seven_files program_path
    ["4096"; "4608"; "0"; "5000"; "44100"; "2"; "16"; "7"; "0102030405060708090a0b0c0d0e0f10"]%string = Ok tt
  /\ (exists why, compare_metaflac_streaminfo Debug (repeat 7) 1000 seven_files program_path ["4096"; "4096"]%string = Panic why)
  /\ compare_metaflac_streaminfo Debug (repeat 7) 1000 seven_files program_path [] = Ok tt.
Proof. vm_compute. repeat split; eauto. Qed.
Example C79_streaminfo_example : streaminfo_fits info /\ ~ same_streaminfo info seven_info /\ same_streaminfo seven_info seven_info.
Proof. split; [apply info_code|]. split; [intros (_ & _ & _ & _ & _ & _ & _ & E & _); discriminate E|repeat split]. Qed.

Print Assumptions C79_samples.
Print Assumptions C79_all_channels.
Print Assumptions C79_streaminfo.
Print Assumptions C79_lines.
