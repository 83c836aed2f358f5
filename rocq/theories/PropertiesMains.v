(** The example programs on lists of files.

    [simple_result], [stereo_result], [tags_result] (SpecMains.v): what becomes of one
    file.  [ran wav_path r ok s files]: the run [r] ended normally ([ok]) or with a panic,
    printed [s], and left the audio files behind that [files] lists (the last one wins
    where several have the same path [wav_path]).  [within]: files of any size, with
    enough [fuel] and [turns] for them.  [apart]: no input is at the path of an output. *)
From Verif Require Import SpecMains ProofMains PropertiesFrame PropertiesFault PropertiesMeta PropertiesWhole PropertiesPrograms PropertiesAnyPlay.
From Verif Require Import SpecReader.

(** * C86 *)
Section ForAllBuilds.
Context (m : build) (un : nat -> list Z).
Notation memory := (forall n, length (un n) = n).

(** [decode_simple] treats every file, prints a line for each, and goes on after errors. *)
Theorem C86_simple : memory -> forall fuel turns fs wav_path io_text args results,
  Forall (within fuel turns fs) args -> apart wav_path args ->
  Forall2 (fun path r => simple_result m fs path (fst r) (snd r)) args results ->
  Forall (fun r => fst r <> OnPanic) results ->
  ran wav_path (simple_main m un fuel turns fs wav_path io_text args started) true
    (concat (map (fun x => fst x ++ remark io_text (snd x)) (combine args (map fst results))))
    (combine args (map snd results)).
Proof. exact (simple_all m un). Qed.
(** Only a panic of the decoder (C85) ends it early. *)
Theorem C86_simple_panic : memory -> forall fuel turns fs wav_path io_text args results path f rest,
  Forall (within fuel turns fs) (args ++ path :: rest) -> apart wav_path (args ++ path :: rest) ->
  Forall2 (fun path r => simple_result m fs path (fst r) (snd r)) args results ->
  Forall (fun r => fst r <> OnPanic) results -> simple_result m fs path OnPanic f ->
  ran wav_path (simple_main m un fuel turns fs wav_path io_text (args ++ path :: rest) started) false
    (concat (map (fun x => fst x ++ remark io_text (snd x)) (combine args (map fst results))) ++ path)
    (combine args (map snd results) ++ [(path, f)]).
Proof. exact (simple_up_to m un). Qed.
(** There are no other files. *)
Theorem C86_simple_each : memory -> forall fuel turns fs path,
  readable fs path -> within fuel turns fs path -> exists o f, simple_result m fs path o f.
Proof. exact (simple_some m un). Qed.

(** [decode] stops at the first file that it does not support, after the name. *)
Theorem C86_stereo : memory -> forall fuel turns fs wav_path args results,
  Forall (within fuel turns fs) args -> apart wav_path args -> args <> [] ->
  Forall2 (fun path f => stereo_result m fs path true f) args results ->
  ran wav_path (stereo_main m un fuel turns fs wav_path args started) true
    (concat (map (fun path => path ++ literal ": done" ++ [10]) args)) (combine args results).
Proof. exact (stereo_all m un). Qed.
Theorem C86_stereo_panic : memory -> forall fuel turns fs wav_path args results path f rest,
  Forall (within fuel turns fs) (args ++ path :: rest) -> apart wav_path (args ++ path :: rest) ->
  Forall2 (fun path f => stereo_result m fs path true f) args results -> stereo_result m fs path false f ->
  ran wav_path (stereo_main m un fuel turns fs wav_path (args ++ path :: rest) started) false
    (concat (map (fun path => path ++ literal ": done" ++ [10]) args) ++ path) (combine args results ++ [(path, f)]).
Proof. exact (stereo_up_to m un). Qed.
Theorem C86_stereo_each : memory -> forall fuel turns fs path,
  readable fs path -> within fuel turns fs path -> exists ok f, stereo_result m fs path ok f.
Proof. exact (stereo_some m un). Qed.
Theorem C86_stereo_none : forall fuel turns fs wav_path,
  ran wav_path (stereo_main m un fuel turns fs wav_path [] started) true (literal "no files to decode" ++ [10]) [].
Proof. exact (stereo_none m un). Qed.

(** [tags] prints the comments of all files, and stops at the first that it cannot open. *)
Theorem C86_tags : memory -> forall fuel turns fs args css,
  Forall (within fuel turns fs) args ->
  Forall2 (fun path cs => tags_result fs path (Some cs)) args css ->
  forall w, tags_main m un fuel turns fs args w
    = (Ok tt, mkWorld (w_printed w ++ concat (map (fun x => tag_lines (fst x) (snd x)) (combine args css))) (w_audio w)).
Proof. exact (tags_all m un). Qed.
Theorem C86_tags_panic : memory -> forall fuel turns fs args css path rest,
  Forall (within fuel turns fs) (args ++ path :: rest) ->
  Forall2 (fun path cs => tags_result fs path (Some cs)) args css -> tags_result fs path None ->
  forall w, exists why, tags_main m un fuel turns fs (args ++ path :: rest) w
    = (Panic why, mkWorld (w_printed w ++ concat (map (fun x => tag_lines (fst x) (snd x)) (combine args css))) (w_audio w)).
Proof. exact (tags_up_to m un). Qed.
Theorem C86_tags_each : memory -> forall fuel turns fs path,
  readable fs path -> within fuel turns fs path -> exists cs, tags_result fs path cs.
Proof. exact (tags_some m un). Qed.
End ForAllBuilds.

(** The file of C66 and one that does not exist. *)
Example C86_example : forall m,
  simple_result m program_files program_path (OnError (FormatError "frame CRC mismatch"))
    (audio info (pcm_of (program_good ++ program_bad)))
  /\ simple_result m program_files [98] (OnError (IoError (OtherIo 2))) None
  /\ stereo_result m program_files program_path false (audio info (pcm_of program_good))
  /\ tags_result program_files program_path (Some (present example_entries))
  /\ apart (fun p => p ++ literal ".wav") [program_path; [98]].
Proof.
  intros m. destruct C66_example as (_ & Hg & Hb & _). split; [|split; [|split; [|split]]].
  - exact (simple_played m _ _ TEof _ _ _ _ _ (proj1 C64_example) (C85_example m)).
  - apply simple_no_file. reflexivity.
  - apply (stereo_broken m _ _ TEof program_file info program_vc program_good program_bad _ (proj1 C64_example) (C85_example m) eq_refl eq_refl Hg Hb).
    left. discriminate.
  - apply (tags_found program_files program_path TEof example_metadata _ info program_vc _ (proj1 C64_example) C47_example). eexists. reflexivity.
  - intros a b [<-|[<-|[]]] [<-|[<-|[]]]; discriminate.
Qed.
Example C86_run : let wav_path p := p ++ literal ".wav" in
  let r := simple_main Release (repeat 7) 1000 50 program_files wav_path (fun _ => "no such file"%string)
             [program_path; [98]] started in
  fst r = Ok tt
  /\ w_printed (snd r) = program_path ++ literal ": error, invalid input: frame CRC mismatch" ++ [10]
       ++ [98] ++ literal ": IO error: no such file" ++ [10]
  /\ w_audio (snd r) (wav_path program_path)
     = Some (mkSpec 2 44100 16, [10; 9; 12; 10; -15; 1600; 20; -22] ++ repeat (-3) 16)
  /\ w_audio (snd r) (wav_path [98]) = None.
Proof. vm_compute. repeat split. Qed.

Print Assumptions C86_simple.
Print Assumptions C86_simple_panic.
Print Assumptions C86_simple_each.
Print Assumptions C86_stereo.
Print Assumptions C86_stereo_panic.
Print Assumptions C86_stereo_none.
Print Assumptions C86_tags.
Print Assumptions C86_tags_panic.
Print Assumptions C86_stereo_each.
Print Assumptions C86_tags_each.
