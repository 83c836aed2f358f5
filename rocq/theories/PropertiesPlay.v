(** Properties of programs that mix the ways of reading a file and that go on after
    damaged frames.

    [rb], [t], [D], [fuel], [un], [session_step] as in PropertiesWhole.v.
    [history_until_io] performs calls up to the first I/O error, [history_all] goes
    on after every failure. *)
From Verif Require Import SpecPlay ProofPlay ProofProgress.
From Verif Require PropertiesMeta ProofTimes PropertiesWhole PropertiesFault.
From Verif Require Import SpecReader.

(** * C60: blocks and samples can be mixed, also across damaged frames *)

(** [items_code its l]: [l] is a sequence of frames, some of them damaged in such a
    way that the decoder can tell where they end.  [answers]: what a program has to
    see that calls [read_next_or_eof] and [samples().next()] in any order. *)
Theorem C60_calls : forall {S} (rb : ReadBytes S) t D, stream rb t D -> forall m fuel r inp its l calls,
  fr_blocks r = Ok inp -> D inp l -> items_code its l -> (length l + 1 < fuel)%nat ->
  Forall2 answered (fst (history_until_io (session_step rb m fuel) calls (mkSession r None)))
                   (answers t calls (mkPlayer its [] false)).
Proof. exact (@play_input). Qed.

(** From the first byte of the file. *)
Theorem C60_file : forall {S} (rb : ReadBytes S) t D, stream rb t D ->
  forall m un, (forall n, length (un n) = n) -> forall fuel si vc its st l,
  damaged_file_code si vc its l -> D st l -> (length l + 1 < fuel)%nat ->
  exists r, fst (new_ext rb m un fuel default_options st) = Ok r
    /\ fr_get_streaminfo r = si /\ fr_vorbis_comment r = vc
    /\ forall calls, Forall2 answered (fst (history_until_io (session_step rb m fuel) calls (mkSession r None)))
                                      (answers t calls (mkPlayer its [] false)).
Proof. exact (@play_file). Qed.

(** [FlacReader::new] on any source that delivers the file and ends: every call is
    answered. *)
Theorem C60_new : forall m un fuel script si vc its l, (forall n, length (un n) = n) ->
  damaged_file_code si vc its l -> delivers TEof script l -> (length l + 1 < fuel)%nat ->
  exists r, flac_new m un fuel script = Ok r
    /\ fr_get_streaminfo r = si /\ fr_vorbis_comment r = vc
    /\ forall calls, Forall2 answered (fst (history_all (session_step (br_rb m) m fuel) calls (mkSession r None)))
                                      (answers TEof calls (mkPlayer its [] false))
         /\ length (answers TEof calls (mkPlayer its [] false)) = length calls.
Proof. exact play_new. Qed.

(** * C61: a program that goes on after errors reaches the end *)

(** Any bytes: each call moves the reader on by two bytes or more and leaves it at
    the bytes behind those, or it reports the end, or an I/O error: then it is the
    one with which the source ends. *)
Theorem C61_progress : forall {S} (rb : ReadBytes S) t D, stream rb t D -> forall m fuel buffer st l,
  D st l -> (length l < fuel)%nat -> (1 < fuel)%nat ->
  let r := read_next_or_eof rb m fuel buffer st in
  match fst r with
  | Ok (Some _) | Err (FormatError _) | Err (Unsupported _) =>
      exists w rest, l = w ++ rest /\ (2 <= length w)%nat /\ D (snd r) rest
  | Ok None => t = TEof /\ (length l <= 1)%nat /\ D (snd r) []
  | Err (IoError k) => tail_error t = IoError k
  | _ => True (* no such results: C30 *)
  end.
Proof. exact (@next_progress). Qed.

(** So a loop that asks for frames until the end, errors or not, comes to it after at
    most half as many calls as there are bytes, and one more. *)
Theorem C61_loop_ends : forall {S} (rb : ReadBytes S) t D, stream rb t D -> forall m fuel buffers st l,
  D st l -> (length l < fuel)%nat -> (1 < fuel)%nat -> (length l < 2 * length buffers)%nat ->
  m = Release \/ no_zero_bytes (2 ^ 29 - 1) l ->
  Exists (fun r => r = Ok None \/ r = Err (tail_error t))
         (fst (history_until_io (read_next_or_eof rb m fuel) buffers st)).
Proof. exact (@loop_ends). Qed.

(** * Examples: the hypotheses are met *)

(** A frame; one with a wrong checksum; two bytes that are not a frame; a header with
    a wrong checksum; a frame; a stray byte. *)
Definition tiny_item : item := Frame tiny_header [repeat (-3) 16].
Definition damaged_items : list item :=
  [tiny_item; Fault (FormatError "frame CRC mismatch"); Fault (FormatError "frame sync code missing");
   Fault (FormatError "frame header CRC mismatch"); tiny_item].
Definition damaged_frames : list Z :=
  tiny_frame ++ ((tiny_front ++ [246]) ++ [0; 253] ++ [124; 162]) ++ [1; 2] ++ (tiny_front ++ [247]) ++ tiny_frame ++ [255].
Example C60_items_example : items_code damaged_items damaged_frames.
Proof.
  destruct PropertiesFault.C62_fault_example as (_ & _ & F1 & F2 & F3). unfold damaged_items, damaged_frames.
  pose proof (code_frame _ _ _ tiny_frame_ok) as F.
  apply items_and; [exact F|]. apply items_and; [apply code_fault, F1|]. apply items_and; [apply code_fault, F2|].
  apply items_and; [apply code_fault, F3|]. apply items_and; [exact F|].
  apply items_over; [constructor; [unfold is_byte; lia|constructor]|cbn; lia].
Qed.
Example C60_file_example : damaged_file_code PropertiesMeta.info
  (Some (vorbis_of PropertiesMeta.example_vendor (present PropertiesMeta.example_entries)))
  damaged_items (PropertiesWhole.example_metadata ++ damaged_frames).
Proof. exists PropertiesWhole.example_metadata, damaged_frames. split; [exact PropertiesMeta.C47_example|]. split; [exact C60_items_example|reflexivity]. Qed.

(** A block; samples, which meet the damaged frame; a fresh iterator, which meets the
    next; blocks to the end. *)
Definition damaged_calls : list call :=
  let buf := mkVec [] 0 in
  [NextSample; NextSample; DropSamples; NextSample; NextSample; ReadBlock buf; ReadBlock buf;
   NextSample; NextSample; DropSamples; ReadBlock buf; NextSample].
Example C60_answers_example :
  answers TEof damaged_calls (mkPlayer damaged_items [] false)
  = [ASample (Some (-3)); ASample (Some (-3)); ADropped; AError (FormatError "frame CRC mismatch"); ASample None;
     AError (FormatError "frame sync code missing"); AError (FormatError "frame header CRC mismatch");
     ASample (Some (-3)); ASample (Some (-3)); ADropped; ABlock None; ASample None].
Proof. vm_compute. reflexivity. Qed.
Example C60_run_example :
  match flac_new Release (repeat 7) 500%nat [EvData PropertiesWhole.example_metadata; EvData damaged_frames] with
  | Ok r => fst (history_all (session_step (br_rb Release) Release 500%nat) damaged_calls (mkSession r None))
      = [Ok (GotSample (Some (-3))); Ok (GotSample (Some (-3))); Ok Dropped; Err (FormatError "frame CRC mismatch");
         Ok (GotSample None);
         Err (FormatError "frame sync code missing"); Err (FormatError "frame header CRC mismatch");
         Ok (GotSample (Some (-3))); Ok (GotSample (Some (-3))); Ok Dropped; Ok (GotBlock None); Ok (GotSample None)]
  | _ => False
  end.
Proof. vm_compute. reflexivity. Qed.
(** Bytes that hold no frame at all: the loop of C61. *)
Example C61_loop_example :
  fst (history_until_io (read_next_or_eof (cu_rb Debug) Debug 100) (repeat (mkVec [] 0) 4) (mkCursor [1; 2; 3; 255; 248; 0; 9] 0))
  = [Err (FormatError "frame sync code missing"); Err (FormatError "frame sync code missing");
     Err (FormatError "frame sync code missing"); Ok None].
Proof. vm_compute. reflexivity. Qed.

Print Assumptions C60_calls.
Print Assumptions C60_file.
Print Assumptions C60_new.
Print Assumptions C61_progress.
Print Assumptions C61_loop_ends.
