(** What the example programs do with a list of files. *)
From Verif Require Export SpecAnyPlay ModelMains.
From Verif Require Import SpecReader.

(** * Single files *)

(** How decoding a file with [decode_simple] ends, and what it writes. *)
Inductive simple_result (m : build) (fs : file_system) (path : list Z) : ending -> wav -> Prop :=
| simple_no_file : forall k, fs path = inl k -> simple_result m fs path (OnError (IoError k)) None
| simple_no_flac : forall t l e, file_at fs path t l -> file_unopened t l e ->
    simple_result m fs path (OnError e) None
| simple_played : forall t l si vc frames o, file_at fs path t l -> file_any_plays m t l si vc frames o ->
    simple_result m fs path o (audio si (pcm_of frames)).

(** Whether [decode] accepts a file, and what it writes. *)
Inductive stereo_result (m : build) (fs : file_system) (path : list Z) : bool -> wav -> Prop :=
| stereo_no_file : forall k, fs path = inl k -> stereo_result m fs path false None
| stereo_no_flac : forall t l e, file_at fs path t l -> file_unopened t l e -> stereo_result m fs path false None
| stereo_other : forall t l si vc frames o, file_at fs path t l -> file_any_plays m t l si vc frames o ->
    si_bits_per_sample si <> 16 \/ si_channels si <> 2 -> stereo_result m fs path false None
| stereo_played : forall t l si vc frames, file_at fs path t l -> file_any_plays m t l si vc frames AtEnd ->
    si_bits_per_sample si = 16 -> si_channels si = 2 -> Forall stereo_frame frames ->
    stereo_result m fs path true (audio si (pcm_of frames))
| stereo_broken : forall t l si vc good bad o, file_at fs path t l -> file_any_plays m t l si vc (good ++ bad) o ->
    si_bits_per_sample si = 16 -> si_channels si = 2 -> Forall stereo_frame good ->
    (forall f bad', bad = f :: bad' -> ~ stereo_frame f) -> bad <> [] \/ o <> AtEnd ->
    stereo_result m fs path false (audio si (pcm_of good)).

(** The comments that [tags] prints for a file. *)
Inductive tags_result (fs : file_system) (path : list Z) : option (list (list Z * list Z)) -> Prop :=
| tags_no_file : forall k, fs path = inl k -> tags_result fs path None
| tags_no_flac : forall t l e, file_at fs path t l -> file_unopened t l e -> tags_result fs path None
| tags_found : forall t w rest si vc cs, file_at fs path t (w ++ rest) -> well_formed si vc w ->
    match vc with Some v => exists vendor, v = vorbis_of vendor cs | None => cs = [] end ->
    tags_result fs path (Some cs).

(** There is no file, or its reads deliver something. *)
Definition readable (fs : file_system) (path : list Z) : Prop :=
  (exists k, fs path = inl k) \/ exists t l, file_at fs path t l.
(** A file at this path is small enough for [fuel] and [turns]. *)
Definition within (fuel turns : nat) (fs : file_system) (path : list Z) : Prop :=
  forall t l, file_at fs path t l -> (length l + 1 < fuel)%nat /\ 8 * 65535 * (len l + 1) < Z.of_nat turns.

(** * Several files *)

(** What [decode_simple] prints behind the name of a file. *)
Definition remark (io_text : io_kind -> string) (o : ending) : list Z :=
  match o with
  | AtEnd => literal ": done" ++ [10]
  | OnError (Unsupported msg) => literal ": error, unsupported: " ++ literal msg ++ [10]
  | OnError (FormatError msg) => literal ": error, invalid input: " ++ literal msg ++ [10]
  | OnError (IoError k) => literal ": IO error: " ++ literal (io_text k) ++ [10]
  | OnPanic => []
  end.

(** None of these files writes the audio file [p]. *)
Definition untouched (wav_path : list Z -> list Z) (p : list Z) (files : list (list Z * wav)) : Prop :=
  forall path f, In (path, f) files -> wav_path path = p -> f = None.
(** After these files, [f] is in the audio file [p]: the last one to write it wrote [f]. *)
Definition left_behind (wav_path : list Z -> list Z) (files : list (list Z * wav)) (p : list Z) (f : wav) : Prop :=
  (exists a path b, files = a ++ (path, f) :: b /\ wav_path path = p /\ f <> None /\ untouched wav_path p b)
  \/ (f = None /\ untouched wav_path p files).

(** No program reads what it has written. *)
Definition apart (wav_path : list Z -> list Z) (args : list (list Z)) : Prop :=
  forall a b, In a args -> In b args -> wav_path a <> b.

(** A program that has done nothing yet. *)
Definition started : world := mkWorld [] (fun _ => None).

(** A run that ends in this way, has printed [s], and leaves the audio files of [files] behind. *)
Definition ran (wav_path : list Z -> list Z) (r : outcome unit * world) (ok : bool) (s : list Z)
    (files : list (list Z * wav)) : Prop :=
  (if ok then fst r = Ok tt else exists why, fst r = Panic why)
  /\ w_printed (snd r) = s /\ forall p, left_behind wav_path files p (w_audio (snd r) p).
