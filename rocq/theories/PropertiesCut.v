(** C96: files that end too early, or that are damaged from some place on.

    [file_at fs path t l]: the file at [path] has the contents [l], and then comes the end
    or an I/O error, as [t] says (SpecPrograms.v).  [sounds it pcm o]: the iterator yields the
    samples [pcm] and then stops as [o] says (SpecAnyPlay.v).  [for_good], [cut_ending],
    [begins]: SpecCut.v. *)
From Verif Require Import SpecCut ProofCut PropertiesWhole PropertiesPrograms.
From Verif Require Import SpecReader.

Section ForAllBuilds.
Context (m : build) (un : nat -> list Z).
Notation memory := (forall n, length (un n) = n).
Notation iterates fuel it := (sounds (fs_next (br_rb m) m fuel) it).

(** Any file, and a longer one: what the shorter one gives, the longer one gives first.  If
    the shorter one stops at a fault, nothing behind it matters. *)
Theorem C96_longer : memory -> forall fuel fs path path' t t' l x r it,
  file_at fs path t l -> file_at fs path' t' (l ++ x) -> (length (l ++ x) + 1 < fuel)%nat ->
  flac_open m un fuel fs path = Ok r -> fr_samples r = Ok it ->
  exists pcm o r' it' more o', iterates fuel it pcm o
    /\ flac_open m un fuel fs path' = Ok r'
    /\ fr_get_streaminfo r' = fr_get_streaminfo r /\ fr_vorbis_comment r' = fr_vorbis_comment r
    /\ fr_samples r' = Ok it' /\ iterates fuel it' (pcm ++ more) o'
    /\ (for_good o -> more = [] /\ o' = o).
Proof. exact (longer_file m un). Qed.
Theorem C96_longer_unopened : memory -> forall fuel fs path path' t t' l x e,
  file_at fs path t l -> file_at fs path' t' (l ++ x) -> (length (l ++ x) + 1 < fuel)%nat ->
  flac_open m un fuel fs path = Err e -> (forall k, e <> IoError k) ->
  flac_open m un fuel fs path' = Err e.
Proof. exact (longer_unopened m un). Qed.

(** Two files that begin alike, with [p]: the samples of the frames in [p] come from both. *)
Theorem C96_damaged : memory -> forall fuel fs path path' t t' t0 p x x' si vc frames o,
  file_at fs path t (p ++ x) -> file_at fs path' t' (p ++ x') ->
  (length (p ++ x) + 1 < fuel)%nat -> (length (p ++ x') + 1 < fuel)%nat ->
  file_any_plays m t0 p si vc frames o ->
  exists r it more o1 r' it' more' o2,
    flac_open m un fuel fs path = Ok r /\ fr_get_streaminfo r = si /\ fr_vorbis_comment r = vc /\ fr_samples r = Ok it
    /\ flac_open m un fuel fs path' = Ok r' /\ fr_get_streaminfo r' = si /\ fr_vorbis_comment r' = vc /\ fr_samples r' = Ok it'
    /\ iterates fuel it (pcm_of frames ++ more) o1
    /\ iterates fuel it' (pcm_of frames ++ more') o2.
Proof. exact (damaged_files m un). Qed.

(** A good file [l ++ x] of which only [l] is there.  If that ends within the metadata, opening
    it fails with the error of the source.  Otherwise the complete frames play, and then comes
    the error of the source; or the end, if the source just ends and no more than one byte of
    the next frame is there. *)
Theorem C96_cut : memory -> forall fuel fs path t l x si vc frames,
  file_code si vc frames (l ++ x) -> bytes_ok (l ++ x) -> x <> [] ->
  file_at fs path t l -> (length l + 1 < fuel)%nat ->
  (exists w, well_formed si vc w /\ begins l w /\ flac_open m un fuel fs path = Err (tail_error t))
  \/ (exists r it done f todo whole w part, flac_open m un fuel fs path = Ok r
      /\ fr_get_streaminfo r = si /\ fr_vorbis_comment r = vc /\ fr_samples r = Ok it
      /\ frames = done ++ f :: todo /\ l = whole ++ part /\ file_code si vc done whole
      /\ frame_code (fst f) (snd f) w /\ begins part w
      /\ iterates fuel it (pcm_of done) (cut_ending t part)).
Proof. exact (cut_file m un). Qed.
End ForAllBuilds.

(** The file of C50, of 17 and 16 samples, at one path, and cut at another. *)
Definition cut_source (n : nat) (t : tail) : file_system := fun path =>
  match path with
  | [] => inr (EvData (firstn n example_file) :: match t with TEof => [] | TErr k => [EvErr k] end)
  | _ => inr [EvData example_file]
  end.
Definition example_vc := Some (vorbis_of PropertiesMeta.example_vendor (present PropertiesMeta.example_entries)).
Example C96_example : forall n t, (1 <= n < length example_file)%nat ->
  file_at (cut_source n t) [] t (firstn n example_file)
  /\ file_at (cut_source n t) [1] TEof (firstn n example_file ++ skipn n example_file)
  /\ file_code PropertiesMeta.info example_vc ProofTimes.two_quiet (firstn n example_file ++ skipn n example_file)
  /\ bytes_ok (firstn n example_file ++ skipn n example_file) /\ skipn n example_file <> [].
Proof.
  intros n t Hn. assert (length example_file <= 2048)%nat as Hl by (vm_compute; repeat constructor).
  pose proof example_bytes as Hb. rewrite firstn_skipn. split; [|split; [|split; [exact C50_example|split; [exact Hb|]]]].
  - eexists. split; [reflexivity|]. rewrite <- (app_nil_r (firstn n example_file)) at 2. apply delivers_chunk.
    + split; [|unfold len; rewrite firstn_length; lia]. rewrite <- (firstn_skipn n example_file) in Hb. apply Forall_app in Hb. tauto.
    + destruct t; [constructor; reflexivity|apply delivers_err; reflexivity].
  - eexists. split; [reflexivity|]. rewrite <- (app_nil_r example_file) at 2. apply delivers_chunk; [|constructor; reflexivity].
    split; [exact Hb|unfold len; lia].
  - intros E. apply (f_equal (@length Z)) in E. rewrite skipn_length in E. cbn [length] in E. lia.
Qed.
(** Cut within the metadata, within the first frame, behind it, one byte later and three bytes
    later; with an I/O error behind the first frame; and the whole file. *)
Definition to_first : nat := length example_metadata + length (hd [] ProofTimes.two_bytes).
Definition cut_run (n : nat) (t : tail) (path : list Z) : outcome (list (outcome (option (result Z)))) :=
  r <~ flac_open Debug (repeat 7) 500 (cut_source n t) path ;;
  it <~ fr_samples r ;;
  Ok (fst (nexts (fs_next (br_rb Debug) Debug 500) 19 it)).
Example C96_run :
  cut_run 60 TEof [] = Err (IoError UnexpectedEof)
  /\ cut_run (length example_metadata + 9) TEof [] = Ok ([Ok (Some (RErr (IoError UnexpectedEof)))] ++ repeat (Ok None) 18)
  /\ cut_run to_first TEof [] = Ok (repeat (Ok (Some (ROk (-3)))) 17 ++ repeat (Ok None) 2)
  /\ cut_run (to_first + 1) TEof [] = Ok (repeat (Ok (Some (ROk (-3)))) 17 ++ repeat (Ok None) 2)
  /\ cut_run (to_first + 3) TEof [] = Ok (repeat (Ok (Some (ROk (-3)))) 17 ++ [Ok (Some (RErr (IoError UnexpectedEof))); Ok None])
  /\ cut_run to_first (TErr (OtherIo 5)) [] = Ok (repeat (Ok (Some (ROk (-3)))) 17 ++ [Ok (Some (RErr (IoError (OtherIo 5)))); Ok None])
  /\ cut_run to_first TEof [1] = Ok (repeat (Ok (Some (ROk (-3)))) 19).
Proof. vm_compute. repeat split. Qed.

Print Assumptions C96_longer.
Print Assumptions C96_longer_unopened.
Print Assumptions C96_damaged.
Print Assumptions C96_cut.
