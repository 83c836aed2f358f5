(** Whole files, and what opening and decoding them involves. *)
From Verif Require Export SpecFile SpecApi SpecEncode.
From Verif Require Import SpecReader.

(** The samples of a list of frames in the order of time, the channels of each
    point in time next to each other. *)
Definition pcm_of (frames : list (header * list (list Z))) : list Z :=
  flat_map (fun f => interleave (Z.to_nat (h_size (fst f))) (snd f)) frames.

(** [l] is a file: signature and metadata blocks, then frames. *)
Definition file_code (si : stream_info) (vc : option vorbis_comment)
    (frames : list (header * list (list Z))) (l : list Z) : Prop :=
  exists w ws, well_formed si vc w
    /\ Forall2 (fun f w => frame_code (fst f) (snd f) w) frames ws
    /\ l = w ++ concat ws.

(** An iterator over the samples of an open file. *)
Definition sample_iterator {S} (r : flac_reader S) (it : flac_samples S) : Prop :=
  fr_samples r = Ok it \/ fr_into_samples r = Ok it.

(** * What a program can do with an open file *)

(** Calls: [blocks().read_next_or_eof(buffer)]; [next()] on the iterator from
    [samples()], a new one unless one is alive; dropping that iterator. *)
Inductive call := ReadBlock (buffer : vec) | NextSample | DropSamples.
Inductive reply := GotBlock (b : option block) | GotSample (x : option Z) | Dropped.

(** The reader, and the iterator that borrows it if there is one. *)
Record session (S : Type) := mkSession {
  se_reader : flac_reader S;
  se_samples : option (flac_samples S)
}.
Arguments mkSession {S}.
Arguments se_reader {S}.
Arguments se_samples {S}.

(** The reader is where the iterator left it. *)
Definition with_input {S} (r : flac_reader S) (inp : S) : flac_reader S :=
  mkFr (fr_streaminfo r) (fr_vorbis_comment r)
    (match fr_input r with Full _ => Full inp | MetadataOnly _ => MetadataOnly inp end).
Definition drop_samples {S} (s : session S) : flac_reader S :=
  match se_samples s with
  | Some it => with_input (se_reader s) (fs_frame_reader it)
  | None => se_reader s
  end.

Definition session_step {S} (rb : ReadBytes S) (m : build) (fuel : nat) (c : call)
    : M (session S) reply := fun s =>
  match c with
  | DropSamples => (Ok Dropped, mkSession (drop_samples s) None)
  | ReadBlock buffer =>
      let r := drop_samples s in
      match fr_blocks r with
      | Ok inp =>
          let (o, inp') := read_next_or_eof rb m fuel buffer inp in
          (b <~ o ;; Ok (GotBlock b), mkSession (with_input r inp') None)
      | o => (_ <~ o ;; Ok Dropped, mkSession r None)
      end
  | NextSample =>
      match (match se_samples s with Some it => Ok it | None => fr_samples (se_reader s) end) with
      | Ok it =>
          let (o, it') := fs_next rb m fuel it in
          (x <~ o ;; match x with
                     | Some (ROk v) => Ok (GotSample (Some v))
                     | Some (RErr e) => Err e
                     | None => Ok (GotSample None)
                     end,
           mkSession (se_reader s) (Some it'))
      | o => (_ <~ o ;; Ok Dropped, s)
      end
  end.

(** Two results of opening a file show the same: both failed in the same way, or the
    same streaminfo and comments are there and [same] holds of the readers. *)
Definition discard {A} (o : outcome A) : outcome unit := _ <~ o ;; Ok tt.
Definition opened_alike {S1 S2} (same : flac_reader S1 -> flac_reader S2 -> Prop)
    (o1 : outcome (flac_reader S1)) (o2 : outcome (flac_reader S2)) : Prop :=
  match o1, o2 with
  | Ok r1, Ok r2 => fr_get_streaminfo r1 = fr_get_streaminfo r2
      /\ fr_vorbis_comment r1 = fr_vorbis_comment r2 /\ same r1 r2
  | _, _ => discard o1 = discard o2
  end.

(** * Limits *)

(** No run of [n] zero bytes. *)
Definition no_zero_bytes (n : Z) (l : list Z) : Prop :=
  forall a b, l <> a ++ repeat 0 (Z.to_nat n) ++ b.
