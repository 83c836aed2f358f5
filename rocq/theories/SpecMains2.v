(** What the examples for other containers do with a list of files, and what the programs
    that measure time print. *)
From Verif Require Export SpecMains SpecAnyContainers SpecBench ModelMains2.
From Verif Require Import SpecReader.

(** * Containers *)

(** Whether [decode_ogg] accepts a file, and what it writes. *)
Inductive ogg_result (m : build) (files : ogg_files) (path : list Z) : bool -> wav -> Prop :=
| ogg_no_file : forall k, files path = inl k -> ogg_result m files path false None
| ogg_frontless : forall packets broken, files path = inr (packets, broken) ->
    (forall si front rest, packets = front ++ rest -> ~ ogg_front si front) -> ogg_result m files path false None
| ogg_played : forall si front parts good, files path = inr (front ++ good, false) ->
    ogg_front si front -> Forall2 (any_packet m) parts good ->
    ogg_result m files path true (audio si (pcm_of (concat parts)))
| ogg_broken : forall si front parts good bad broken, files path = inr (front ++ good ++ bad, broken) ->
    ogg_front si front -> Forall2 (any_packet m) parts good ->
    match bad with
    | [] => broken = true
    | p :: _ => forall part, ~ any_packet m part p
    end -> ogg_result m files path false (audio si (pcm_of (concat parts))).
(** The packets of the file at this path are small enough for [fuel]. *)
Definition ogg_within (fuel : nat) (files : ogg_files) (path : list Z) : Prop :=
  forall packets broken, files path = inr (packets, broken) -> Forall (packet_ok fuel) packets.

(** [t] is the first FLAC track. *)
Definition first_flac (t : track) (tracks : list track) : Prop :=
  exists before after, tracks = before ++ t :: after /\ t_flac t = true /\ Forall (fun t => t_flac t = false) before.
Definition track_streaminfo (t : track) (si : stream_info) : Prop :=
  exists blocks, t_blocks t = Some (Some blocks) /\ track_info si blocks.
(** Whether [decode_mp4] accepts a file, and what it writes. *)
Inductive mp4_result (m : build) (files : mp4_files) (path : list Z) : bool -> wav -> Prop :=
| mp4_no_file : forall k, files path = inl k -> mp4_result m files path false None
| mp4_no_mp4 : files path = inr None -> mp4_result m files path false None
| mp4_no_flac : forall tracks reads, files path = inr (Some (tracks, reads)) ->
    Forall (fun t => t_flac t = false) tracks -> mp4_result m files path true None
| mp4_no_streaminfo : forall tracks reads t, files path = inr (Some (tracks, reads)) -> first_flac t tracks ->
    (forall si, ~ track_streaminfo t si) -> mp4_result m files path false None
| mp4_no_chunks : forall tracks reads t si, files path = inr (Some (tracks, reads)) -> first_flac t tracks ->
    track_streaminfo t si -> t_offsets t = None \/ t_table t = None ->
    mp4_result m files path false (audio si [])
| mp4_played : forall tracks reads t si offsets table frames complete,
    files path = inr (Some (tracks, reads)) -> first_flac t tracks -> track_streaminfo t si ->
    t_offsets t = Some offsets -> t_table t = Some table -> any_chunks m reads table 1 offsets frames complete ->
    mp4_result m files path complete (audio si (pcm_of frames)).
(** The tracks of the file at this path are like those of a file, with their chunks in
    order, and small enough for [fuel]. *)
Definition mp4_within (fuel : nat) (files : mp4_files) (path : list Z) : Prop :=
  forall tracks reads t, files path = inr (Some (tracks, reads)) -> In t tracks ->
  (forall blocks, t_blocks t = Some (Some blocks) -> Forall raw_block_ok blocks)
  /\ (forall table, t_table t = Some table -> ascending 0 table)
  /\ forall offsets, t_offsets t = Some offsets -> len offsets < 2 ^ 32
     /\ forall offset, In offset offsets -> (exists t l, delivers t (reads offset) l)
          /\ forall t l, delivers t (reads offset) l -> (length l < fuel)%nat.

(** * Measuring *)

(** A file with the metadata [w] in which [bench_metadata] finds everything that it looks for. *)
Definition tagged (fs : file_system) (fuel : nat) (path w rest : list Z) : Prop :=
  exists t si vc cs, file_at fs path t (w ++ rest) /\ (length (w ++ rest) < fuel)%nat
    /\ well_formed si vc w /\ has_comments vc cs /\ len (w ++ rest) < 2 ^ 60 /\ Forall (has_name cs) metadata_names.
(** A file that it does not like. *)
Definition untagged (fs : file_system) (fuel : nat) (path : list Z) : Prop :=
  (exists k, fs path = inl k)
  \/ exists t l, file_at fs path t l /\ (length l < fuel)%nat
       /\ forall w rest si vc cs, l = w ++ rest -> well_formed si vc w -> has_comments vc cs ->
            ~ Forall (has_name cs) metadata_names.
(** The files among what was found in a directory: at most 1024 things are looked at. *)
Definition flac_files (walk : list (list Z * bool)) : list (list Z) :=
  map fst (filter snd (firstn 1024 walk)).
(** A clock that goes forward. *)
Definition forward (clock : nat -> Z) : Prop := forall i j, (i < j)%nat -> clock i < clock j.
(** The time for each of [n] files: the clock is looked at before and after. *)
Definition durations (clock : nat -> Z) (n : nat) : list Z :=
  map (fun i => clock (2 * i + 1)%nat - clock (2 * i)%nat) (seq 0 n).
(** A file that [bench_decode] can measure: complete, without faults, not empty, and with
    the number of its samples in the streaminfo. *)
Definition measurable (t : tail) (data : list Z) (si : stream_info) (n : Z) (metadata : list Z)
    (frames : list (header * list (list Z))) : Prop :=
  t = TEof /\ (exists vc rest, data = metadata ++ rest /\ well_formed si vc metadata /\ plays TEof rest frames None)
  /\ si_samples si = Some n /\ frames <> [].
(** The percentiles of these quotients. *)
Definition are_percentiles (times : list (Z * Z)) (p : (Z * Z) * (Z * Z) * (Z * Z)) : Prop :=
  let '(p10, p50, p90) := p in
  has_rank (10 * len times / 100) times p10 /\ has_rank (50 * len times / 100) times p50
  /\ has_rank (90 * len times / 100) times p90.
