(** What programs that use the crate are expected to do. *)
From Verif Require Export SpecWhole SpecFault SpecMetaFault ModelPrograms.
From Verif Require Import SpecReader.

(** * Files *)

(** The file at [path] has the contents [l]; when they are read, in pieces of any size,
    the end [t] follows. *)
Definition file_at (fs : file_system) (path : list Z) (t : tail) (l : list Z) : Prop :=
  exists script, fs path = inr script /\ delivers t script l.

(** * Where the frames of a file end *)

(** What comes after the last complete frame: nothing (up to one stray byte), a fault, or
    the beginning of a frame, at the end of which the source ends or fails. *)
Inductive stop (t : tail) : list Z -> option error -> Prop :=
| stop_end : forall l, t = TEof -> (length l <= 1)%nat -> stop t l None
| stop_fault : forall e w rest, frame_fault e w -> stop t (w ++ rest) (Some e)
| stop_source : forall l, incomplete l -> (t = TEof -> (2 <= length l)%nat) ->
    stop t l (Some (tail_error t)).

(** [l] consists of [frames], then playing stops. *)
Definition plays (t : tail) (l : list Z) (frames : list (header * list (list Z))) (o : option error) : Prop :=
  exists ws rest, l = concat ws ++ rest
    /\ Forall2 (fun f w => frame_code (fst f) (snd f) w) frames ws /\ stop t rest o.

(** The file [l] has the streaminfo [si] and these frames. *)
Definition file_plays (t : tail) (l : list Z) (si : stream_info) (vc : option vorbis_comment)
    (frames : list (header * list (list Z))) (o : option error) : Prop :=
  exists w rest, l = w ++ rest /\ well_formed si vc w /\ plays t rest frames o.

(** The file [l] cannot be opened: it starts with a fault, or it ends too early. *)
Definition file_unopened (t : tail) (l : list Z) (e : error) : Prop :=
  (exists w rest, l = w ++ rest /\ open_fault default_options e w)
  \/ (e = tail_error t /\ open_cut default_options l
      /\ forall e' w rest, l = w ++ rest -> ~ open_fault default_options e' w).

Definition outcome_of (o : option error) : outcome unit :=
  match o with None => Ok tt | Some e => Err e end.

(** The audio file for a stream. *)
Definition audio (si : stream_info) (pcm : list Z) : wav :=
  Some (mkSpec (si_channels si) (si_sample_rate si) (si_bits_per_sample si), pcm).

Definition stereo_frame (f : header * list (list Z)) : Prop := channel_count (h_assignment (fst f)) = 2.

(** How a program ends that supports stereo only and panics on errors: [bad] are the
    frames from the first one on that is not stereo. *)
Definition stereo_outcome (bad : list (header * list (list Z))) (o : option error) (r : outcome unit) : Prop :=
  match bad, o with [], None => r = Ok tt | _, _ => exists why, r = Panic why end.

(** * Containers *)

(** A packet of bytes that is shorter than [fuel]. *)
Definition packet_ok (fuel : nat) (p : list Z) : Prop :=
  bytes_ok p /\ len p < 2 ^ 63 /\ (length p < fuel)%nat.
(** Type and contents of a metadata block. *)
Definition raw_block_ok (b : Z * list Z) : Prop := 0 <= fst b <= 127 /\ bytes_ok (snd b) /\ len (snd b) < 2 ^ 32.

(** One packet with one frame; or an empty packet, without one. *)
Inductive packet_code : list (header * list (list Z)) -> list Z -> Prop :=
| packet_empty : packet_code [] []
| packet_frame : forall h chs w rest, frame_code h chs w -> packet_code [(h, chs)] (w ++ rest).

(** The packets of a stream: a first one with the number of header packets and the
    streaminfo, these header packets, then frames. *)
Definition ogg_code (si : stream_info) (frames : list (header * list (list Z))) (packets : list (list Z)) : Prop :=
  exists first headers audio_packets lead n native last w x parts,
    packets = first :: headers ++ audio_packets
    /\ first = lead ++ be_bytes 2 n ++ native ++ w ++ x
    /\ length lead = 7%nat /\ length native = 4%nat /\ n = len headers /\ n < 2 ^ 16
    /\ block_code last (MbStreamInfo si) w
    /\ Forall (fun p => exists last b w x, p = w ++ x /\ block_code last b w) headers
    /\ Forall2 packet_code parts audio_packets /\ frames = concat parts.

(** The table of frames per chunk: [n] frames from chunk [k] on, up to the next entry. *)
Fixpoint frames_in_chunk (table : list (Z * Z)) (chunk n : Z) : Z :=
  match table with
  | [] => n
  | (first, n') :: table => if first <=? chunk then frames_in_chunk table chunk n' else n
  end.
Inductive ascending : Z -> list (Z * Z) -> Prop :=
| ascending_nil : forall lo, ascending lo []
| ascending_cons : forall lo first n table, lo < first -> ascending first table ->
    ascending lo ((first, n) :: table).

(** Chunk number [i] and the following ones lie at [offsets] and have these frames. *)
Inductive chunks_code (reads : Z -> list event) (table : list (Z * Z))
    : Z -> list Z -> list (header * list (list Z)) -> Prop :=
| chunks_nil : forall i, chunks_code reads table i [] []
| chunks_cons : forall i offset offsets t frames ws rest more,
    delivers t (reads offset) (concat ws ++ rest) ->
    Forall2 (fun f w => frame_code (fst f) (snd f) w) frames ws ->
    length frames = Z.to_nat (frames_in_chunk table i 0) ->
    chunks_code reads table (i + 1) offsets more ->
    chunks_code reads table i (offset :: offsets) (frames ++ more).

(** The metadata blocks of a track: other ones, then the streaminfo. *)
Inductive track_info (si : stream_info) : list (Z * list Z) -> Prop :=
| info_here : forall ty data blocks, 0 <= ty <= 127 -> len data < 2 ^ 32 ->
    body_code ty data (MbStreamInfo si) -> track_info si ((ty, data) :: blocks)
| info_later : forall ty data b blocks, 0 <= ty <= 127 -> len data < 2 ^ 32 ->
    body_code ty data b -> not_streaminfo b -> track_info si blocks -> track_info si ((ty, data) :: blocks).

(** * Tags *)

(** The lines [path: name=value]. *)
Definition tag_lines (path : list Z) (cs : list comment) : list Z :=
  flat_map (fun c => path ++ [58; 32] ++ comment_text c ++ [10]) cs.
