(** Frames in other containers, and the fuzzers, on any input in either kind of build. *)
From Verif Require Export SpecAnyPlay.
From Verif Require Import SpecReader.

(** See [ogg_code]: the first packet, with the streaminfo and the number of header packets,
    and these header packets. *)
Definition ogg_front (si : stream_info) (front : list (list Z)) : Prop :=
  exists first headers lead n native last w x,
    front = first :: headers
    /\ first = lead ++ be_bytes 2 n ++ native ++ w ++ x
    /\ length lead = 7%nat /\ length native = 4%nat /\ n = len headers /\ n < 2 ^ 16
    /\ block_code last (MbStreamInfo si) w
    /\ Forall (fun p => exists last b w x, p = w ++ x /\ block_code last b w) headers.

(** An audio packet: nothing, or a stereo frame and perhaps other things. *)
Inductive any_packet (m : build) : list (header * list (list Z)) -> list Z -> Prop :=
| any_packet_empty : any_packet m [] []
| any_packet_frame : forall f w rest, any_frame m f w -> stereo_frame f -> any_packet m [f] (w ++ rest).

(** How a program ends that panics at the first of the things it does not understand. *)
Definition panics_at {A} (bad : list A) (r : outcome unit) : Prop :=
  match bad with [] => r = Ok tt | _ :: _ => exists why, r = Panic why end.

(** Chunk number [i] and the following ones lie at [offsets] (see [chunks_code]).  These are
    the stereo frames up to the first place where there should be one and is none;
    [complete] is whether there is no such place. *)
Inductive any_chunks (m : build) (reads : Z -> list event) (table : list (Z * Z))
    : Z -> list Z -> list (header * list (list Z)) -> bool -> Prop :=
| any_chunks_nil : forall i, any_chunks m reads table i [] [] true
| any_chunks_cons : forall i offset offsets t frames ws rest more complete,
    delivers t (reads offset) (concat ws ++ rest) ->
    Forall2 (any_frame m) frames ws -> Forall stereo_frame frames ->
    length frames = Z.to_nat (frames_in_chunk table i 0) ->
    any_chunks m reads table (i + 1) offsets more complete ->
    any_chunks m reads table i (offset :: offsets) (frames ++ more) complete
| any_chunks_bad : forall i offset offsets t frames ws rest,
    delivers t (reads offset) (concat ws ++ rest) ->
    Forall2 (any_frame m) frames ws -> Forall stereo_frame frames ->
    (length frames < Z.to_nat (frames_in_chunk table i 0))%nat ->
    (forall f w rest', rest = w ++ rest' -> any_frame m f w -> ~ stereo_frame f) ->
    any_chunks m reads table i (offset :: offsets) frames false.

(** The data is a file whose first frame makes a counter overflow, in a build that checks. *)
Definition overflows_first (m : build) (data : list Z) : Prop :=
  m = Debug /\ exists si vc w p rest, data = w ++ p ++ rest /\ well_formed si vc w /\ frame_overflow p.
