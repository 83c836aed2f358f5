(** Any string of bytes as the configuration [fuzzing] reads it: SpecAnyPlay.v, with any
    bytes in the places of checksums. *)
From Verif Require Export SpecAnyContainers SpecFuzzing.
From Verif Require Import SpecReader.

(** See [loose_frame]. *)
Definition loose_unchecked_frame (h : header) (chs : list (list Z)) (w : list Z) : Prop :=
  exists hw bps bits pad body a b,
    unchecked_header h hw
    /\ h_width h = Some bps
    /\ loose_channels bps (Z.to_nat (h_size h)) (h_assignment h) bits chs
    /\ byte_string body /\ bytes_bits body = bits ++ pad /\ (length pad < 8)%nat
    /\ 0 <= a < 256 /\ 0 <= b < 256
    /\ w = hw ++ body ++ [a; b].

(** See [frame_fault] and [loose_fault]: what is wrong is not a checksum. *)
Inductive unchecked_fault : error -> list Z -> Prop :=
| unchecked_fault_header : forall e w, header_fault e w -> ~ checksum_error e -> unchecked_fault e w
| unchecked_fault_width : forall h hw, unchecked_header h hw -> h_width h = None ->
    unchecked_fault (Unsupported "header without bits per sample info") hw
| unchecked_fault_subframe : forall h hw bps e bits pad body, unchecked_header h hw -> h_width h = Some bps ->
    channels_fault (Z.to_nat (h_size h)) (subframe_widths bps (h_assignment h)) e bits ->
    byte_string body -> bytes_bits body = bits ++ pad -> (length pad < 8)%nat ->
    unchecked_fault e (hw ++ body).
Inductive loose_unchecked_fault : error -> list Z -> Prop :=
| loose_unchecked_fault_header : forall e w, header_fault e w -> ~ checksum_error e -> loose_unchecked_fault e w
| loose_unchecked_fault_width : forall h hw, unchecked_header h hw -> h_width h = None ->
    loose_unchecked_fault (Unsupported "header without bits per sample info") hw
| loose_unchecked_fault_subframe : forall h hw bps e bits pad body, unchecked_header h hw -> h_width h = Some bps ->
    loose_channels_fault (Z.to_nat (h_size h)) (subframe_widths bps (h_assignment h)) e bits ->
    byte_string body -> bytes_bits body = bits ++ pad -> (length pad < 8)%nat ->
    loose_unchecked_fault e (hw ++ body).

(** See [frame_overflow]. *)
Definition unchecked_overflow (w : list Z) : Prop :=
  exists h hw bps bits pad body,
    unchecked_header h hw /\ h_width h = Some bps
    /\ channels_overflow (Z.to_nat (h_size h)) (subframe_widths bps (h_assignment h)) bits
    /\ byte_string body /\ bytes_bits body = bits ++ pad /\ (length pad < 8)%nat
    /\ w = hw ++ body.

(** In either kind of build: frames, faults, and what makes a counter overflow. *)
Definition unchecked_any_frame (m : build) (f : header * list (list Z)) (w : list Z) : Prop :=
  match m with
  | Debug => unchecked_frame (fst f) (snd f) w
  | Release => loose_unchecked_frame (fst f) (snd f) w
  end.
Definition unchecked_any_fault (m : build) (e : error) (w : list Z) : Prop :=
  match m with Debug => unchecked_fault e w | Release => loose_unchecked_fault e w end.
Definition unchecked_any_overflow (m : build) (w : list Z) : Prop :=
  m = Debug /\ unchecked_overflow w.
(** Bytes that start with none of these. *)
Definition unchecked_incomplete (m : build) (l : list Z) : Prop :=
  forall w rest, l = w ++ rest ->
    (forall f, ~ unchecked_any_frame m f w)
    /\ (forall e, ~ unchecked_any_fault m e w)
    /\ ~ unchecked_any_overflow m w.

(** See [any_stop]. *)
Inductive unchecked_stop (t : tail) (m : build) : list Z -> ending -> Prop :=
| unchecked_at_end : forall l, t = TEof -> (length l <= 1)%nat -> unchecked_stop t m l AtEnd
| unchecked_on_fault : forall e w rest, unchecked_any_fault m e w ->
    unchecked_stop t m (w ++ rest) (OnError e)
| unchecked_on_overflow : forall w rest, unchecked_any_overflow m w ->
    unchecked_stop t m (w ++ rest) OnPanic
| unchecked_on_source : forall l, unchecked_incomplete m l -> (t = TEof -> (2 <= length l)%nat) ->
    unchecked_stop t m l (OnError (tail_error t)).

(** See [any_plays] and [file_any_plays]. *)
Definition unchecked_plays (m : build) (t : tail) (l : list Z) (frames : list (header * list (list Z))) (o : ending) : Prop :=
  exists ws rest, l = concat ws ++ rest /\ Forall2 (unchecked_any_frame m) frames ws /\ unchecked_stop t m rest o.
Definition file_unchecked_plays (m : build) (t : tail) (l : list Z) (si : stream_info) (vc : option vorbis_comment)
    (frames : list (header * list (list Z))) (o : ending) : Prop :=
  exists w rest, l = w ++ rest /\ well_formed si vc w /\ unchecked_plays m t rest frames o.

(** See [overflows_first]. *)
Definition unchecked_overflows_first (m : build) (data : list Z) : Prop :=
  exists si vc w p rest, data = w ++ p ++ rest /\ well_formed si vc w /\ unchecked_any_overflow m p.
