(** What the comparisons of the tests are expected to find out. *)
From Verif Require Export SpecPrograms ModelTests.
From Verif Require Import SpecReader.

(** [first] are the frames at the start of [frames] that have [samples] samples per channel
    or more; no more frames than needed. *)
Inductive reaches : Z -> list (header * list (list Z)) -> list (header * list (list Z)) -> Prop :=
| reaches_none : forall samples frames, samples <= 0 -> reaches samples frames []
| reaches_frame : forall samples f frames first, 0 < samples ->
    reaches (samples - h_size (fst f)) frames first -> reaches samples (f :: frames) (f :: first).

(** The samples of the first [n] channels. *)
Definition pcm_channels (n : Z) (frames : list (header * list (list Z))) : list Z :=
  flat_map (fun f => interleave (Z.to_nat (h_size (fst f))) (firstn (Z.to_nat n) (snd f))) frames.

(** [refs] agrees with the file: the frames that cover the number of samples in the
    streaminfo are there, have at least as many channels, and start [refs]. *)
Definition agrees (si : stream_info) (frames : list (header * list (list Z))) (refs : list Z) : Prop :=
  exists samples first more, si_samples si = Some samples /\ reaches samples frames first
    /\ Forall (fun f => si_channels si <= channel_count (h_assignment (fst f))) first
    /\ refs = pcm_channels (si_channels si) first ++ more.

(** The same streaminfo, but that unknown and 0 are not told apart. *)
Definition same_streaminfo (a b : stream_info) : Prop :=
  si_min_block_size a = si_min_block_size b /\ si_max_block_size a = si_max_block_size b
  /\ known (si_min_frame_size a) = known (si_min_frame_size b)
  /\ known (si_max_frame_size a) = known (si_max_frame_size b)
  /\ si_sample_rate a = si_sample_rate b /\ si_channels a = si_channels b
  /\ si_bits_per_sample a = si_bits_per_sample b /\ known (si_samples a) = known (si_samples b)
  /\ si_md5sum a = si_md5sum b.
