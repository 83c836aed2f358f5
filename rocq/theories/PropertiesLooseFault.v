(** All results of [FrameReader::read_next_or_eof], on any input at all.

    [rb], [t], [D], [fuel] as in PropertiesFrame.v. *)
From Verif Require Import SpecLooseFault ProofFault3 ProofLooseFault PropertiesFault.
From Verif Require Import SpecReader.

(** * C83: every input has one of these results *)
Section ForAllReaders.
  Context {S : Type} (rb : ReadBytes S) (t : tail) (D : S -> list Z -> Prop).

(** Debug builds: a frame, a fault (SpecFault.v), the end, a panic because of a number in unary
    that has too many zeros (C82), or the error of a source that breaks off in the middle. *)
Theorem C83_debug : stream rb t D -> forall fuel buffer st l,
  D st l -> (length l < fuel)%nat -> (1 < fuel)%nat ->
  let r := read_next_or_eof rb Debug fuel buffer st in
  (exists h chs w rest b, l = w ++ rest /\ frame_code h chs w
     /\ fst r = Ok (Some b) /\ block_shows b h chs /\ D (snd r) rest)
  \/ (exists e w rest, l = w ++ rest /\ frame_fault e w /\ fst r = Err e /\ D (snd r) rest)
  \/ (t = TEof /\ (length l <= 1)%nat /\ fst r = Ok None /\ D (snd r) [])
  \/ (exists p rest why, l = p ++ rest /\ frame_overflow p /\ fst r = Panic why)
  \/ (incomplete l /\ (forall p rest, l = p ++ rest -> ~ frame_overflow p) /\ fst r = Err (tail_error t)).
Proof. exact (debug_cases rb t D). Qed.

(** Release builds: a frame or a fault as a 32-bit counter that wraps sees them (SpecLoose.v,
    SpecLooseFault.v), the end, or the error of the source. *)
Theorem C83_release : stream rb t D -> forall fuel buffer st l,
  D st l -> (length l < fuel)%nat -> (1 < fuel)%nat ->
  let r := read_next_or_eof rb Release fuel buffer st in
  (exists h chs w rest b, l = w ++ rest /\ loose_frame h chs w
     /\ fst r = Ok (Some b) /\ block_shows b h chs /\ D (snd r) rest)
  \/ (exists e w rest, l = w ++ rest /\ loose_fault e w /\ fst r = Err e /\ D (snd r) rest)
  \/ (t = TEof /\ (length l <= 1)%nat /\ fst r = Ok None /\ D (snd r) [])
  \/ (loose_incomplete l /\ fst r = Err (tail_error t)).
Proof. exact (release_cases rb t D). Qed.

(** C62 in release builds without its proviso: each of these faults is reported, ... *)
Theorem C83_reported : stream rb t D -> forall fuel buffer st e w rest,
  loose_fault e w -> D st (w ++ rest) -> (length (w ++ rest) < fuel)%nat ->
  exists st', read_next_or_eof rb Release fuel buffer st = (Err e, st') /\ D st' rest.
Proof. exact (loose_reported rb t D). Qed.
(** ... and errors that do not come from the source are such faults. *)
Theorem C83_explained : stream rb t D -> forall fuel buffer st l e st',
  D st l -> (length l < fuel)%nat -> (forall k, e <> IoError k) ->
  read_next_or_eof rb Release fuel buffer st = (Err e, st') ->
  exists w rest, l = w ++ rest /\ loose_fault e w /\ D st' rest.
Proof. exact (loose_explained rb t D). Qed.
End ForAllReaders.

(** The faults of SpecFault.v are among them, and all others have 2^32 - 1 zeros in a row. *)
Theorem C83_faults : forall e w, frame_fault e w -> loose_fault e w.
Proof. exact fault_is_loose. Qed.
Theorem C83_others : forall e w, loose_fault e w ->
  frame_fault e w \/ ~ no_zero_run (2 ^ 32 - 1) (bytes_bits w).
Proof. exact loose_fault_cases. Qed.

(** The cases exclude each other. *)
Theorem C83_one_fault : forall e w r e' w' r',
  loose_fault e w -> loose_fault e' w' -> bytes_ok r -> bytes_ok r' -> w ++ r = w' ++ r' -> e = e' /\ w = w'.
Proof. exact loose_fault_unique. Qed.
Theorem C83_fault_or_frame : forall e w r h chs w' r',
  loose_fault e w -> loose_frame h chs w' -> bytes_ok r -> bytes_ok r' -> w ++ r <> w' ++ r'.
Proof. exact loose_fault_or_frame. Qed.
Theorem C83_overflow_or_frame : forall p r h chs w r',
  frame_overflow p -> frame_code h chs w -> bytes_ok r -> bytes_ok r' -> p ++ r <> w ++ r'.
Proof. exact overflow_no_frame. Qed.
Theorem C83_overflow_or_fault : forall p r e w r',
  frame_overflow p -> frame_fault e w -> bytes_ok r -> bytes_ok r' -> p ++ r <> w ++ r'.
Proof. exact overflow_no_fault. Qed.

(** A residual with a reserved coding method, and a wrong checksum. *)
Example C83_example :
  loose_fault (FormatError "invalid residual, encountered reserved value") ((tiny_front ++ [246]) ++ [16; 128])
  /\ loose_fault (FormatError "frame CRC mismatch") ((tiny_front ++ [246]) ++ [0; 253] ++ [124; 162]).
Proof. split; apply C83_faults; apply C62_fault_example. Qed.

Print Assumptions C83_debug.
Print Assumptions C83_release.
Print Assumptions C83_reported.
Print Assumptions C83_explained.
Print Assumptions C83_faults.
Print Assumptions C83_others.
Print Assumptions C83_one_fault.
Print Assumptions C83_fault_or_frame.
Print Assumptions C83_overflow_or_frame.
Print Assumptions C83_overflow_or_fault.
