(** Properties of the errors that reading a frame reports.

    [stream rb t D] (SpecReader.v): [rb] reads the bytes [l] in state [st] if [D st l]
    and then meets the end or an error [t] of the source.  [frame_fault e w]
    (SpecFault.v): in [w] a frame starts and goes wrong in the last byte or bytes of
    [w], for the reason that the error [e] states. *)
From Verif Require Import SpecFault ProofFault3.
From Verif Require Import SpecReader.

(** * C62: errors tell what is wrong, and nothing behind the fault is lost *)

(** Every fault is reported, with the message for it, and the reader stands behind the
    byte in which the faulty field ends. *)
Theorem C62_reported : forall {S} (rb : ReadBytes S) t D, stream rb t D -> forall m fuel buffer st e w rest,
  frame_fault e w -> D st (w ++ rest) -> (length (w ++ rest) < fuel)%nat ->
  exists st', read_next_or_eof rb m fuel buffer st = (Err e, st') /\ D st' rest.
Proof. exact (@next_reports). Qed.

(** No other errors are reported, except errors of the source: if the error is not one
    of these, then the fault that it names is there. *)
Theorem C62_explained : forall {S} (rb : ReadBytes S) t D, stream rb t D -> forall m fuel buffer st l e st',
  m = Debug \/ no_zero_run (2 ^ 32 - 1) (bytes_bits l) ->
  D st l -> (length l < fuel)%nat -> (forall k, e <> IoError k) ->
  read_next_or_eof rb m fuel buffer st = (Err e, st') ->
  exists w rest, l = w ++ rest /\ frame_fault e w /\ D st' rest.
Proof. exact (@next_explained). Qed.

(** All results of a call: a frame, a fault, the end, or the error of a source that
    breaks off in the middle ([incomplete]: no frame and no fault starts here). *)
Theorem C62_cases : forall {S} (rb : ReadBytes S) t D, stream rb t D -> forall m fuel buffer st l,
  no_zero_run (2 ^ 32 - 1) (bytes_bits l) -> D st l -> (length l < fuel)%nat -> (1 < fuel)%nat ->
  let r := read_next_or_eof rb m fuel buffer st in
  (exists h chs w rest b, l = w ++ rest /\ frame_code h chs w
     /\ fst r = Ok (Some b) /\ block_shows b h chs /\ D (snd r) rest)
  \/ (exists e w rest, l = w ++ rest /\ frame_fault e w /\ fst r = Err e /\ D (snd r) rest)
  \/ (t = TEof /\ (length l <= 1)%nat /\ fst r = Ok None /\ D (snd r) [])
  \/ (incomplete l /\ fst r = Err (tail_error t)).
Proof. exact (@next_cases). Qed.

(** The cases exclude each other, and the fault is unique. *)
Theorem C62_one_fault : forall e w r e' w' r',
  frame_fault e w -> frame_fault e' w' -> bytes_ok r -> bytes_ok r' -> w ++ r = w' ++ r' -> e = e' /\ w = w'.
Proof. exact fault_unique. Qed.
Theorem C62_fault_or_frame : forall e w r h chs w' r',
  frame_fault e w -> frame_code h chs w' -> bytes_ok r -> bytes_ok r' -> w ++ r <> w' ++ r'.
Proof. exact fault_or_frame. Qed.

(** * Examples: the hypotheses are met *)

(** A block of 16 samples whose residual has a reserved coding method; one whose
    residual is to be divided in 32 parts. *)
Lemma tiny_residual e b : 0 <= b < 256 ->
  (exists bits pad, residual_fault 16 0 e bits /\ bytes_bits [b] = bits ++ pad /\ (length pad < 8)%nat) ->
  frame_fault e ((tiny_front ++ [246]) ++ [16; b]).
Proof.
  intros Hb (bits & pad & Hr & Eb & Hp).
  apply (fault_subframe tiny_header _ 8 e ((false :: word 6 (coding_code (Fixed 0)) ++ wasted_field 0 ++ words 8 [] ++ bits)) pad).
  - exact tiny_header_ok.
  - reflexivity.
  - apply fault_here. apply fault_body; [lia|lia|].
    apply fault_fixed_residual; [lia|reflexivity|cbn; lia|constructor|exact Hr].
  - repeat constructor; unfold is_byte; lia.
  - change [16; b] with ([16] ++ [b]). rewrite bytes_bits_app, Eb. reflexivity.
  - exact Hp.
Qed.
Example C62_fault_example :
  frame_fault (FormatError "invalid residual, encountered reserved value") ((tiny_front ++ [246]) ++ [16; 128])
  /\ frame_fault (FormatError "invalid partition order") ((tiny_front ++ [246]) ++ [16; 20])
  /\ frame_fault (FormatError "frame CRC mismatch") ((tiny_front ++ [246]) ++ [0; 253] ++ [124; 162])
  /\ frame_fault (FormatError "frame sync code missing") [1; 2]
  /\ frame_fault (FormatError "frame header CRC mismatch") (tiny_front ++ [247]).
Proof.
  split; [|split; [|split; [|split]]].
  - apply tiny_residual; [lia|]. exists (word 2 2), (repeat false 6). split; [constructor; lia|]. split; [reflexivity|cbn; lia].
  - apply tiny_residual; [lia|]. exists (word 2 0 ++ word 4 5), (repeat false 2).
    split; [apply fault_partition_order; [auto|lia|cbn; lia]|]. split; [reflexivity|cbn; lia].
  - change ((tiny_front ++ [246]) ++ [0; 253] ++ [124; 162]) with ((tiny_front ++ [246; 0; 253]) ++ [124; 162]).
    apply (fault_of_frame tiny_header [repeat (-3) 16] _ 124 163); [exact tiny_frame_ok|lia..|discriminate].
  - apply fault_header, fault_sync; [lia..|]. vm_compute. discriminate.
  - apply fault_header. destruct tiny_header_ok as (f & c & _ & Hc & E). apply app_inj_tail in E as [<- <-].
    eapply (fault_header_crc tiny_header); [exact tiny_front_ok|exact Hc|lia|lia].
Qed.
(** The reader, on one of them with more bytes behind. *)
Example C62_reported_example :
  match read_next_or_eof (cu_rb Release) Release 100 (mkVec [] 0)
          (mkCursor (((tiny_front ++ [246]) ++ [16; 128]) ++ tiny_frame) 0) with
  | (Err (FormatError w), st) =>
      w = "invalid residual, encountered reserved value"%string /\ cu_pos st = 9
      /\ exists b st', read_next_or_eof (cu_rb Release) Release 100 (mkVec [] 0) st = (Ok (Some b), st')
  | _ => False
  end.
Proof. vm_compute. split; [reflexivity|]. split; [reflexivity|]. eexists. eexists. reflexivity. Qed.
(** A frame without its last byte. *)
Example C62_cases_example :
  fst (read_next_or_eof (cu_rb Debug) Debug 100 (mkVec [] 0) (mkCursor (removelast tiny_frame) 0)) = Err (tail_error TEof)
  /\ no_zero_run (2 ^ 32 - 1) (bytes_bits (removelast tiny_frame)).
Proof.
  split; [vm_compute; reflexivity|].
  intros a b E. apply (f_equal (@length bool)) in E. rewrite !app_length, repeat_length in E.
  change (length (bytes_bits (removelast tiny_frame))) with 80%nat in E. lia.
Qed.

Print Assumptions C62_reported.
Print Assumptions C62_explained.
Print Assumptions C62_cases.
Print Assumptions C62_one_fault.
Print Assumptions C62_fault_or_frame.
