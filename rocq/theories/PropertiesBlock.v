(** Properties of blocks and of the iterators over their samples: [Block] and
    [StereoSamples] in src/frame.rs, [FlacSamples] in src/lib.rs.

    [rb], [t], [D] as in PropertiesHeader.v, [fuel] as in PropertiesFrame.v.
    [block_holds b chs] (SpecApi.v): [b] has the channels [chs], all of the same
    length, 1 to 8 channels of 1 to 65535 samples. *)
From Verif Require Import SpecOps SpecFlac SpecFrame SpecApi SpecEncode SpecTimes ProofTimes.
From Verif Require Import SpecReader.

Section ForAllReaders.
  Context {S : Type} (rb : ReadBytes S) (t : tail) (D : S -> list Z -> Prop).

(** * C35: block accessors agree with the decoded channels *)

(** Every returned block holds some channels ([C26_decoded], [C26_round_trip]: those
    that were encoded), ... *)
Theorem C35_holds : stream rb t D -> forall m fuel buffer st l b st',
  D st l -> (length l < fuel)%nat ->
  read_next_or_eof rb m fuel buffer st = (Ok (Some b), st') -> exists chs, block_holds b chs.
Proof. exact (fun HS m fuel => next_holds rb t D HS m fuel). Qed.

(** ... those of the frame that was decoded. *)
Theorem C35_decoded : stream rb t D -> forall m fuel buffer st h chs w rest b st',
  frame_code h chs w -> D st (w ++ rest) -> (length (w ++ rest) < fuel)%nat ->
  read_next_or_eof rb m fuel buffer st = (Ok (Some b), st') -> block_holds b chs.
Proof. exact (decoded_holds rb t D). Qed.

(** * C37: block times are the true sample positions *)

(** Each block has the time of its own header ([header_time]: the coded number, in
    fixed-blocksize streams times the size; integers, without wrapping). *)
Theorem C37_own : stream rb t D -> forall m fuel frames ws,
  Forall2 (fun f w => frame_code (fst f) (snd f) w) frames ws ->
  forall buffers rest st, length buffers = length frames -> D st (concat ws ++ rest) ->
  (length (concat ws ++ rest) < fuel)%nat ->
  Forall2 has_time (fst (history_all (read_next_or_eof rb m fuel) buffers st))
    (map header_time (map fst frames)).
Proof. exact (own_times rb t D). Qed.

Theorem C37_variable : stream rb t D -> forall m fuel frames ws,
  Forall2 (fun f w => frame_code (fst f) (snd f) w) frames ws ->
  numbered_by_sample (map fst frames) ->
  forall buffers rest st, length buffers = length frames -> D st (concat ws ++ rest) ->
  (length (concat ws ++ rest) < fuel)%nat ->
  Forall2 has_time (fst (history_all (read_next_or_eof rb m fuel) buffers st))
    (positions 0 (map h_size (map fst frames))).
Proof. exact (times_by_sample rb t D). Qed.

(** Missing: a last block that is shorter than the others (see [C37_refuted]). *)
Theorem C37_fixed_partial : stream rb t D -> forall m fuel frames ws,
  Forall2 (fun f w => frame_code (fst f) (snd f) w) frames ws ->
  numbered_by_frame (map fst frames) -> same_sizes (map fst frames) ->
  forall buffers rest st, length buffers = length frames -> D st (concat ws ++ rest) ->
  (length (concat ws ++ rest) < fuel)%nat ->
  Forall2 has_time (fst (history_all (read_next_or_eof rb m fuel) buffers st))
    (positions 0 (map h_size (map fst frames))).
Proof. exact (times_by_frame rb t D). Qed.

(** * C38: samples() interleaves the blocks *)

(** The loop over [blocks()] always comes to an end. *)
Theorem C38_blocks : stream rb t D -> forall m fuel buffer s l,
  D s l -> (length l < fuel)%nat ->
  exists bs last s', blocks_read rb m fuel buffer s bs last s'.
Proof. exact (fun HS m fuel buffer s l => blocks_exist rb t D HS m fuel (length l) buffer s l (le_n _)). Qed.

(** [r] is an opened reader.  If the loop over [blocks()] gives the blocks [bs] and
    the end, [samples()] gives the samples of [bs] in the order of time, then
    [None] for ever. *)
Theorem C38_samples : stream rb t D -> forall m fuel (r : flac_reader S) s it l bs s',
  fr_blocks r = Ok s -> fr_samples r = Ok it \/ fr_into_samples r = Ok it ->
  D s l -> (length l < fuel)%nat -> (1 < fuel)%nat ->
  blocks_read rb m fuel (mkVec [] 0) s bs (Ok None) s' ->
  exists ls, Forall2 block_interleaved bs ls
    /\ yields (fs_next rb m fuel) it (map ROk (concat ls)).
Proof. exact (fr_samples_end rb t D). Qed.

(** * C39: samples() stops after an error *)

(** After the samples of all blocks the error, once, then [None] for ever; and after
    the error the reader stays in the state it was left in. *)
Theorem C39_samples : stream rb t D -> forall m fuel (r : flac_reader S) s it l bs e s',
  fr_blocks r = Ok s -> fr_samples r = Ok it \/ fr_into_samples r = Ok it ->
  D s l -> (length l < fuel)%nat -> (1 < fuel)%nat ->
  blocks_read rb m fuel (mkVec [] 0) s bs (Err e) s' ->
  exists ls, Forall2 block_interleaved bs ls
    /\ yields (fs_next rb m fuel) it (map ROk (concat ls) ++ [RErr e])
    /\ forall n, (length (concat ls) < n)%nat ->
       fs_frame_reader (snd (nexts (fs_next rb m fuel) n it)) = s'.
Proof. exact (fr_samples_error rb t D). Qed.
End ForAllReaders.

(** For any reader, and whatever state the iterator is in. *)
Theorem C39_any : forall S (rb : ReadBytes S) m fuel st e st',
  fs_next rb m fuel st = (Ok (Some (RErr e)), st') ->
  forall n, nexts (fs_next rb m fuel) n st' = (repeat (Ok None) n, st').
Proof. exact (fun S rb m fuel st e st' H n => failed_forever rb m fuel n st' (step_error rb m fuel st e st' H)). Qed.

(** * C35, continued *)

Theorem C35_len : forall b chs, block_holds b chs ->
  forall m, block_len m b = Ok (block_duration b * block_channels b).
Proof. exact holds_len. Qed.

Theorem C35_channel : forall b chs, block_holds b chs -> forall k c,
  nth_error chs k = Some c -> block_channel b (Z.of_nat k) = Ok c.
Proof. exact holds_channel. Qed.

Theorem C35_no_channel : forall b chs, block_holds b chs -> forall k,
  block_channels b <= k -> exists w, block_channel b k = Panic w.
Proof. exact holds_no_channel. Qed.

Theorem C35_sample : forall b chs, block_holds b chs -> forall k c i x,
  nth_error chs k = Some c -> nth_error c i = Some x ->
  block_sample b (Z.of_nat k) (Z.of_nat i) = Ok x.
Proof. exact holds_sample. Qed.

(** [sample] panics exactly if the flat index is out of the buffer: an index past
    the end of a channel that is not the last one is not detected. *)
Theorem C35_no_sample : forall b chs, block_holds b chs -> forall k i, 0 <= k -> 0 <= i ->
  (exists x, block_sample b k i = Ok x) /\ k * block_duration b + i < block_duration b * block_channels b
  \/ (exists w, block_sample b k i = Panic w)
     /\ block_duration b * block_channels b <= k * block_duration b + i.
Proof. exact holds_sample_any. Qed.

(** The channels are determined by the block. *)
Theorem C35_unique : forall b chs chs', block_holds b chs -> block_holds b chs' -> chs = chs'.
Proof. exact channels_unique. Qed.

(** * C36: stereo_samples yields the pairs in order *)

Theorem C36_pairs : forall b chs, block_holds b chs -> forall c0 c1, chs = [c0; c1] ->
  exists st, block_stereo_samples b = Ok st /\ forall m, yields (stereo_next m) st (combine c0 c1).
Proof. exact holds_stereo. Qed.

Theorem C36_other : forall b, block_channels b <> 2 -> exists w, block_stereo_samples b = Panic w.
Proof. exact no_stereo. Qed.

(** * What does not hold *)

(** C37 for fixed-blocksize streams in general. *)
Definition fixed_times_are_positions : Prop := forall m fuel frames ws buffers,
  Forall2 (fun f w => frame_code (fst f) (snd f) w) frames ws ->
  numbered_by_frame (map fst frames) -> length buffers = length frames ->
  (length (concat ws) < fuel)%nat ->
  Forall2 has_time (fst (history_all (read_next_or_eof (cu_rb m) m fuel) buffers (mkCursor (concat ws) 0)))
    (positions 0 (map h_size (map fst frames))).

(** A block of 17 samples, then one of 16: its time is given as 16 instead of 17. *)
Theorem C37_refuted : ~ fixed_times_are_positions.
Proof. exact short_last_block. Qed.

(** * Concrete cases *)

(** A block as returned by the decoder: two channels of four samples. *)
Definition example_block (b : block) : Prop :=
  fst (read_next_or_eof (cu_rb Debug) Debug 100 (mkVec [7; 7] 2)
         (mkCursor (encode_frame (mkInfo true 1000 (Some 48000) MidSide 16 (mkForm 1 6 10)
            [mkPlan 0 PlanVerbatim; mkPlan 0 (PlanLpc [3; -1] 4 1 (mkRice 1 0 [4]))])
            [[10; 12; -15; 20]; [9; 10; 1600; -22]]) 0)) = Ok (Some b).

Example C35_example : exists b, example_block b
  /\ block_holds b [[10; 12; -15; 20]; [9; 10; 1600; -22]]
  /\ block_len Debug b = Ok 8 /\ block_duration b = 4 /\ block_channels b = 2
  /\ block_channel b 1 = Ok [9; 10; 1600; -22] /\ block_sample b 1 2 = Ok 1600
  /\ block_sample b 0 6 = Ok 1600
  /\ (exists w, block_sample b 1 4 = Panic w) /\ (exists w, block_channel b 2 = Panic w).
Proof.
  eexists. split; [vm_compute; reflexivity|].
  split; [repeat constructor; vm_compute; congruence|].
  repeat (split; [vm_compute; reflexivity|]). split; eexists; vm_compute; reflexivity.
Qed.

Example C36_example : exists b, example_block b
  /\ exists st, block_stereo_samples b = Ok st
  /\ fst (nexts (stereo_next Debug) 6 st)
     = [Ok (Some (10, 9)); Ok (Some (12, 10)); Ok (Some (-15, 1600)); Ok (Some (20, -22)); Ok None; Ok None].
Proof.
  eexists. split; [vm_compute; reflexivity|]. eexists. split; [vm_compute; reflexivity|vm_compute; reflexivity].
Qed.

(** Three blocks of different sizes, by sample number; and of the same size, by frame
    number. *)
Example C37_example :
  numbered_by_sample [mkHeader true 0 17 None (Separate 1) None; mkHeader true 17 20 None (Separate 2) None;
                      mkHeader true 37 16 None (Separate 1) None]
  /\ (let hs := [mkHeader false 0 17 None (Separate 1) None; mkHeader false 1 17 None (Separate 2) None;
                 mkHeader false 2 17 None (Separate 1) None] in numbered_by_frame hs /\ same_sizes hs).
Proof.
  split; [split; [repeat constructor|reflexivity]|]. split; [|exists 17; repeat constructor].
  split; [repeat constructor|]. split; [reflexivity|]. exists 17. split; [|repeat constructor; cbn; lia].
  intros [|[|[|i]]] h E Hi; cbn in Hi; try lia; injection E as <-; reflexivity.
Qed.

(** Two blocks with different numbers of channels, then the end, or something that
    is not a frame. *)
Definition example_frames : list Z :=
  encode_frame (mkInfo false 0 None (Separate 1) 8 (mkForm 0 6 0) [mkPlan 1 PlanVerbatim]) [[2; 4; -6]]
  ++ encode_frame (mkInfo false 1 None (Separate 2) 8 (mkForm 0 6 0) [mkPlan 0 PlanVerbatim; mkPlan 0 PlanConstant])
       [[1; 3]; [5; 5]].
Definition example_reader (data : list Z) : flac_reader cursor :=
  mkFr (mkSi 16 16 None None 44100 1 8 None (repeat 0 16)) None (Full (mkCursor data 0)).

Example C38_example : exists it, fr_samples (example_reader example_frames) = Ok it
  /\ fst (nexts (fs_next (cu_rb Debug) Debug 100) 9 it)
     = map (fun x => Ok (Some (ROk x))) [2; 4; -6; 1; 5; 3; 5] ++ [Ok None; Ok None].
Proof. eexists. split; [reflexivity|vm_compute; reflexivity]. Qed.

Example C39_example : exists it, fr_into_samples (example_reader (example_frames ++ [0; 0])) = Ok it
  /\ fst (nexts (fs_next (cu_rb Release) Release 100) 10 it)
     = map (fun x => Ok (Some (ROk x))) [2; 4; -6; 1; 5; 3; 5]
       ++ [Ok (Some (RErr (FormatError "frame sync code missing"))); Ok None; Ok None].
Proof. eexists. split; [reflexivity|vm_compute; reflexivity]. Qed.

Print Assumptions C35_holds.
Print Assumptions C35_decoded.
Print Assumptions C35_len.
Print Assumptions C35_channel.
Print Assumptions C35_no_channel.
Print Assumptions C35_sample.
Print Assumptions C35_no_sample.
Print Assumptions C35_unique.
Print Assumptions C36_pairs.
Print Assumptions C36_other.
Print Assumptions C37_own.
Print Assumptions C37_variable.
Print Assumptions C37_fixed_partial.
Print Assumptions C37_refuted.
Print Assumptions C38_blocks.
Print Assumptions C38_samples.
Print Assumptions C39_samples.
Print Assumptions C39_any.
