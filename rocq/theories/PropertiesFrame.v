(** Properties of reading frames: [FrameReader::read_next_or_eof] in src/frame.rs.

    [rb], [t], [D] as in PropertiesHeader.v.  [fuel] bounds the loops of the model;
    anything above the number of bytes left is enough. *)
From Verif Require Import SpecOps SpecFlac SpecCrc SpecFrame SpecApi SpecEncode ProofFrames ProofEncode.
From Verif Require Import SpecReader.

Section ForAllReaders.
  Context {S : Type} (rb : ReadBytes S) (t : tail) (D : S -> list Z -> Prop).

(** * C10: every accepted frame has intact checksums *)

Theorem C10_checksums : stream rb t D -> forall m fuel buffer st l b st',
  D st l -> (length l < fuel)%nat ->
  read_next_or_eof rb m fuel buffer st = (Ok (Some b), st') ->
  exists front crc8 body crc16 rest,
    l = front ++ [crc8] ++ body ++ [crc16 / 256; crc16 mod 256] ++ rest
    /\ D st' rest
    /\ (exists h, header_front h front)
    /\ is_crc 8 poly8 front crc8 /\ is_crc 16 poly16 (front ++ [crc8] ++ body) crc16.
Proof. exact (frame_checksums rb t D). Qed.

(** * C11: small corruptions of a frame are detected *)

(** [w] is what the decoder consumed when it accepted a frame, [w'] an altered
    string of the same length: the decoder does not accept [w'] as a frame. *)
Theorem C11_detected : stream rb t D ->
  forall m fuel buffer buffer' st w rest b st1 st2 w' rest' b' st3, unambiguous D ->
  (length (w ++ rest) < fuel)%nat -> (length (w' ++ rest') < fuel)%nat ->
  D st (w ++ rest) -> read_next_or_eof rb m fuel buffer st = (Ok (Some b), st1) -> D st1 rest ->
  D st2 (w' ++ rest') -> length w' = length w -> detected16 (difference w w') ->
  read_next_or_eof rb m fuel buffer' st2 = (Ok (Some b'), st3) -> ~ D st3 rest'.
Proof. exact (frame_damage rb t D). Qed.

(** * C26: frame decoding is lossless *)

(** [w] encodes the channels [chs] with the header [h]; anything may follow. *)
Theorem C26_decoded : stream rb t D -> forall m fuel buffer st h chs w rest,
  frame_code h chs w -> D st (w ++ rest) -> (length (w ++ rest) < fuel)%nat ->
  exists b st', read_next_or_eof rb m fuel buffer st = (Ok (Some b), st')
    /\ block_shows b h chs /\ D st' rest.
Proof. exact (frame_decoded rb t D). Qed.

(** [encode_frame f chs] (SpecEncode.v) are the bytes an encoder writes for the PCM
    channels [chs] with the choices [f]: the choices do not matter. *)
Theorem C26_round_trip : stream rb t D -> forall m fuel buffer st f chs rest,
  info_ok f chs ->
  D st (encode_frame f chs ++ rest) -> (length (encode_frame f chs ++ rest) < fuel)%nat ->
  exists b st', read_next_or_eof rb m fuel buffer st = (Ok (Some b), st')
    /\ block_holds b chs
    /\ block_time_of b = (if fi_variable f then fi_number f else fi_number f * block_duration b)
    /\ D st' rest.
Proof. exact (round_trip rb t D). Qed.

(** * C27: only well-formed frames are accepted *)

(** In release builds, for inputs without a run of 2^32 - 1 zero bits. *)
Theorem C27_partial : stream rb t D -> forall m fuel buffer st l b st',
  m = Debug \/ no_zero_run (2 ^ 32 - 1) (bytes_bits l) ->
  D st l -> (length l < fuel)%nat ->
  read_next_or_eof rb m fuel buffer st = (Ok (Some b), st') ->
  exists h chs w rest, l = w ++ rest /\ D st' rest /\ frame_code h chs w /\ block_shows b h chs.
Proof. exact (frame_only rb t D). Qed.

(** * C28: a stream of frames decodes frame by frame to its end *)

(** [buffers] are the buffers passed to the calls, which may be earlier blocks'. *)
Theorem C28_in_order : stream rb t D -> forall m fuel frames ws,
  Forall2 (fun f w => frame_code (fst f) (snd f) w) frames ws ->
  forall buffers rest st, length buffers = length frames -> D st (concat ws ++ rest) ->
  (length (concat ws ++ rest) < fuel)%nat ->
  Forall2 shows_frame (fst (history_all (read_next_or_eof rb m fuel) buffers st)) frames
  /\ D (snd (history_all (read_next_or_eof rb m fuel) buffers st)) rest.
Proof. exact (frames_in_order rb t D). Qed.

Theorem C28_to_the_end : stream rb t D -> forall m fuel frames ws,
  Forall2 (fun f w => frame_code (fst f) (snd f) w) frames ws ->
  forall buffers more st, length buffers = length frames -> t = TEof -> D st (concat ws) ->
  (length (concat ws) + 1 < fuel)%nat ->
  exists blocks, fst (history_all (read_next_or_eof rb m fuel) (buffers ++ more) st)
                 = blocks ++ repeat (Ok None) (length more)
    /\ Forall2 shows_frame blocks frames.
Proof. exact (frames_to_the_end rb t D). Qed.

(** * C29: decoded blocks never expose previous buffer contents *)

Theorem C29_buffers : stream rb t D -> forall m fuel buffer1 buffer2 st l,
  D st l -> (length l < fuel)%nat ->
  match fst (read_next_or_eof rb m fuel buffer1 st), fst (read_next_or_eof rb m fuel buffer2 st) with
  | Ok (Some b1), Ok (Some b2) =>
      block_time_of b1 = block_time_of b2 /\ block_duration b1 = block_duration b2
      /\ block_channels b1 = block_channels b2
      /\ v_items (block_into_buffer b1) = v_items (block_into_buffer b2)
  | r1, r2 => r1 = r2
  end.
Proof. exact (frame_buffers rb t D). Qed.

(** The buffer holds exactly the channels of the block size in the header (see
    [block_shows]), also where C27 does not apply. *)
Theorem C29_size : stream rb t D -> forall m fuel buffer st l b st',
  D st l -> (length l < fuel)%nat ->
  read_next_or_eof rb m fuel buffer st = (Ok (Some b), st') ->
  exists h chs hw rest, l = hw ++ rest /\ header_code h hw /\ block_shows b h chs.
Proof. exact (frame_block rb t D). Qed.

(** * C32: a truncated frame is reported as an unexpected end of file *)

(** The frame is [l ++ x], but only [l] is there: the error is that of the end of
    the stream ([UnexpectedEof] if the stream just ends, see [C32_eof]). *)
Theorem C32_truncated : forall m fuel buffer st l x h chs,
  stream rb t D -> D st l -> (2 <= length l)%nat -> x <> [] -> bytes_ok x ->
  frame_code h chs (l ++ x) -> (length (l ++ x) < fuel)%nat ->
  fst (read_next_or_eof rb m fuel buffer st) = Err (tail_error t).
Proof. exact (truncated rb t D). Qed.

(** * C33: a clean end of stream is only reported between frames *)

(** What holds: only if at most one byte was left (see [C33_refuted]). *)
Theorem C33_partial : stream rb t D -> forall m fuel buffer st l st',
  D st l -> (length l < fuel)%nat ->
  read_next_or_eof rb m fuel buffer st = (Ok None, st') ->
  t = TEof /\ (length l <= 1)%nat /\ D st' [].
Proof. exact (frame_end rb t D). Qed.

(** At the end of the stream a clean end is reported. *)
Theorem C33_end : stream rb t D -> forall m fuel buffer st l,
  t = TEof -> (length l <= 1)%nat -> (1 < fuel)%nat -> D st l ->
  exists st', read_next_or_eof rb m fuel buffer st = (Ok None, st') /\ D st' [].
Proof. exact (frame_ends rb t D). Qed.

(** * C34: decoding a frame depends only on the frame's bytes *)

(** [s1] stands before [l], [s2] (possibly of another kind of reader) before the
    longer [l ++ x].  Unless the short stream ends too early, the results are the
    same and [x] is untouched. *)
Theorem C34_frames : forall S2 (rb2 : ReadBytes S2) t2 D2, stream rb t D -> stream rb2 t2 D2 ->
  forall x m fuel buffer s1 s2 l, (2 <= length l)%nat -> D s1 l -> D2 s2 (l ++ x) ->
  let r1 := read_next_or_eof rb m fuel buffer s1 in
  let r2 := read_next_or_eof rb2 m fuel buffer s2 in
  match fst r1 with
  | Ok a => fst r2 = Ok a /\ exists l', D (snd r1) l' /\ D2 (snd r2) (l' ++ x)
  | Err e => e = tail_error t \/ fst r2 = Err e
      /\ ((forall k, e <> IoError k) -> exists l', D (snd r1) l' /\ D2 (snd r2) (l' ++ x))
  | o => fst r2 = o
  end.
Proof. exact (fun S2 rb2 t2 D2 H1 H2 => longer_frame rb rb2 t t2 D D2 H1 H2). Qed.

Theorem C34_metadata : forall S2 (rb2 : ReadBytes S2) t2 D2, stream rb t D -> stream rb2 t2 D2 ->
  forall x m un1 un2 s1 s2 l,
  (forall n, length (un1 n) = n) -> (forall n, length (un2 n) = n) ->
  D s1 l -> D2 s2 (l ++ x) ->
  let r1 := read_metadata_block_with_header rb m un1 s1 in
  let r2 := read_metadata_block_with_header rb2 m un2 s2 in
  match fst r1 with
  | Ok a => fst r2 = Ok a /\ exists l', D (snd r1) l' /\ D2 (snd r2) (l' ++ x)
  | Err e => e = tail_error t \/ fst r2 = Err e
      /\ ((forall k, e <> IoError k) -> exists l', D (snd r1) l' /\ D2 (snd r2) (l' ++ x))
  | o => fst r2 = o
  end.
Proof. exact (fun S2 rb2 t2 D2 H1 H2 => longer_metadata rb rb2 t t2 D D2 H1 H2). Qed.

(** * C52: Unsupported is reported only for specified but unimplemented features *)

Theorem C52_only : stream rb t D -> forall m fuel buffer st l u,
  m = Debug \/ no_zero_run (2 ^ 32 - 1) (bytes_bits l) ->
  D st l -> (length l < fuel)%nat ->
  fst (read_next_or_eof rb m fuel buffer st) = Err (Unsupported u) -> unsupported_frame l.
Proof. exact (frame_unsup_only rb t D). Qed.

Theorem C52_always : stream rb t D -> forall m fuel buffer st l,
  unsupported_frame l -> D st l -> (length l < fuel)%nat ->
  exists u, fst (read_next_or_eof rb m fuel buffer st) = Err (Unsupported u).
Proof. exact (frame_unsup rb t D). Qed.
End ForAllReaders.

(** * What does not hold *)

(** C27 without the restriction. *)
Definition only_frames_are_accepted : Prop := forall m data b st',
  bytes_ok data -> len data < 2 ^ 63 ->
  read_next_or_eof (cu_rb m) m (Datatypes.S (length data)) (mkVec [] 0) (mkCursor data 0) = (Ok (Some b), st') ->
  cursor_at st' [] -> exists h chs, frame_code h chs data /\ block_shows b h chs.

(** In release builds 2^32 zeros before the end of the unary count of wasted bits
    pass for none. *)
Theorem C27_refuted : ~ only_frames_are_accepted.
Proof.
  exact (fun H => match huge_accepted (Z.to_nat (2 ^ 29)) (Z2Nat.id (2 ^ 29) ltac:(lia)) with
    | ex_intro _ data (ex_intro _ b (ex_intro _ st' (conj Hb (conj Hl (conj E (conj He Hn)))))) =>
        match H Release data b st' Hb Hl E He with
        | ex_intro _ h (ex_intro _ chs (conj Hw Hs)) => Hn h chs Hs Hw
        end
    end).
Qed.

(** C31. *)
Definition frames_never_panic : Prop := forall m fuel buffer data,
  bytes_ok data -> len data < 2 ^ 63 -> (length data < fuel)%nat ->
  value_or_error (fst (read_next_or_eof (cu_rb m) m fuel buffer (mkCursor data 0))).

Theorem C31_refuted : ~ frames_never_panic.
Proof. exact (huge_refutes (Z.to_nat (2 ^ 29)) (Z2Nat.id (2 ^ 29) ltac:(lia))). Qed.

(** C33: [Ok None] only at the end of the stream. *)
Definition clean_end_only_at_the_end : Prop := forall m fuel buffer data st',
  bytes_ok data -> len data < 2 ^ 63 -> (length data < fuel)%nat ->
  read_next_or_eof (cu_rb m) m fuel buffer (mkCursor data 0) = (Ok None, st') -> data = [].

Theorem C33_refuted : ~ clean_end_only_at_the_end.
Proof.
  exact (fun H => ltac:(
    specialize (H Debug 5%nat (mkVec [] 0) [255] _ ltac:(repeat constructor; unfold is_byte; lia)
      ltac:(vm_compute; reflexivity) ltac:(cbn; lia) ltac:(vm_compute; reflexivity)); discriminate H)).
Qed.

(** * Concrete cases *)

Example C32_eof : tail_error TEof = IoError UnexpectedEof.
Proof. reflexivity. Qed.

(** [tiny_frame]: one channel of 16 samples -3, 44.1 kHz, 8 bits. *)
Definition tiny_result (r : outcome (option block)) : Prop :=
  exists b, r = Ok (Some b) /\ block_time_of b = 80 /\ block_duration b = 16 /\ block_channels b = 1
    /\ v_items (block_into_buffer b) = repeat (-3) 16.

Example C26_example : frame_code tiny_header [repeat (-3) 16] tiny_frame
  /\ cursor_at (mkCursor (tiny_frame ++ [1; 2; 3]) 0) (tiny_frame ++ [1; 2; 3])
  /\ tiny_result (fst (read_next_or_eof (cu_rb Debug) Debug 100 (mkVec [7; 7] 2) (mkCursor (tiny_frame ++ [1; 2; 3]) 0)))
  /\ tiny_result (fst (read_next_or_eof (br_rb Release) Release 100 (mkVec [] 0)
       (br_new [EvData [255]; EvData [248; 105; 2]; EvData [5; 15; 246; 0]; EvData [253; 124; 163; 17]]))).
Proof.
  split; [exact tiny_frame_ok|]. split.
  - apply cursor_start; [repeat constructor; lia|vm_compute; reflexivity].
  - split; (eexists; split; [vm_compute; reflexivity|]; vm_compute; auto).
Qed.

Example C10_example :
  tiny_result (fst (read_next_or_eof (cu_rb Debug) Debug 100 (mkVec [] 0) (mkCursor (tiny_frame ++ [9]) 0)))
  /\ tiny_frame ++ [9] = tiny_front ++ [246] ++ [0; 253] ++ [31907 / 256; 31907 mod 256] ++ [9]
  /\ header_front tiny_header tiny_front
  /\ is_crc 8 poly8 tiny_front 246 /\ is_crc 16 poly16 (tiny_front ++ [246] ++ [0; 253]) 31907.
Proof.
  split; [eexists; split; [vm_compute; reflexivity|]; vm_compute; auto|]. split; [reflexivity|].
  split; [exact tiny_front_ok|].
  split; (split; [lia|]).
  - exists 278225188990026. split; [lia|reflexivity].
  - exists 3148362377540863079391. split; [lia|reflexivity].
Qed.
Example C27_example : no_zero_run (2 ^ 32 - 1) (bytes_bits (tiny_frame ++ [0; 0]))
  /\ tiny_result (fst (read_next_or_eof (cu_rb Release) Release 100 (mkVec [] 0) (mkCursor (tiny_frame ++ [0; 0]) 0))).
Proof.
  split; [|eexists; split; [vm_compute; reflexivity|]; vm_compute; auto].
  intros a b E. apply (f_equal (@length bool)) in E. rewrite !app_length, repeat_length in E.
  change (length (bytes_bits (tiny_frame ++ [0; 0]))) with 104%nat in E. lia.
Qed.
Example C33_example :
  fst (read_next_or_eof (cu_rb Debug) Debug 2 (mkVec [] 0) (mkCursor [] 0)) = Ok None
  /\ fst (read_next_or_eof (cu_rb Debug) Debug 2 (mkVec [] 0) (mkCursor [255] 0)) = Ok None
  /\ fst (read_next_or_eof (cu_rb Debug) Debug 9 (mkVec [] 0) (mkCursor [255; 248] 0)) = Err (IoError UnexpectedEof).
Proof. vm_compute. auto. Qed.
(** Half a frame and then all of it; and more behind it. *)
Example C34_example :
  let l := firstn 8 tiny_frame in
  let x := skipn 8 tiny_frame in
  fst (read_next_or_eof (cu_rb Debug) Debug 100 (mkVec [] 0) (mkCursor l 0)) = Err (tail_error TEof)
  /\ tiny_result (fst (read_next_or_eof (cu_rb Debug) Debug 100 (mkVec [] 0) (mkCursor (l ++ x) 0)))
  /\ tiny_result (fst (read_next_or_eof (cu_rb Debug) Debug 100 (mkVec [] 0) (mkCursor ((l ++ x) ++ [1]) 0))).
Proof. split; [vm_compute; reflexivity|]. split; (eexists; split; [vm_compute; reflexivity|]; vm_compute; auto). Qed.

(** Two channels of four samples as mid and side, one with a fixed predictor and two
    partitions, the other with linear prediction. *)
Definition stereo_info : frame_info :=
  mkInfo true 1000 (Some 48000) MidSide 16 (mkForm 1 6 10)
    [mkPlan 0 (PlanFixed 2 (mkRice 0 1 [3; 2])); mkPlan 0 (PlanLpc [3; -1] 4 1 (mkRice 1 0 [4]))].
Definition stereo_pcm : list (list Z) := [[10; 12; -15; 20]; [9; 10; 1600; -22]].

Example C26_round_trip_example : info_ok stereo_info stereo_pcm
  /\ exists b, fst (read_next_or_eof (cu_rb Debug) Debug 100 (mkVec [7; 7] 2)
                      (mkCursor (encode_frame stereo_info stereo_pcm) 0)) = Ok (Some b)
       /\ block_time_of b = 1000 /\ v_items (block_into_buffer b) = [10; 12; -15; 20; 9; 10; 1600; -22].
Proof.
  split.
  - unfold info_ok. split; [exact I|]. split; [reflexivity|]. split; [cbn; tauto|].
    split; [repeat constructor; vm_compute; intuition congruence|].
    split; [vm_compute; repeat (solve [intuition (congruence || lia)] || split || constructor)|].
    split; [cbn; lia|]. split; [vm_compute; intuition congruence|]. split; [discriminate|].
    split; [exact (size_8bit 4 ltac:(lia))|apply rate_table; cbn; tauto].
  - eexists. split; [vm_compute; reflexivity|]. vm_compute. auto.
Qed.

(** One flipped bit in the constant sample, and in the checksum. *)
Example C11_example :
  let w := tiny_front ++ [246] ++ [0; 253] ++ [124; 163] in
  let w' := tiny_front ++ [246] ++ [0; 252] ++ [124; 163] in
  detected16 (difference w w') /\ length w' = length w
  /\ fst (read_next_or_eof (cu_rb Debug) Debug 100 (mkVec [] 0) (mkCursor w' 0))
     = Err (FormatError "frame CRC mismatch").
Proof. split; [right; left; vm_compute; reflexivity|]. split; vm_compute; reflexivity. Qed.

Example C28_example :
  let f := (tiny_header, [repeat (-3) 16]) in
  Forall2 (fun f w => frame_code (fst f) (snd f) w) [f; f; f] [tiny_frame; tiny_frame; tiny_frame].
Proof. repeat constructor; exact tiny_frame_ok. Qed.

(** A buffer that is too short, one that is too long, and its old contents. *)
Example C29_example :
  tiny_result (fst (read_next_or_eof (cu_rb Release) Release 100 (mkVec [] 0) (mkCursor tiny_frame 0)))
  /\ tiny_result (fst (read_next_or_eof (cu_rb Release) Release 100 (mkVec (repeat 9 50) 64) (mkCursor tiny_frame 0))).
Proof. split; (eexists; split; [vm_compute; reflexivity|]; vm_compute; auto). Qed.

Example C32_example :
  frame_code tiny_header [repeat (-3) 16] ([255; 248; 105; 2; 5; 15; 246; 0; 253; 124] ++ [163])
  /\ fst (read_next_or_eof (cu_rb Debug) Debug 100 (mkVec [] 0)
            (mkCursor [255; 248; 105; 2; 5; 15; 246; 0; 253; 124] 0)) = Err (IoError UnexpectedEof).
Proof. split; [exact tiny_frame_ok|vm_compute; reflexivity]. Qed.

(** A header that takes the sample width from the streaminfo. *)
Example C52_example : unsupported_frame [255; 248; 105; 0; 5; 15; 32; 1; 2; 3].
Proof.
  exists (mkHeader false 5 16 (Some 44100) (Separate 1) None), [255; 248; 105; 0; 5; 15; 32], [1; 2; 3].
  split; [reflexivity|]. split; [|exact I].
  exists [255; 248; 105; 0; 5; 15], 32. split; [|split; [|reflexivity]].
  - exists 6, [15], 9, [], 0, [5]. split; [exact (size_8bit 16 ltac:(lia))|].
    split; [apply rate_table; cbn; tauto|]. split; [cbn; lia|]. split; [cbn; tauto|].
    split; [left; exists 0%nat; repeat split; cbn; lia|]. split; [cbn; lia|reflexivity].
  - split; [lia|]. exists 278225188856416. split; [lia|reflexivity].
Qed.

Print Assumptions C10_checksums.
Print Assumptions C11_detected.
Print Assumptions C26_decoded.
Print Assumptions C26_round_trip.
Print Assumptions C27_partial.
Print Assumptions C27_refuted.
Print Assumptions C28_in_order.
Print Assumptions C28_to_the_end.
Print Assumptions C29_buffers.
Print Assumptions C29_size.
Print Assumptions C31_refuted.
Print Assumptions C32_truncated.
Print Assumptions C33_partial.
Print Assumptions C33_end.
Print Assumptions C33_refuted.
Print Assumptions C34_frames.
Print Assumptions C34_metadata.
Print Assumptions C52_only.
Print Assumptions C52_always.
