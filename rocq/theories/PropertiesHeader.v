(** Properties of src/crc.rs and of the frame headers in src/frame.rs.

    The theorems are about any reader [rb] that behaves as a byte stream ([stream],
    shown for [BufferedReader] and [Cursor] in PropertiesInput.v); [D st l] says
    that in state [st] the bytes [l] are still to come. *)
From Verif Require Import SpecOps SpecFlac SpecCrc SpecFrame SpecApi ProofFrames.
From Verif Require Import SpecReader.

Section ForAllReaders.
  Context {S : Type} (rb : ReadBytes S) (t : tail) (D : S -> list Z -> Prop).

(** * C08, C09: the CRC readers *)

(** They hand over the bytes unchanged, and know the checksum of what they handed
    over.  ([read_into] and [skip] panic in the CRC readers; nothing in the crate
    calls them there.) *)
Theorem C08_crc8 : stream rb t D -> forall ops st l, D st l -> Forall crc_op ops ->
  let r := history (run_byte_op (crc8_rb rb)) ops (crc8_new st) in
  fst r = fst (history (spec_byte_op t) ops l)
  /\ (Forall succeeded (fst r) ->
      exists consumed rest, l = consumed ++ rest /\ D (c8_inner (snd r)) rest
        /\ exists c, fst (crc8_crc (snd r)) = Ok c /\ is_crc 8 poly8 consumed c).
Proof. exact (crc8_history rb t D). Qed.

Theorem C09_crc16 : stream rb t D -> forall ops st l, D st l -> Forall crc_op ops ->
  let r := history (run_byte_op (crc16_rb rb)) ops (crc16_new st) in
  fst r = fst (history (spec_byte_op t) ops l)
  /\ (Forall succeeded (fst r) ->
      exists consumed rest, l = consumed ++ rest /\ D (c16_inner (snd r)) rest
        /\ exists c, fst (crc16_crc (snd r)) = Ok c /\ is_crc 16 poly16 consumed c).
Proof. exact (crc16_history rb t D). Qed.

(** A checksum is determined by the bytes. *)
Theorem C08_unique : forall l c c', is_crc 8 poly8 l c -> is_crc 8 poly8 l c' -> c = c'.
Proof. exact crc8_unique. Qed.
Theorem C09_unique : forall l c c', is_crc 16 poly16 l c -> is_crc 16 poly16 l c' -> c = c'.
Proof. exact crc16_unique. Qed.

(** * C12: small corruptions of a frame header are detected *)

(** [w] is what the decoder consumed when it accepted a header, [w'] an altered
    string of the same length: the decoder does not accept [w'] as a header.  (It
    may accept a header of another length at that place.) *)
Theorem C12_detected : stream rb t D ->
  forall m st w rest fh st1 st2 w' rest' fh' st3, unambiguous D ->
  D st (w ++ rest) -> read_frame_header_or_eof rb m st = (Ok (Some fh), st1) -> D st1 rest ->
  D st2 (w' ++ rest') -> length w' = length w -> detected8 (difference w w') ->
  read_frame_header_or_eof rb m st2 = (Ok (Some fh'), st3) -> ~ D st3 rest'.
Proof. exact (header_damage rb t D). Qed.

(** * C13: frame and sample numbers are decoded exactly *)

Theorem C13_decoded : stream rb t D -> forall m st w v rest,
  number_code w v -> D st (w ++ rest) ->
  exists st', read_var_length_int rb m st = (Ok v, st') /\ D st' rest.
Proof. exact (number_decoded rb t D). Qed.

(** Every number below 2^36 has an encoding, one of each length that can hold it. *)
Theorem C13_all_numbers : forall v k, (k <= 6)%nat -> 0 <= v < number_limit k ->
  number_code (number_bytes k v) v /\ length (number_bytes k v) = (k + 1)%nat.
Proof.
  exact (fun v k Hk Hv => conj (ex_intro _ k (conj Hk (conj Hv eq_refl)))
    match k return length (number_bytes k v) = (k + 1)%nat with
    | O => eq_refl
    | Datatypes.S k' => f_equal Datatypes.S (eq_trans (continuation_length (Datatypes.S k') v) (eq_sym (PeanoNat.Nat.add_1_r k')))
    end).
Qed.

Theorem C13_malformed : stream rb t D -> forall m st w rest,
  malformed_number w -> D st (w ++ rest) ->
  exists e, fst (read_var_length_int rb m st) = Err (FormatError e).
Proof. exact (number_malformed rb t D). Qed.

(** Nothing else is accepted, except numbers that start with 0xff (see C14). *)
Theorem C13_only : stream rb t D -> forall m st l v st',
  D st l -> read_var_length_int rb m st = (Ok v, st') ->
  exists w rest, l = w ++ rest /\ D st' rest /\ accepted_number w v.
Proof. exact (number_only rb t D). Qed.

(** * C15: frame headers are decoded per the format *)

Theorem C15_decoded : stream rb t D -> forall m st h w rest,
  header_code h w -> D st (w ++ rest) ->
  exists fh st', read_frame_header_or_eof rb m st = (Ok (Some fh), st')
    /\ header_shows fh h /\ D st' rest.
Proof. exact (header_decoded rb t D). Qed.

(** And nothing else is accepted. *)
Theorem C15_only : stream rb t D -> forall m st l fh st',
  D st l -> read_frame_header_or_eof rb m st = (Ok (Some fh), st') ->
  exists h w rest, l = w ++ rest /\ D st' rest /\ header_code h w /\ header_shows fh h.
Proof. exact (header_only rb t D). Qed.

(** * C16: reserved frame header patterns are rejected *)

Theorem C16_header : stream rb t D -> forall m st w rest,
  reserved_header w -> D st (w ++ rest) ->
  exists e, fst (read_frame_header_or_eof rb m st) = Err (FormatError e).
Proof. exact (header_rejected rb t D). Qed.

Theorem C16_frame : stream rb t D -> forall m fuel buffer st w rest,
  reserved_header w -> D st (w ++ rest) -> (length (w ++ rest) < fuel)%nat ->
  exists e, fst (read_next_or_eof rb m fuel buffer st) = Err (FormatError e).
Proof. exact (frame_reserved rb t D). Qed.

(** * C14: variable-length integers are at most 36 bits *)

(** What holds: a number has at most 42 bits, and at most 36 unless its first byte,
    the fifth of the header, is 0xff (which the format does not allow). *)
Theorem C14_partial : stream rb t D -> forall m st l fh st' n,
  D st l -> read_frame_header_or_eof rb m st = (Ok (Some fh), st') ->
  fh_block_time fh = SampleNumber n ->
  0 <= n < 2 ^ 42 /\ (nth 4 l 0 <> 255 -> n < 2 ^ 36).
Proof. exact (sample_number_bound rb t D). Qed.
End ForAllReaders.

(** The documented bound. *)
Definition numbers_have_36_bits : Prop := forall m data fh st' n,
  bytes_ok data -> len data < 2 ^ 63 ->
  read_frame_header_or_eof (cu_rb m) m (mkCursor data 0) = (Ok (Some fh), st') ->
  fh_block_time fh = SampleNumber n -> n < 2 ^ 36.

(** A header with sample number 2^40 + 123. *)
Definition long_header : list Z :=
  [255; 249; 105; 2; 255; 144; 128; 128; 128; 128; 129; 187; 15; 133].

Theorem C14_refuted : ~ numbers_have_36_bits.
Proof.
  exact (fun H => ltac:(
    specialize (H Debug long_header _ _ _
      ltac:(repeat constructor; unfold is_byte; lia) ltac:(vm_compute; reflexivity) ltac:(vm_compute; reflexivity) ltac:(reflexivity));
    vm_compute in H; discriminate H)).
Qed.

(** * Concrete cases *)

Example C08_example :
  let r := history (run_byte_op (crc8_rb (cu_rb Debug))) [OpU8; OpBe16OrEof; OpLe32]
             (crc8_new (mkCursor [255; 248; 105; 2; 5; 15; 246] 0)) in
  Forall crc_op [OpU8; OpBe16OrEof; OpLe32]
  /\ fst r = [Ok (RNum 255); Ok (RNum 63593); Ok (RNum 4128179458)]
  /\ fst (crc8_crc (snd r)) = Ok 0 /\ is_crc 8 poly8 [255; 248; 105; 2; 5; 15] 246.
Proof.
  split; [repeat constructor|]. split; [vm_compute; reflexivity|]. split; [vm_compute; reflexivity|].
  split; [lia|]. exists 278225188990026. split; [lia|reflexivity].
Qed.
Example C09_example :
  let r := history (run_byte_op (crc16_rb (cu_rb Debug))) [OpBe32; OpBe32; OpU8]
             (crc16_new (mkCursor tiny_frame 0)) in
  fst r = [Ok (RNum 4294469890); Ok (RNum 84932096); Ok (RNum 253)]
  /\ fst (crc16_crc (snd r)) = Ok (124 * 256 + 163).
Proof. vm_compute. split; reflexivity. Qed.

(** The header of [tiny_frame], and the same with the frame number changed from 5
    to 4 (one flipped bit). *)
Example C12_example :
  let w := tiny_front ++ [246] in
  let w' := [255; 248; 105; 2; 4; 15; 246] in
  detected8 (difference w w') /\ length w' = length w
  /\ fst (read_frame_header_or_eof (cu_rb Debug) Debug (mkCursor w 0))
     = Ok (Some (mkFh (FrameNumber 5) 16 (Some 44100) (Independent 1) (Some 8)))
  /\ fst (read_frame_header_or_eof (cu_rb Debug) Debug (mkCursor w' 0))
     = Err (FormatError "frame header CRC mismatch").
Proof.
  split; [right; left; vm_compute; reflexivity|].
  split; [reflexivity|]. split; vm_compute; reflexivity.
Qed.
Example C12_readers : (forall t, unambiguous (buffered t)) /\ unambiguous cursor_at.
Proof. exact (conj buffered_unambiguous cursor_unambiguous). Qed.

Example C13_example : number_code [206; 187] 955 /\ number_code [224; 142; 187] 955
  /\ malformed_number [187] /\ malformed_number [206; 59]
  /\ fst (read_var_length_int (cu_rb Debug) Debug (mkCursor [224; 142; 187; 1] 0)) = Ok 955.
Proof.
  split; [exists 1%nat; repeat split; try (cbn; lia); reflexivity|].
  split; [exists 2%nat; repeat split; try (cbn; lia); reflexivity|].
  split; [constructor; unfold continues; lia|].
  split; [apply (malformed_continuation 206 1 [] 59); [split; cbn; lia|constructor|cbn; lia|lia|unfold continues; lia]|].
  vm_compute. reflexivity.
Qed.

(** The largest number, in seven bytes, and a larger one whose first byte is 255. *)
Example C14_example :
  let front num := [255; 249; 105; 2] ++ num ++ [15] in
  fst (read_frame_header_or_eof (cu_rb Debug) Debug (mkCursor (front [254; 191; 191; 191; 191; 191; 191] ++ [215]) 0))
  = Ok (Some (mkFh (SampleNumber (2 ^ 36 - 1)) 16 (Some 44100) (Independent 1) (Some 8)))
  /\ nth 4 (front [254; 191; 191; 191; 191; 191; 191]) 0 <> 255
  /\ fst (read_frame_header_or_eof (cu_rb Debug) Debug (mkCursor (front [255; 191; 191; 191; 191; 191; 191; 191] ++ [48]) 0))
  = Ok (Some (mkFh (SampleNumber (2 ^ 42 - 1)) 16 (Some 44100) (Independent 1) (Some 8))).
Proof. vm_compute. split; [reflexivity|]. split; [discriminate|reflexivity]. Qed.

Example C15_example : header_code tiny_header (tiny_front ++ [246])
  /\ cursor_at (mkCursor ((tiny_front ++ [246]) ++ [7; 8]) 0) ((tiny_front ++ [246]) ++ [7; 8]).
Proof.
  split; [exact tiny_header_ok|]. exists []. split; [reflexivity|]. split; [reflexivity|].
  split; [repeat constructor; unfold is_byte; lia|vm_compute; reflexivity].
Qed.

Example C16_example :
  reserved_header [255; 250] /\ reserved_header [255; 248; 9] /\ reserved_header [255; 248; 105; 208]
  /\ reserved_header ([255; 248; 121; 2] ++ [5] ++ [255; 255])
  /\ reserved_header ([255; 248; 105; 2] ++ [254; 130; 128; 128; 128; 128; 128]).
Proof.
  split; [apply reserved_sync_bit; lia|]. split; [apply reserved_size_code; lia|].
  split; [apply reserved_channel_code; [repeat constructor; lia|lia]|].
  split.
  - apply (reserved_size 255 248 121 2 [5] 5); [repeat constructor; lia|lia|].
    exists 0%nat. repeat split; cbn; lia.
  - apply (reserved_frame_number 255 248 105 2 _ (2 ^ 31)); [repeat constructor; lia|lia| |lia].
    exists 6%nat. repeat split; try (cbn; lia); reflexivity.
Qed.

Print Assumptions C08_crc8.
Print Assumptions C09_crc16.
Print Assumptions C08_unique.
Print Assumptions C09_unique.
Print Assumptions C12_detected.
Print Assumptions C13_decoded.
Print Assumptions C13_all_numbers.
Print Assumptions C13_malformed.
Print Assumptions C13_only.
Print Assumptions C14_partial.
Print Assumptions C14_refuted.
Print Assumptions C15_decoded.
Print Assumptions C15_only.
Print Assumptions C16_header.
Print Assumptions C16_frame.
